(** Properties of calibrations: C21 - C25, C69. *)
From Coq Require Import ZArith Bool Reals Lia Lra String List.
From Flocq Require Import Core IEEE754.BinarySingleNaN.
From Verif Require Import PyBase F64 CalModel CalSpec CalProofs CalHwProofs CalExpProofs CalByteProofs CalDefProofs.
Import ListNotations.
Open Scope Z_scope.

(** A pair given by its numbers, for the examples. *)
Definition pair_ex (g o : f64) : cpair := mkPair g o None.
Lemma pair_ex_valid g o : fin g && fin o && flt (fz 0) g = true -> valid_pair (pair_ex g o).
Proof.
  intros H. destruct (new_pair_ok g o None (pair_ex g o)) as [_ V]; [|exact V].
  unfold new_pair. now rewrite H.
Qed.

(* ------------------------------------------------------------------ C21 *)

Theorem C21_raw_roundtrip p z : valid_pair p -> 0 <= z < 2 ^ 32 ->
  (bpow radix2 (-1000) <= fR (cp_gain p) <= bpow radix2 960)%R ->
  (Rabs (fR (cp_off p)) <= bpow radix2 51 * fR (cp_gain p))%R ->
  si_to_raw p (raw_to_si p (fz z) true) = Ok z.
Proof. intros V. exact (raw_roundtrip p V z). Qed.
Print Assumptions C21_raw_roundtrip.
Example C21_ex : let p := pair_ex (fdec 19 8) (fdec (-37) 6) in
  si_to_raw p (raw_to_si p (fz 4294967295) true) = Ok 4294967295.
Proof. vm_compute. reflexivity. Qed.
(** The bound on the ratio is needed: an offset of 2^54 gains swallows the raw value. *)
Theorem C21_ratio_needed : exists p, valid_pair p /\ si_to_raw p (raw_to_si p (fz 1) true) = Ok 0.
Proof.
  exists (pair_ex (fz 1) (fz (2 ^ 54))). split; [apply pair_ex_valid; vm_compute; reflexivity|].
  vm_compute. reflexivity.
Qed.
Print Assumptions C21_ratio_needed.

(** Without negative values: what is below zero becomes zero and nothing else changes; values
    below zero are then lost for the way back. *)
Theorem C21_cut p raw : fin (raw_to_si p raw true) = true ->
  fin (raw_to_si p raw false) = true /\
  fR (raw_to_si p raw false) = Rmax (fR (raw_to_si p raw true)) 0.
Proof.
  intros F. assert (Fz : fin (fz 0) = true) by reflexivity. unfold raw_to_si in *. split; [apply fmax_fin; assumption|].
  rewrite fmax_R by assumption. now rewrite fz_R by lia.
Qed.
Print Assumptions C21_cut.
Example C21_cut_ex : let p := pair_ex (fdec 25 2) (fdec (-125) 2) in
  si_to_raw p (raw_to_si p (fz 2) true) = Ok 2 /\ si_to_raw p (raw_to_si p (fz 2) false) = Ok 5
  /\ si_to_raw p (raw_to_si p (fz 9) false) = Ok 9.
Proof. split; [vm_compute; reflexivity|]. split; vm_compute; reflexivity. Qed.

(* ------------------------------------------------------------------ C22 *)

Theorem C22_nonnegative p v n : valid_pair p -> si_to_raw p v = Ok n -> 0 <= n.
Proof. intros V. exact (si_to_raw_nonneg p v n). Qed.
Print Assumptions C22_nonnegative.

Theorem C22_monotone p v1 v2 n2 : valid_pair p -> fin v1 = true -> fin v2 = true -> (fR v1 <= fR v2)%R ->
  si_to_raw p v2 = Ok n2 -> exists n1, si_to_raw p v1 = Ok n1 /\ n1 <= n2.
Proof. intros V. exact (si_to_raw_mono p V v1 v2 n2). Qed.
Print Assumptions C22_monotone.

Theorem C22_accurate p v n : valid_pair p -> fin v = true -> (fR (cp_off p) <= fR v)%R ->
  (Rabs (fR v) <= bpow radix2 1000)%R -> (Rabs (fR (cp_off p)) <= bpow radix2 1000)%R ->
  (fR (cp_gain p) <= bpow radix2 960)%R ->
  si_to_raw p v = Ok n -> n <= 2 ^ 53 ->
  let w := raw_to_si p (fz n) true in
  fin w = true
  /\ (Rabs (fR w - fR v) <= fR (cp_gain p) / 2
        + bpow radix2 (-50) * (Rabs (fR v) + Rabs (fR (cp_off p)) + fR (cp_gain p)) + bpow radix2 (-1070))%R.
Proof. intros V. exact (si_roundtrip p V v n). Qed.
Print Assumptions C22_accurate.
(** Half way between two codes the even one is taken, below the offset it is zero. *)
Example C22_ex : let p := pair_ex (fdec 25 2) (fdec 125 2) in
  si_to_raw p (fdec 1875 3) = Ok 2 /\ si_to_raw p (fdec 2125 3) = Ok 4 /\ si_to_raw p (fz (-7)) = Ok 0
  /\ feq (raw_to_si p (fz 2) true) (fdec 175 2) = true.
Proof. vm_compute. auto. Qed.

(* ------------------------------------------------------------------ C23 *)

Theorem C23_length c : List.length (to_bytestr c) = 128%nat /\ bytes (to_bytestr c).
Proof. split; [apply to_bytestr_length|apply to_bytestr_bytes]. Qed.
Print Assumptions C23_length.

Theorem C23_roundtrip c : valid_cape c -> exists c', from_bytestr (to_bytestr c) = Ok c' /\ same_numbers c c'.
Proof. exact (roundtrip_bytes c). Qed.
Print Assumptions C23_roundtrip.

Theorem C23_other_length data : List.length data <> 128%nat -> from_bytestr data = Err StructError.
Proof. exact (wrong_length data). Qed.
Print Assumptions C23_other_length.

Theorem C23_parse_serialise data c : bytes data -> from_bytestr data = Ok c -> to_bytestr c = data.
Proof. exact (reverse_bytes data c). Qed.
Print Assumptions C23_parse_serialise.

(** What is accepted is a valid calibration, 128 bytes that are none are a ValueError. *)
Theorem C23_only_valid data : match from_bytestr data with
  | Ok c => List.length data = 128%nat /\ valid_cape c
  | Err e => e = StructError /\ List.length data <> 128%nat \/ e = ValueError /\ List.length data = 128%nat
  end.
Proof.
  destruct (from_bytestr data) eqn:E.
  - apply parsed_ok in E. tauto.
  - exact (parsed_err data e E).
Qed.
Print Assumptions C23_only_valid.

(** Eight different pairs; the unit is not stored, the default one comes back. *)
Definition cape_ex : cal_cape :=
  let p n := mkPair (fdec n 5) (fdec (3 * n - 7) 4) (Some "mV"%string) in
  mkCape (mkHrv (p 1) (p 2) (p 3) (p 4)) (mkEmu (p 5) (p 6) (p 7) (p 8)).
Example C23_ex : (let* c := from_bytestr (to_bytestr cape_ex) in Ok (to_bytestr c)) = Ok (to_bytestr cape_ex)
  /\ firstn 8 (to_bytestr cape_ex) = [62; 228; 248; 181; 136; 227; 104; 241]
  /\ (let* c := from_bytestr (to_bytestr cape_ex) in Ok (cp_unit (adc_C_B (emulator c)))) = Ok (Some "A"%string).
Proof. vm_compute. auto. Qed.

(* ------------------------------------------------------------------ C24 *)

Theorem C24_harvester c l : valid_pair (adc_C_Hrv c) -> valid_pair (adc_V_Sense c) -> valid_pair (dac_V_Hrv c) ->
  export_hrv c = Ok l ->
  sysfs_for (fR (cp_gain (adc_C_Hrv c))) (fR (cp_off (adc_C_Hrv c))) (fR (cp_gain (adc_V_Sense c)))
    (fR (cp_off (adc_V_Sense c))) (fR (cp_gain (dac_V_Hrv c))) (fR (cp_off (dac_V_Hrv c))) l.
Proof. exact (export_hrv_ok c l). Qed.
Print Assumptions C24_harvester.

(** For the emulator the voltage converter is a dummy with gain one. *)
Theorem C24_emulator c l : valid_pair (adc_C_A c) -> valid_pair (dac_V_A c) ->
  export_emu c = Ok l ->
  sysfs_for (fR (cp_gain (adc_C_A c))) (fR (cp_off (adc_C_A c))) 1 0
    (fR (cp_gain (dac_V_A c))) (fR (cp_off (dac_V_A c))) l.
Proof. exact (export_emu_ok c l). Qed.
Print Assumptions C24_emulator.

(** Values that fit are exported. *)
Theorem C24_total c : valid_pair (adc_C_Hrv c) -> valid_pair (adc_V_Sense c) -> valid_pair (dac_V_Hrv c) ->
  fits (fR (cp_gain (adc_C_Hrv c))) (fR (cp_off (adc_C_Hrv c))) (fR (cp_gain (adc_V_Sense c)))
    (fR (cp_off (adc_V_Sense c))) (fR (cp_gain (dac_V_Hrv c))) (fR (cp_off (dac_V_Hrv c))) ->
  exists l, export_hrv c = Ok l.
Proof. exact (export_hrv_total c). Qed.
Print Assumptions C24_total.
Theorem C24_total_emulator c : valid_pair (adc_C_A c) -> valid_pair (dac_V_A c) ->
  fits (fR (cp_gain (adc_C_A c))) (fR (cp_off (adc_C_A c))) 1 0
    (fR (cp_gain (dac_V_A c))) (fR (cp_off (dac_V_A c))) ->
  exists l, export_emu c = Ok l.
Proof. exact (export_emu_total c). Qed.
Print Assumptions C24_total_emulator.

(** Otherwise it is one of two exceptions. *)
Theorem C24_errors_partial c e : valid_pair (adc_C_Hrv c) -> valid_pair (adc_V_Sense c) -> valid_pair (dac_V_Hrv c) ->
  export_hrv c = Err e -> e = ValueError \/ e = OverflowError.
Proof. exact (export_hrv_err c e). Qed.
Print Assumptions C24_errors_partial.
Theorem C24_errors_emulator_partial c e : valid_pair (adc_C_A c) -> valid_pair (dac_V_A c) ->
  export_emu c = Err e -> e = ValueError \/ e = OverflowError.
Proof. exact (export_emu_err c e). Qed.
Print Assumptions C24_errors_emulator_partial.

(** A gain of 1e300 or of 1e-310 is valid, but raises OverflowError instead of ValueError. *)
Definition hrv_ex (gi gv gd : f64) : cal_hrv :=
  mkHrv (pair_ex gd (fz 0)) (pair_ex (fz 1) (fz 0)) (pair_ex gv (fz 0)) (pair_ex gi (fz 0)).
Theorem C24_overflow_refuted : exists a b,
  valid_pair (adc_C_Hrv a) /\ valid_pair (adc_V_Sense a) /\ valid_pair (dac_V_Hrv a)
  /\ export_hrv a = Err OverflowError
  /\ valid_pair (adc_C_Hrv b) /\ valid_pair (adc_V_Sense b) /\ valid_pair (dac_V_Hrv b)
  /\ export_hrv b = Err OverflowError.
Proof.
  exists (hrv_ex (fz (10 ^ 300)) (fz 1) (fz 1)), (hrv_ex (fdec 1 6) (fdec 1 6) (idiv (fdec 1 10) (fz (10 ^ 300)))).
  assert (V1 : valid_pair (pair_ex (fz 1) (fz 0))) by (apply pair_ex_valid; vm_compute; reflexivity).
  assert (V2 : valid_pair (pair_ex (fdec 1 6) (fz 0))) by (apply pair_ex_valid; vm_compute; reflexivity).
  split; [apply pair_ex_valid; vm_compute; reflexivity|]. split; [exact V1|]. split; [exact V1|].
  split; [vm_compute; reflexivity|]. split; [exact V2|]. split; [exact V2|].
  split; [apply pair_ex_valid; vm_compute; reflexivity|]. vm_compute. reflexivity.
Qed.
Print Assumptions C24_overflow_refuted.
Example C24_default_ex : (let* h := default_hrv in export_hrv h)
  = Ok [("adc_current_gain", 52083); ("adc_current_offset", 0); ("adc_voltage_gain", 5000);
        ("adc_voltage_offset", 0); ("dac_voltage_gain", 13744); ("dac_voltage_offset", 0)]%string.
Proof. vm_compute. reflexivity. Qed.

(* ------------------------------------------------------------------ C25 *)

Theorem C25_range v n :
  (adc_voltage_to_raw v true = Ok n -> 0 <= n < 2 ^ 18)
  /\ (adc_current_to_raw v true = Ok n -> 0 <= n < 2 ^ 18)
  /\ (dac_voltage_to_raw v true = Ok n -> 0 <= n < 2 ^ 16).
Proof. split; [apply range_adc_voltage|]. split; [apply range_adc_current|apply range_dac_voltage]. Qed.
Print Assumptions C25_range.

Theorem C25_total v l : fin v = true -> (Rabs (fR v) <= bpow radix2 900)%R ->
  (exists n, adc_voltage_to_raw v l = Ok n) /\ (exists n, adc_current_to_raw v l = Ok n)
  /\ exists n, dac_voltage_to_raw v l = Ok n.
Proof.
  intros F B. split; [now apply total_adc_voltage|]. split; [now apply total_adc_current|now apply total_dac_voltage].
Qed.
Print Assumptions C25_total.

Theorem C25_monotone v1 v2 l n1 n2 : fin v1 = true -> fin v2 = true -> (fR v1 <= fR v2)%R ->
  (adc_voltage_to_raw v1 l = Ok n1 -> adc_voltage_to_raw v2 l = Ok n2 -> n1 <= n2)
  /\ (adc_current_to_raw v1 l = Ok n1 -> adc_current_to_raw v2 l = Ok n2 -> n1 <= n2)
  /\ (dac_voltage_to_raw v1 l = Ok n1 -> dac_voltage_to_raw v2 l = Ok n2 -> n1 <= n2).
Proof.
  intros F1 F2 H. split; [now apply mono_adc_voltage|]. split; [now apply mono_adc_current|now apply mono_dac_voltage].
Qed.
Print Assumptions C25_monotone.

Theorem C25_monotone_codes a b l va vb : 0 <= a <= b ->
  (b < 2 ^ 18 -> adc_raw_to_voltage a l = Ok va -> adc_raw_to_voltage b l = Ok vb -> (fR va <= fR vb)%R)
  /\ (b < 2 ^ 18 -> adc_raw_to_current a l = Ok va -> adc_raw_to_current b l = Ok vb -> (fR va <= fR vb)%R)
  /\ (b < 2 ^ 16 -> dac_raw_to_voltage a l = Ok va -> dac_raw_to_voltage b l = Ok vb -> (fR va <= fR vb)%R).
Proof.
  intros H. split; [|split]; intros B.
  - now apply mono_adc_raw_voltage.
  - now apply mono_adc_raw_current.
  - now apply mono_dac_raw_voltage.
Qed.
Print Assumptions C25_monotone_codes.

Theorem C25_roundtrip n l :
  (0 <= n < 2 ^ 18 -> exists v r, adc_raw_to_voltage n l = Ok v /\ adc_voltage_to_raw v l = Ok r
     /\ (r = n \/ r = n - 1) /\ 0 <= r)
  /\ (0 <= n < 2 ^ 18 -> exists v r, adc_raw_to_current n l = Ok v /\ adc_current_to_raw v l = Ok r
     /\ (r = n \/ r = n - 1) /\ 0 <= r)
  /\ (0 <= n < 2 ^ 16 -> exists v, dac_raw_to_voltage n l = Ok v /\ dac_voltage_to_raw v l = Ok n).
Proof.
  split; [|split]; intros H; [now apply roundtrip_adc_voltage|now apply roundtrip_adc_current|now apply roundtrip_dac].
Qed.
Print Assumptions C25_roundtrip.
(** The neighbour below does occur. *)
Example C25_ex :
  (let* v := adc_raw_to_voltage 29 true in adc_voltage_to_raw v true) = Ok 28
  /\ (let* v := adc_raw_to_current 21 true in adc_current_to_raw v true) = Ok 20
  /\ (let* v := adc_raw_to_current 262143 true in adc_current_to_raw v true) = Ok 262142
  /\ (let* v := dac_raw_to_voltage 13108 true in dac_voltage_to_raw v true) = Ok 13108
  /\ adc_voltage_to_raw (fz (-3)) true = Ok 0 /\ dac_voltage_to_raw (fz 9) true = Ok 65535.
Proof. repeat split; vm_compute; reflexivity. Qed.

(* ------------------------------------------------------------------ C69 *)

(** The default calibration of every channel agrees with the formula of its converter. *)
Theorem C69_defaults : exists h e, default_hrv = Ok h /\ default_emu = Ok e
  /\ agrees (dac_V_Hrv h) dac_voltage_to_raw 5 /\ agrees (dac_V_Sim h) dac_voltage_to_raw 5
  /\ agrees (adc_V_Sense h) adc_voltage_to_raw (512 / 100)
  /\ agrees (adc_C_Hrv h) adc_current_to_raw (512 / 9600)
  /\ agrees (dac_V_A e) dac_voltage_to_raw 5 /\ agrees (dac_V_B e) dac_voltage_to_raw 5
  /\ agrees (adc_C_A e) adc_current_to_raw (512 / 9600) /\ agrees (adc_C_B e) adc_current_to_raw (512 / 9600).
Proof.
  destruct default_parts as (h & e & d & v & c & Eh & Ee & Ed & Ev & Ec & -> & ->).
  assert (D : agrees d dac_voltage_to_raw 5) by (intros x l; now apply default_dac).
  assert (W : agrees v adc_voltage_to_raw (512 / 100)) by (intros x l; now apply default_adc_v).
  assert (C : agrees c adc_current_to_raw (512 / 9600)) by (intros x l; now apply default_adc_c).
  exists (mkHrv d d v c), (mkEmu d d c c). cbn [dac_V_Hrv dac_V_Sim adc_V_Sense adc_C_Hrv dac_V_A dac_V_B adc_C_A adc_C_B].
  auto 20.
Qed.
Print Assumptions C69_defaults.
(** They are not equal: the gain of the output converter is probed with a value cut to an integer. *)
Example C69_ex : (let* h := default_hrv in si_to_raw (dac_V_Hrv h) (fdec 46 1)) = Ok 60292
  /\ dac_voltage_to_raw (fdec 46 1) true = Ok 60293.
Proof. vm_compute. auto. Qed.

Lemma time_ok : exists t, default_time = Ok t /\ cp_unit t = Some "s"%string /\ si_to_raw t (fz 1) = Ok 1000000000.
Proof.
  assert (T : (let* t := default_time in si_to_raw t (fz 1)) = Ok 1000000000) by (vm_compute; reflexivity).
  assert (E : exists t, default_time = Ok t /\ cp_unit t = Some "s"%string).
  { unfold default_time, new_pair. destruct (_ && _) eqn:E; [|vm_compute in E; discriminate]. eexists. split; reflexivity. }
  destruct E as (t & E & U). rewrite E in T. exists t. split; [exact E|]. split; [exact U|exact T].
Qed.

(** The series of a recording takes voltage and current from the channels that record them, those of
    the chosen port for an emulator, and has nanoseconds. *)
Theorem C69_series c a : exists s, series_of c a = Ok s
  /\ match c with
     | inl h => s_voltage s = adc_V_Sense h /\ s_current s = adc_C_Hrv h
     | inr e => if a then s_voltage s = dac_V_A e /\ s_current s = adc_C_A e
                else s_voltage s = dac_V_B e /\ s_current s = adc_C_B e
     end
  /\ cp_unit (s_time s) = Some "s"%string /\ si_to_raw (s_time s) (fz 1) = Ok 1000000000.
Proof.
  destruct time_ok as (t & E & U & T). unfold series_of. rewrite E. cbn [bind].
  destruct c as [h|e]; [|destruct a]; eexists; (split; [reflexivity|]); cbn [s_voltage s_current s_time];
    (split; [split; reflexivity|]); (split; [exact U|exact T]).
Qed.
Print Assumptions C69_series.
Example C69_series_ex : let p n := mkPair (fz n) (fz 0) None in
  (let* s := series_of (inr (mkEmu (p 1) (p 2) (p 3) (p 4))) false in
  let* x := si_to_raw (s_voltage s) (fz 12) in let* y := si_to_raw (s_current s) (fz 12) in Ok (x, y)) = Ok (6, 3).
Proof. vm_compute. reflexivity. Qed.
