(** Properties of harvester and source configurations: C08, C09, C19, C20, C73 - C76. *)
From Coq Require Import ZArith Bool Reals Lia Lra List String.
From Flocq Require Import Core IEEE754.BinarySingleNaN.
From Verif Require Import PyBase F64 F64x HarvModel CalModel CalSpec ConvModel ConvSpec CfgModel CfgSpec CfgHrvProofs CfgSrcProofs CfgDropProofs PropsConv.
Import ListNotations.
Open Scope Z_scope.

(** A harvester for the examples. *)
Definition hrv_ex (a : algo) (samples : Z) (interval : f64) : vhrv :=
  {| vh_algorithm := a; vh_samples := samples; vh_voltage := fz 2000; vh_vmin := fz 100; vh_vmax := fdec 49995 1;
     vh_ilimit := fz 50000; vh_step := fdec 15 1; vh_setpoint := fdec 75 2; vh_interval := interval;
     vh_duration := fdec 1 1; vh_rising := false; vh_extrapolate := true; vh_wait := 1 |}.
(** What is set by hand in the examples for validation. *)
Definition inp_ex (samples : option Z) (volt : option f64) (step : option f64) : vhrv_in :=
  {| vi_name := "mppt_opt"; vi_algorithm := A_opt; vi_samples := samples; vi_voltage := volt; vi_vmin := volt;
     vi_vmax := volt; vi_ilimit := None; vi_step := step; vi_setpoint := None; vi_interval := None;
     vi_duration := None; vi_rising := None; vi_extrapolate := None; vi_wait := None |}.

(** ** C08: the configured algorithm is the one that runs *)

(** In emulation with a window the model runs the algorithm of the configuration, with its direction and
    extrapolation; a window of at most one sample means that samples pass unchanged. *)
Theorem C08_dispatch v dt w s emu c wt : from_vhrv v dt w s emu = Ok (c, wt) ->
  (emu = true -> 1 < h_window c -> forall st x, run_named (vh_algorithm v) c st x = Some (ivcurve_sample c st x))
  /\ (emu = true -> emulable (vh_algorithm v)) /\ (emu = false -> vh_algorithm v <> A_neutral)
  /\ (h_window c <= 1 -> forall st x, ivcurve_sample c st x = (st, x))
  /\ is_rising (h_init c) = vh_rising v /\ lin_extrapolation (h_init c) = vh_extrapolate v
  /\ Z.testbit (h_mode c) 0 = emu.
Proof. exact (dispatch v dt w s emu c wt). Qed.
Print Assumptions C08_dispatch.

(** The register that selects the algorithm has its bit set and no other. *)
Theorem C08_register v dt w s emu c wt : from_vhrv v dt w s emu = Ok (c, wt) ->
  forall k, 0 <= k -> Z.testbit (h_algorithm c) k = (k =? flag_bit (vh_algorithm v)).
Proof. exact (algo_bits v dt w s emu c wt). Qed.
Print Assumptions C08_register.

(** Operating points as input are passed on. *)
Theorem C08_passthrough v s c wt : from_vhrv v (Some D_ivsample) None s true = Ok (c, wt) ->
  forall st x, ivcurve_sample c st x = (st, x).
Proof. exact (passthrough v s c wt). Qed.
Print Assumptions C08_passthrough.

(** What is rejected. *)
Theorem C08_rejected v v' dt w s emu : check_vhrv v = Ok v' ->
  (emu = true -> dt <> Some D_ivsample -> dt <> Some D_ivcurve -> from_vhrv v dt w s emu = Err NotImplementedError)
  /\ (emu = true -> dt = Some D_ivcurve -> w = None \/ s = None -> from_vhrv v dt w s emu = Err ValueError)
  /\ (emu = true -> dt = Some D_ivsample \/ (dt = Some D_ivcurve /\ w <> None /\ s <> None) ->
      ~ emulable (vh_algorithm v) -> from_vhrv v dt w s emu = Err ValueError)
  /\ (emu = false -> vh_algorithm v = A_neutral -> from_vhrv v dt w s emu = Err ValueError).
Proof. intros H. apply (rejected v dt w s emu), check_vhrv_ok. eauto. Qed.
Print Assumptions C08_rejected.

Example C08_ex_registers :
  from_vhrv (hrv_ex A_po 100 (fz 100)) (Some D_ivcurve) (Some 200) (Some (fdec 1 3)) true
  = Ok ({| h_algorithm := 8192; h_mode := 5; h_window := 200; h_voltage := 2000000; h_vmin := 100000;
           h_vmax := 4999500; h_vstep := 1000; h_ilimit := 50000000; h_setpoint_n8 := 192; h_interval := 10000;
           h_duration := 200 |}, 1).
Proof. vm_compute. reflexivity. Qed.
Example C08_ex_isc_voc : from_vhrv (hrv_ex A_isc_voc 100 (fz 100)) (Some D_ivsample) None None true = Err ValueError.
Proof. vm_compute. reflexivity. Qed.
Example C08_ex_harvest :
  match from_vhrv (hrv_ex A_isc_voc 100 (fz 100)) None None None false with
  | Ok (c, _) => (h_algorithm c, h_mode c, h_window c) = (8, 4, 100)
  | Err _ => False
  end.
Proof. vm_compute. reflexivity. Qed.

(** ** C09: valid harvesters fit the registers *)
Theorem C09_registers v v' dt w s emu c wt : check_vhrv v = Ok v' -> from_vhrv v dt w s emu = Ok (c, wt) ->
  (u32 (h_algorithm c) /\ u32 (h_mode c) /\ u32 (h_window c) /\ u32 (h_voltage c) /\ u32 (h_vmin c) /\ u32 (h_vmax c)
   /\ u32 (h_vstep c) /\ u32 (h_ilimit c) /\ u32 (h_setpoint_n8 c) /\ u32 (h_interval c) /\ u32 (h_duration c) /\ u32 wt)
  /\ 0 <= h_vmin c <= h_voltage c /\ h_voltage c <= h_vmax c <= 5000000
  /\ 1 <= h_duration c <= h_interval c /\ h_interval c <= 10 ^ 8
  /\ 0 <= h_setpoint_n8 c <= 255 /\ 1000 <= h_ilimit c <= 50000000 /\ 0 <= wt <= 100.
Proof. exact (registers_hrv v v' dt w s emu c wt). Qed.
Print Assumptions C09_registers.

(** The conversion does not fail. *)
Theorem C09_converts v v' dt w s emu : check_vhrv v = Ok v' -> sensible v dt w s emu ->
  exists c, from_vhrv v dt w s emu = Ok (c, vh_wait v).
Proof. exact (converts v v' dt w s emu). Qed.
Print Assumptions C09_converts.

(** The registers hold the nearest integers to the configured values. *)
Theorem C09_values v v' dt w s emu c wt : check_vhrv v = Ok v' -> from_vhrv v dt w s emu = Ok (c, wt) ->
  rounds_to (h_voltage c) (fR (vh_voltage v) * 1000) /\ rounds_to (h_vmin c) (fR (vh_vmin v) * 1000)
  /\ rounds_to (h_vmax c) (fR (vh_vmax v) * 1000) /\ rounds_to (h_ilimit c) (fR (vh_ilimit v) * 1000)
  /\ rounds_to (h_setpoint_n8 c) (Rmin 255 (fR (vh_setpoint v) * 256)) /\ wt = vh_wait v
  /\ (s = None -> rounds_to (h_vstep c) (fR (vh_step v) * 1000)).
Proof. exact (accuracy_hrv v v' dt w s emu c wt). Qed.
Print Assumptions C09_values.

(** Interval and duration leave room for one measurement and are the configured ones if these do. *)
Theorem C09_timing v v' dt w s emu c wt : check_vhrv v = Ok v' -> from_vhrv v dt w s emu = Ok (c, wt) ->
  let window := if emu then vh_samples v * (1 + vh_wait v) else 1 + vh_wait v in
  h_interval c >= window /\ h_duration c >= window
  /\ ((IZR window / 100 <= fR (vh_interval v))%R -> rounds_to (h_interval c) (fR (vh_interval v) * 100)
      /\ ((IZR window / 100 <= fR (vh_duration v) <= fR (vh_interval v))%R -> rounds_to (h_duration c) (fR (vh_duration v) * 100))).
Proof. exact (timing_hrv v v' dt w s emu c wt). Qed.
Print Assumptions C09_timing.

Example C09_ex_extreme :
  match from_vhrv (hrv_ex A_opt 2000 (fdec 1 2)) (Some D_ivsample) None None true with
  | Ok (c, _) => (h_interval c, h_duration c, h_vstep c) = (4000, 4000, 1500)
  | Err _ => False
  end.
Proof. vm_compute. reflexivity. Qed.
Example C09_ex_harvest :
  match from_vhrv (hrv_ex A_cv 8 (fz 1000000)) None None None false with
  | Ok (c, _) => (h_interval c, h_duration c) = (100000000, 10)
  | Err _ => False
  end.
Proof. vm_compute. reflexivity. Qed.

(** ** C73: which harvesters are accepted *)
Theorem C73_accepts i : good_fields i -> vi_name i <> "neutral"%string ->
  ((exists v, make_vhrv i = Ok v) <-> (vi_step i <> None \/ (1 <= natural_step i)%R)).
Proof. exact (make_accepts i). Qed.
Print Assumptions C73_accepts.

(** A fixed operating point: all values inside their ranges, the derived step is not. *)
Theorem C73_documented_ranges_refuted : exists i, good_fields i /\ vi_name i <> "neutral"%string /\ make_vhrv i = Err ValueError.
Proof.
  exists (inp_ex None (Some (fz 3000)) None). split; [|split; [discriminate|vm_compute; reflexivity]].
  unfold good_fields, opt_in, opt_inZ, value.
  cbn [inp_ex vi_samples vi_voltage vi_vmin vi_vmax vi_ilimit vi_step vi_setpoint vi_interval vi_duration vi_wait].
  destruct (fz_ok 3000) as [F E]; [lia|].
  assert (K : forall x, Some (fz 3000) = Some x -> fin x = true /\ (0 <= fR x <= 5000)%R).
  { intros x H. assert (x = fz 3000) by congruence. subst x. rewrite E. split; [exact F|lra]. }
  repeat split; try (intros; discriminate); try (intros; now apply K); try (intros; eapply K; eassumption); rewrite E; lra.
Qed.
Print Assumptions C73_documented_ranges_refuted.

Example C73_ex_step : match make_vhrv (inp_ex None (Some (fz 3000)) (Some (fz 2))) with Ok _ => true | Err _ => false end = true.
Proof. vm_compute. reflexivity. Qed.
Example C73_ex_default : match make_vhrv (inp_ex (Some 1000) None None) with Ok v => in_range (fz 5) (fdec 501 2) (vh_step v) | Err _ => false end = true.
Proof. vm_compute. reflexivity. Qed.

(** ** C74: how invalid harvesters are rejected *)
Theorem C74_errors i e : make_vhrv i = Err e ->
  e = ValueError
  \/ (vi_step i = None /\ vi_samples i = Some 1 /\ e = ZeroDivisionError)
  \/ (vi_step i = None /\ e = OverflowError /\ exists n, vi_samples i = Some n /\ 2 ^ 1023 < Z.abs (n - 1)).
Proof. exact (make_errors i e). Qed.
Print Assumptions C74_errors.

Theorem C74_only_ValueError_refuted : exists i, make_vhrv i = Err ZeroDivisionError.
Proof. exists (inp_ex (Some 1) None None). vm_compute. reflexivity. Qed.
Print Assumptions C74_only_ValueError_refuted.

Example C74_ex_range : make_vhrv (inp_ex (Some 1) None (Some (fz 2))) = Err ValueError.
Proof. vm_compute. reflexivity. Qed.

(** ** C19: valid sources fit the registers *)
Definition src_ex (C_mid C_out V_en V_dis last_eff : f64) (buck : bool) : vsrc :=
  {| vs_buck := buck; vs_boost := true; vs_feedback := false; vs_drain_ms := fz 0;
     vs_harvester := hrv_ex A_opt 100 (fz 100); vs_Vin_max := fz 5000; vs_Iin_max := fz 100; vs_Vin_drop := fz 0;
     vs_R_in := fz 1000; vs_C_mid := C_mid; vs_V_init := fz 3000; vs_I_leak := fdec 3305 1; vs_V_en := V_en;
     vs_V_dis := V_dis; vs_check_ms := fz 64; vs_pg_en := fz 2800; vs_pg_dis := fz 2200; vs_pg_immediate := true;
     vs_C_out := C_out; vs_V_log := fz 1400; vs_V_boost := fz 130; vs_V_mid_max := fz 4200;
     vs_LUT_in := repeat (repeat (fdec 85 2) 12) 12; vs_LUT_in_V := 7; vs_LUT_in_I := 10; vs_V_out := fz 2300;
     vs_V_buck := fdec 505 1; vs_LUT_out := repeat (fdec 8 1) 11 ++ [last_eff]; vs_LUT_out_I := 10 |}.

Definition accepted (v : vsrc) : bool := match check_vsrc v with Ok _ => true | Err _ => false end.
Lemma accepted_ok v : accepted v = true -> check_vsrc v = Ok v.
Proof.
  unfold accepted. destruct (check_vsrc v) as [v'|] eqn:E; [|discriminate]. intros _.
  destruct (check_vsrc_ok v v' E) as [-> _]. reflexivity.
Qed.

(** Accepted sources are converted, to the values in [source_regs] (Spec), except for one reason. *)
Theorem C19_converts p v v' dtype log_mid : pow_ok p -> check_vsrc v = Ok v' -> Forall usable_efficiency (vs_LUT_out v) ->
  exists c, from_vsrc p v dtype log_mid = Ok c /\ valid_ccfg c /\ source_regs v c.
Proof. exact (convert_src p v v' dtype log_mid). Qed.
Print Assumptions C19_converts.

(** The exception: an output efficiency so small that its inverse is infinite. *)
Theorem C19_only_failure p v v' dtype log_mid : pow_ok p -> check_vsrc v = Ok v' -> ~ Forall usable_efficiency (vs_LUT_out v) ->
  from_vsrc p v dtype log_mid = Err OverflowError.
Proof. exact (convert_fails p v v' dtype log_mid). Qed.
Print Assumptions C19_only_failure.

Theorem C19_tiny_efficiency_refuted : exists v, check_vsrc v = Ok v /\
  forall p, from_vsrc p v D_ivsample false = Err OverflowError.
Proof.
  exists (src_ex (fz 0) (fz 1) (fz 3000) (fz 2500) (fdec 1 308) true).
  split; [apply accepted_ok; vm_compute; reflexivity|]. intros p. vm_compute. reflexivity.
Qed.
Print Assumptions C19_tiny_efficiency_refuted.

(** A converted source can be simulated on every input, for ever. *)
Theorem C19_simulates p v v' dtype log_mid c cal xs : pow_ok p -> check_vsrc v = Ok v' ->
  from_vsrc p v dtype log_mid = Ok c -> bounded_cal cal -> exists s, conv_sim c cal xs = Ok s.
Proof.
  intros P H E B. destruct (check_vsrc_ok v v' H) as (_ & V & _). pose proof (convert_lut _ _ _ _ _ E V) as U.
  destruct (C19_converts p v v' dtype log_mid P H U) as (c' & E' & W & _). assert (c' = c) by congruence. subst c'.
  now apply C10_never_fails.
Qed.
Print Assumptions C19_simulates.

(** The hypotheses on [pow] hold for correctly rounded squares and roots. *)
Theorem C19_pow_exists : exists p, pow_ok p /\ pow_accurate p.
Proof. exists ieee_pow. split; [exact ieee_pow_ok|exact ieee_pow_accurate]. Qed.
Print Assumptions C19_pow_exists.

Example C19_ex_registers :
  match from_vsrc ieee_pow (src_ex (fz 100) (fz 1) (fz 3000) (fz 2500) (fz 1) true) D_ivcurve true with
  | Ok c => [converter_mode c; R_input_kOhm_n22 c; Constant_us_per_nF_n28 c; I_intermediate_leak_nA c;
             V_enable_output_threshold_uV c; V_disable_output_threshold_uV c; dV_enable_output_uV c;
             interval_check_thresholds_n c; V_buck_drop_uV c; LUT_input_I_min_log2_nA c]
            = [15; 4194; 26843; 330; 3000000; 2500000; 8830; 6400; 50500; 9]
            /\ LUT_out_inv_efficiency_n4 c = repeat 20 11 ++ [16] /\ LUT_inp_efficiency_n8 c = repeat (repeat 218 12) 12
  | Err _ => False
  end.
Proof. vm_compute. repeat split; reflexivity. Qed.
Example C19_ex_zero_efficiency :
  match from_vsrc ieee_pow (src_ex (fz 100) (fz 1) (fz 3000) (fz 2500) (fz 0) true) D_ivcurve true with
  | Ok c => LUT_out_inv_efficiency_n4 c = repeat 20 11 ++ [16384]
  | Err _ => False
  end.
Proof. vm_compute. reflexivity. Qed.

(** ** C20: mode bits *)
Theorem C20_bits p v v' dtype log_mid c : check_vsrc v = Ok v' -> from_vsrc p v dtype log_mid = Ok c ->
  (enable_storage c = true <-> (0 < fR (vs_C_mid v))%R)
  /\ (enable_boost c = true <-> vs_boost v = true /\ (0 < fR (vs_C_mid v))%R)
  /\ enable_buck c = vs_buck v
  /\ enable_log_mid c = log_mid
  /\ (feedback_to_hrv c = true <-> vs_feedback v = true /\ (0 < fR (vs_C_mid v))%R /\ vs_boost v = false /\ dtype = D_ivcurve)
  /\ 0 <= converter_mode c < 32.
Proof. exact (mode_bits p v v' dtype log_mid c). Qed.
Print Assumptions C20_bits.

Theorem C20_injective p1 v1 v1' d1 l1 c1 p2 v2 v2' d2 l2 c2 :
  check_vsrc v1 = Ok v1' -> from_vsrc p1 v1 d1 l1 = Ok c1 -> check_vsrc v2 = Ok v2' -> from_vsrc p2 v2 d2 l2 = Ok c2 ->
  converter_mode c1 = converter_mode c2 ->
  ((0 < fR (vs_C_mid v1))%R <-> (0 < fR (vs_C_mid v2))%R)
  /\ ((0 < fR (vs_C_mid v1))%R -> vs_boost v1 = vs_boost v2)
  /\ vs_buck v1 = vs_buck v2 /\ l1 = l2
  /\ ((0 < fR (vs_C_mid v1))%R -> vs_boost v1 = false ->
        (vs_feedback v1 = true /\ d1 = D_ivcurve <-> vs_feedback v2 = true /\ d2 = D_ivcurve)).
Proof. exact (mode_inj p1 v1 v1' d1 l1 c1 p2 v2 v2' d2 l2 c2). Qed.
Print Assumptions C20_injective.

Example C20_ex_no_storage :
  match from_vsrc ieee_pow (src_ex (fz 0) (fz 1) (fz 3000) (fz 2500) (fz 1) false) D_ivcurve true with
  | Ok c => (converter_mode c, enable_boost c, enable_log_mid c) = (8, false, true)
  | Err _ => False
  end.
Proof. vm_compute. reflexivity. Qed.

(** ** C75: the voltage drop when the output is connected *)

(** Charge moves from the storage to the output capacitor with its energy: what remains in the storage is
    [C_mid V^2 / 2 - C_out Vo^2 / 2], up to the rounding to uV.  Below the minimum of the buck converter the
    second case applies. *)
Theorem C75_energy p v v' dtype log_mid c : pow_ok p -> pow_accurate p -> check_vsrc v = Ok v' -> from_vsrc p v dtype log_mid = Ok c ->
  (/ 1000 <= fR (vs_C_mid v))%R -> (0 < fR (vs_C_out v))%R ->
  let V := fR (vs_V_en v) in let Vo := fR (vs_V_out v) in let r := (fR (vs_C_out v) / fR (vs_C_mid v))%R in
  ((vs_buck v = true -> V_pre v < V) -> r * (Vo * Vo) + 1 <= V * V ->
     Rabs (IZR (V_enable_output_threshold_uV c - dV_enable_output_uV c) - 1000 * sqrt (V * V - r * (Vo * Vo))) <= 1 + / 50)%R
  /\ (vs_buck v = true -> V <= V_pre v -> fR (vs_C_out v) <= fR (vs_C_mid v) ->
     Rabs (IZR (dV_enable_output_uV c) - 1000 * (Vo * (1 - sqrt (1 - r)))) <= 3 / 4)%R.
Proof. exact (energy p v v' dtype log_mid c). Qed.
Print Assumptions C75_energy.

(** Without accuracy of [pow]: the drop never exceeds the threshold at which it happens, so the storage voltage
    after connecting is not negative; both thresholds are limited, with a buck converter from below. *)
Theorem C75_thresholds p v v' dtype log_mid c : pow_ok p -> check_vsrc v = Ok v' -> from_vsrc p v dtype log_mid = Ok c ->
  0 <= dV_enable_output_uV c <= V_enable_output_threshold_uV c
  /\ V_enable c = V_enable_output_threshold_uV c
  /\ V_enable_output_threshold_uV c <= 15000000 /\ V_disable_output_threshold_uV c <= 10000000
  /\ (vs_buck v = false ->
        rounds_to (V_enable_output_threshold_uV c) (fR (vs_V_en v) * 1000)
        /\ rounds_to (V_disable_output_threshold_uV c) (fR (vs_V_dis v) * 1000))
  /\ (vs_buck v = true ->
        rounds_to (V_disable_output_threshold_uV c) (Rmax (V_pre v) (fR (vs_V_dis v)) * 1000)
        /\ ((V_pre v < fR (vs_V_en v))%R -> rounds_to (V_enable_output_threshold_uV c) (fR (vs_V_en v) * 1000))
        /\ ((fR (vs_V_en v) <= V_pre v)%R ->
              (Rabs (IZR (V_enable_output_threshold_uV c - dV_enable_output_uV c) - V_pre v * 1000) <= 1 + bpow radix2 (-10))%R
              /\ IZR (dV_enable_output_uV c) <= fR (vs_V_out v) * 1000 + / 2 + bpow radix2 (-18))%R).
Proof. exact (thresholds p v v' dtype log_mid c). Qed.
Print Assumptions C75_thresholds.

Example C75_ex_low :
  match from_vsrc ieee_pow (src_ex (fz 100) (fz 10) (fz 2000) (fz 1000) (fz 1) true) D_ivcurve true with
  | Ok c => (V_enable_output_threshold_uV c, V_disable_output_threshold_uV c, dV_enable_output_uV c) = (2468528, 2350500, 118028)
  | Err _ => False
  end.
Proof. vm_compute. reflexivity. Qed.
(** A storage too small for the output: the root is complex, the drop is zero. *)
Example C75_ex_complex :
  match from_vsrc ieee_pow (src_ex (fz 1) (fz 10) (fz 3000) (fz 1000) (fz 1) true) D_ivcurve true with
  | Ok c => (V_enable_output_threshold_uV c, dV_enable_output_uV c) = (3000000, 0)
  | Err _ => False
  end.
Proof. vm_compute. reflexivity. Qed.

(** ** C76: the order of the thresholds *)
Theorem C76_order p v v' dtype log_mid c : pow_ok p -> check_vsrc v = Ok v' -> from_vsrc p v dtype log_mid = Ok c ->
  (fR (vs_V_dis v) <= fR (vs_V_en v))%R -> V_disable_output_threshold_uV c <= V_enable_output_threshold_uV c.
Proof. exact (ordered p v v' dtype log_mid c). Qed.
Print Assumptions C76_order.

Theorem C76_unordered_refuted : exists v c, check_vsrc v = Ok v /\ from_vsrc ieee_pow v D_ivsample false = Ok c
  /\ V_enable_output_threshold_uV c < V_disable_output_threshold_uV c.
Proof.
  exists (src_ex (fz 100) (fz 1) (fz 2500) (fz 3000) (fz 1) false).
  destruct (from_vsrc ieee_pow (src_ex (fz 100) (fz 1) (fz 2500) (fz 3000) (fz 1) false) D_ivsample false) as [c|] eqn:E.
  - exists c. split; [apply accepted_ok; vm_compute; reflexivity|]. split; [reflexivity|].
    assert (K : match from_vsrc ieee_pow (src_ex (fz 100) (fz 1) (fz 2500) (fz 3000) (fz 1) false) D_ivsample false with
                | Ok c => V_enable_output_threshold_uV c <? V_disable_output_threshold_uV c | Err _ => false end = true) by (vm_compute; reflexivity).
    rewrite E in K. now apply Z.ltb_lt.
  - exfalso. assert (K : match from_vsrc ieee_pow (src_ex (fz 100) (fz 1) (fz 2500) (fz 3000) (fz 1) false) D_ivsample false with
                | Ok c => true | Err _ => false end = true) by (vm_compute; reflexivity).
    rewrite E in K. discriminate.
Qed.
Print Assumptions C76_unordered_refuted.

Example C76_ex_equal :
  match from_vsrc ieee_pow (src_ex (fz 100) (fz 1) (fz 3000) (fz 3000) (fz 1) true) D_ivcurve true with
  | Ok c => V_enable_output_threshold_uV c = V_disable_output_threshold_uV c
  | Err _ => False
  end.
Proof. vm_compute. reflexivity. Qed.
