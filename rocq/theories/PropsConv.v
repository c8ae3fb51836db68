(** Properties of the converter stage: C10 - C18, C70 - C72. *)
From Coq Require Import ZArith Bool Reals Lia Lra List.
From Flocq Require Import Core IEEE754.BinarySingleNaN.
From Verif Require Import PyBase F64 F64x CalModel CalSpec CalProofs ConvModel ConvSpec ConvProofs ConvStepProofs ConvRunProofs ConvSrcProofs.
Import ListNotations.
Open Scope Z_scope.

(** A configuration for the examples: boost converter, storage and buck converter, thresholds checked every
    second step, three steps of start-up. *)
Definition cfg_ex4 (mode r init dV : Z) : ccfg :=
  {| converter_mode := mode; interval_startup_delay_drain_n := 3; V_input_max_uV := 5000000;
     I_input_max_nA := 100000000; V_input_drop_uV := 100000; R_input_kOhm_n22 := r;
     Constant_us_per_nF_n28 := 268435; V_intermediate_init_uV := init; I_intermediate_leak_nA := 330;
     V_enable_output_threshold_uV := 3000000; V_disable_output_threshold_uV := 2500000;
     dV_enable_output_uV := dV; interval_check_thresholds_n := 2;
     V_pwr_good_enable_threshold_uV := 2800000; V_pwr_good_disable_threshold_uV := 2400000;
     immediate_pwr_good_signal := 0; V_output_log_gpio_threshold_uV := 1400000;
     V_input_boost_threshold_uV := 130000; V_intermediate_max_uV := 4200000; V_output_uV := 2300000;
     V_buck_drop_uV := 50000; LUT_input_V_min_log2_uV := 7; LUT_input_I_min_log2_nA := 9;
     LUT_output_I_min_log2_nA := 9;
     LUT_inp_efficiency_n8 := repeat [10; 40; 80; 120; 140; 160; 180; 200; 210; 220; 225; 230] 12;
     LUT_out_inv_efficiency_n4 := [64; 48; 32; 28; 26; 24; 22; 21; 20; 19; 18; 17] |}.
Definition cfg_ex (mode r init : Z) : ccfg := cfg_ex4 mode r init 12000.
Lemma cfg_ex4_valid mode r init dV : u32 mode -> u32 r -> u32 init -> u32 dV -> valid_ccfg (cfg_ex4 mode r init dV).
Proof.
  intros A B C D.
  constructor; cbn [cfg_ex4 converter_mode interval_startup_delay_drain_n V_input_max_uV I_input_max_nA V_input_drop_uV
    R_input_kOhm_n22 Constant_us_per_nF_n28 V_intermediate_init_uV I_intermediate_leak_nA V_enable_output_threshold_uV
    V_disable_output_threshold_uV dV_enable_output_uV interval_check_thresholds_n V_pwr_good_enable_threshold_uV
    V_pwr_good_disable_threshold_uV immediate_pwr_good_signal V_output_log_gpio_threshold_uV V_input_boost_threshold_uV
    V_intermediate_max_uV V_output_uV V_buck_drop_uV LUT_input_V_min_log2_uV LUT_input_I_min_log2_nA
    LUT_output_I_min_log2_nA LUT_inp_efficiency_n8 LUT_out_inv_efficiency_n4]; try assumption; try (unfold u32; lia); try lia.
  - split; [reflexivity|]. apply Forall_forall. intros row Hr. apply repeat_spec in Hr. subst row.
    split; [reflexivity|]. repeat constructor; unfold u8; lia.
  - split; [reflexivity|]. repeat constructor; unfold u32; lia.
Qed.

Lemma cfg_ex_valid mode r init : u32 mode -> u32 r -> u32 init -> valid_ccfg (cfg_ex mode r init).
Proof. intros A B C. apply cfg_ex4_valid; auto. unfold u32; lia. Qed.

(** A calibration close to the default of the hardware, with a negative offset. *)
Definition cal_ex : cal_emu :=
  let p g o := mkPair g o None in
  mkEmu (p (fdec 763 7) (fz 0)) (p (fdec 763 7) (fz 0)) (p (fdec 191 9) (fdec (-1) 6)) (p (fdec 191 9) (fz 0)).
Lemma pair_check p : fin (cp_gain p) && fin (cp_off p) && flt (fz 0) (cp_gain p) = true -> valid_pair p.
Proof.
  intros H. apply andb_prop in H. destruct H as [H H3]. apply andb_prop in H. destruct H as [H1 H2].
  destruct (fz_ok 0) as [F0 R0]; [lia|]. apply flt_R in H3; auto. rewrite R0 in H3. repeat split; auto.
Qed.
Lemma cal_ex_bounded : bounded_cal cal_ex.
Proof.
  assert (A : valid_pair (adc_C_A cal_ex)) by (apply pair_check; vm_compute; reflexivity).
  assert (B : valid_pair (dac_V_A cal_ex)) by (apply pair_check; vm_compute; reflexivity).
  destruct (fz_ok 1) as [F1 R1]; [lia|]. destruct (fz_ok (-1)) as [Fm Rm]; [lia|].
  assert (P : (1 <= bpow radix2 100)%R) by (change 1%R with (bpow radix2 0); apply bpow_le; lia).
  assert (S : fin (idiv (fz 1) (fz 1000000)) = true /\ fR (idiv (fz 1) (fz 1000000)) = rnd (1 / 1000000)).
  { destruct (fz_ok 1000000) as [F6 R6]; [lia|]. destruct (idiv_Big (fz 1) (fz 1000000) F1) as [X Y].
    - rewrite R6. lra.
    - rewrite R1, R6. assert (L : (1 <= Big)%R) by (apply (IZR_Big 1); lia). rewrite Rabs_pos_eq; lra.
    - rewrite R1, R6 in Y. auto. }
  destruct S as [S1 S2].
  assert (L : (bpow radix2 (-100) <= rnd (1 / 1000000))%R).
  { apply rnd_ge; [apply generic_format_bpow; unfold SpecFloat.fexp, SpecFloat.emin; lia|].
    apply Rle_trans with (bpow radix2 (-20)); [apply bpow_le; lia|]. simpl. lra. }
  assert (K : forall x y, fin x = true -> fin y = true -> fle x y = true -> (fR x <= fR y)%R) by (intros; now apply fle_R).
  destruct A as (A1 & A2 & A3), B as (B1 & B2 & B3).
  pose proof (K _ _ A1 F1 ltac:(vm_compute; reflexivity)) as K1. pose proof (K _ _ A2 F1 ltac:(vm_compute; reflexivity)) as K2.
  pose proof (K _ _ Fm A2 ltac:(vm_compute; reflexivity)) as K3. pose proof (K _ _ S1 B1 ltac:(vm_compute; reflexivity)) as K4.
  pose proof (K _ _ B2 F1 ltac:(vm_compute; reflexivity)) as K5. pose proof (K _ _ Fm B2 ltac:(vm_compute; reflexivity)) as K6.
  unfold bounded_cal, valid_pair. rewrite R1 in *. rewrite Rm in *. rewrite S2 in *.
  set (g := cp_gain (adc_C_A cal_ex)) in *. set (o := cp_off (adc_C_A cal_ex)) in *.
  set (g' := cp_gain (dac_V_A cal_ex)) in *. set (o' := cp_off (dac_V_A cal_ex)) in *. clearbody g o g' o'.
  split; [auto|]. split; [auto|]. split; [lra|]. split; [apply Rabs_le; lra|]. split; [lra|apply Rabs_le; lra].
Qed.
(** One step of input: 2 V, 5 mA. *)
Definition in_ex : cin := mkCin (fz 2000000) (fz 5000000) 4000.

(* ------------------------------------------------------------------ C10 *)

Theorem C10_bounds c cal xs s : valid_ccfg c -> valid_pair (adc_C_A cal) -> xs <> [] -> conv_sim c cal xs = Ok s ->
  fin (V_mid s) = true /\ (0 <= fR (V_mid s) <= Rmax 1 (IZR (V_intermediate_max_uV c)))%R.
Proof. intros V. exact (mid_bounds c V cal xs s). Qed.
Print Assumptions C10_bounds.

(** Right after the update of the storage (from any state, reachable or not). *)
Theorem C10_after_update c s s' n : valid_ccfg c -> update_cap_storage c s = Ok (s', n) ->
  fin (V_mid s') = true /\ (1 <= fR (V_mid s') <= Rmax 1 (IZR (V_intermediate_max_uV c)))%R
  /\ n = ZnearestE (fR (V_mid s')).
Proof. intros V H. destruct (cap_inv c V s s' n H) as (v & -> & A). exact A. Qed.
Print Assumptions C10_after_update.

(** With a calibration of moderate size the simulation goes on for ever: no input stops it. *)
Theorem C10_never_fails c cal xs : valid_ccfg c -> bounded_cal cal -> exists s, conv_sim c cal xs = Ok s.
Proof. intros V. exact (sim_total c V cal xs). Qed.
Print Assumptions C10_never_fails.

(** The state before the first step. *)
Theorem C10_start c cal s : valid_ccfg c -> conv_sim c cal [] = Ok s ->
  fR (V_mid s) = IZR (V_intermediate_init_uV c) /\ fR (V_request s) = IZR (V_intermediate_init_uV c)
  /\ fR (V_out s) = IZR (V_output_uV c) /\ conv_uV_to_dac_raw cal (V_out s) = Ok (V_out_raw s)
  /\ fR (P_inp s) = 0%R /\ fR (P_out s) = 0%R /\ fR (residue s) = 0%R /\ is_outputting s = false /\ power_good s = true.
Proof. intros V. exact (start_state c V cal s). Qed.
Print Assumptions C10_start.

(** Before the first step the voltage is the configured one, which the configuration does not limit. *)
Theorem C10_initial : exists c s, valid_ccfg c /\ conv_sim c cal_ex [] = Ok s
  /\ (Rmax 1 (IZR (V_intermediate_max_uV c)) < fR (V_mid s))%R.
Proof.
  assert (V : valid_ccfg (cfg_ex 7 0 5000000)) by (apply cfg_ex_valid; unfold u32; lia).
  destruct (sim_total _ V cal_ex [] cal_ex_bounded) as [s H].
  exists (cfg_ex 7 0 5000000), s. split; [exact V|]. split; [exact H|].
  unfold conv_sim, conv_init in H. destruct (conv_uV_to_dac_raw cal_ex _); [|discriminate]. cbn [bind conv_run] in H.
  apply (f_equal (fun r => match r with Ok a => V_mid a | Err _ => fz 0 end)) in H. cbn [V_mid] in H. rewrite <- H.
  change (V_intermediate_init_uV (cfg_ex 7 0 5000000)) with 5000000. rewrite (fz_R 5000000) by lia.
  change (V_intermediate_max_uV (cfg_ex 7 0 5000000)) with 4200000. rewrite Rmax_right; lra.
Qed.
Print Assumptions C10_initial.
(** The storage is charged; from above the limit it falls back to the limit in the first step; infinite and
    undefined inputs do no harm. *)
Example C10_ex :
  (let* s := conv_sim (cfg_ex 7 0 2000000) cal_ex [in_ex; in_ex] in get_V_intermediate_uV s) = Ok 2008526
  /\ (let* s := conv_sim (cfg_ex 7 0 5000000) cal_ex [mkCin (fz 0) (fz 0) 0] in get_V_intermediate_uV s) = Ok 4188000
  /\ (let* s := conv_sim (cfg_ex 7 0 2000000) cal_ex [mkCin B754_nan (B754_infinity false) (-7)] in get_V_intermediate_uV s)
     = Ok 2000000.
Proof. vm_compute. auto. Qed.

(* ------------------------------------------------------------------ C11 *)

Theorem C11_switching c cal xs x s0 s1 s2 s3 s4 n : valid_ccfg c -> valid_pair (adc_C_A cal) ->
  calls c cal xs x s0 s1 s2 s3 -> update_states_and_output c cal s3 = Ok (s4, n) ->
  (is_outputting s0 = false -> is_outputting s4 = true <->
     is_check c s3 /\ (IZR (Z.max (dV_enable_output_uV c) (V_enable_output_threshold_uV c)) <= fR (V_mid s3))%R)
  /\ (is_outputting s0 = true -> is_outputting s4 = false <->
     is_check c s3 /\ (fR (V_mid s3) < IZR (V_disable_output_threshold_uV c))%R).
Proof.
  intros V Hp C H. destruct (calls_frame c V cal _ _ _ _ _ _ Hp C) as (<- & _ & _ & _ & _ & B).
  exact (hysteresis c V cal s3 s4 n (proj1 (before_ok c V cal s3 Hp B)) H).
Qed.
Print Assumptions C11_switching.

(** What is taken from the storage when the output is connected, and only then. *)
Theorem C11_enable_drop c cal xs x s0 s1 s2 s3 s4 n : valid_ccfg c -> valid_pair (adc_C_A cal) ->
  calls c cal xs x s0 s1 s2 s3 -> update_states_and_output c cal s3 = Ok (s4, n) ->
  (is_outputting s0 = false /\ is_outputting s4 = true ->
     fR (V_mid s4) = rnd (fR (V_mid s3) - IZR (dV_enable_output_uV c)))
  /\ (~ (is_outputting s0 = false /\ is_outputting s4 = true) -> V_mid s4 = V_mid s3).
Proof.
  intros V Hp C H. destruct (calls_frame c V cal _ _ _ _ _ _ Hp C) as (<- & _ & _ & _ & _ & B).
  destruct (before_ok c V cal s3 Hp B) as (_ & _ & Vm & _).
  exact (proj2 (enable_drop c V cal s3 s4 n Vm H)).
Qed.
Print Assumptions C11_enable_drop.
(** On at 3.0 V (first step), off below 2.5 V: the second step is no check, the third is. *)
Example C11_ex : let load := mkCin (fz 0) (fz 0) 262143 in
  let st xs := let* s := conv_sim (cfg_ex4 7 0 3000000 600000) cal_ex xs in
               let* v := get_V_intermediate_uV s in Ok (is_outputting s, v) in
  st [load] = Ok (true, 2400000) /\ st [load; load] = Ok (true, 2400000) /\ st [load; load; load] = Ok (false, 2400000)
  /\ (let* s := conv_sim (cfg_ex 7 0 2999999) cal_ex [load] in Ok (is_outputting s)) = Ok false.
Proof. vm_compute. auto. Qed.

(* ------------------------------------------------------------------ C12 *)

(** The (k+1)-th step is a check exactly if k is [first] plus a multiple of the interval. *)
Theorem C12_periodic c cal xs x s0 s1 s2 s3 s4 n : valid_ccfg c -> valid_pair (adc_C_A cal) ->
  calls c cal xs x s0 s1 s2 s3 -> update_states_and_output c cal s3 = Ok (s4, n) ->
  let first := Z.max 0 (interval_check_thresholds_n c - 4294967281) in
  (is_check c s3 <-> exists m, 0 <= m /\ Z.of_nat (List.length xs) = first + m * Z.max 1 (interval_check_thresholds_n c)).
Proof.
  intros V Hp C H first. destruct (calls_frame c V cal _ _ _ _ _ _ Hp C) as (_ & _ & _ & _ & _ & B).
  rewrite (check_counted c V cal s3 s4 n Hp B H). destruct C as (n1 & n2 & n3 & H0 & H1 & H2 & H3).
  apply (periodic c V cal xs x s4 Hp). eapply sim_snoc_intro; [exact H0|].
  unfold conv_step. rewrite H1. cbn [bind]. rewrite H2. cbn [bind]. rewrite H3. cbn [bind]. rewrite H. reflexivity.
Qed.
Print Assumptions C12_periodic.

(** For every interval that fits the source configuration (below 4294967281 samples) the first step is a check. *)
Theorem C12_first c cal x s0 s1 s2 s3 s4 n : valid_ccfg c -> valid_pair (adc_C_A cal) ->
  interval_check_thresholds_n c <= 4294967281 ->
  calls c cal [] x s0 s1 s2 s3 -> update_states_and_output c cal s3 = Ok (s4, n) -> is_check c s3.
Proof.
  intros V Hp L C H. apply (C12_periodic c cal [] x s0 s1 s2 s3 s4 n V Hp C H). exists 0. cbn [List.length]. lia.
Qed.
Print Assumptions C12_first.
Example C12_ex : map (fun k => let* s := conv_sim (cfg_ex 7 0 2000000) cal_ex (repeat (mkCin (fz 0) (fz 0) 0) k) in Ok (sample_count s))
    [1; 2; 3; 4]%nat = [Ok 0; Ok 1; Ok 0; Ok 1].
Proof. vm_compute. auto. Qed.

(* ------------------------------------------------------------------ C13 *)

Theorem C13_bounds c cal xs s : valid_ccfg c -> valid_pair (adc_C_A cal) -> xs <> [] -> conv_sim c cal xs = Ok s ->
  0 <= V_out_raw s <= 65535
  /\ fin (V_out s) = true /\ (0 <= fR (V_out s))%R
  /\ (is_outputting s = false -> drain_n s = 0 -> fR (V_out s) = 0%R /\ V_out_raw s = 0)
  /\ (is_outputting s = true \/ drain_n s <> 0 -> conv_uV_to_dac_raw cal (V_out s) = Ok (V_out_raw s))
  /\ (has_buck c -> (fR (V_out s) <= IZR (V_output_uV c))%R)
  /\ (~ has_buck c -> (fR (V_out s) <= fR (V_mid s))%R).
Proof. intros V. exact (output_bounds c V cal xs s). Qed.
Print Assumptions C13_bounds.

(** The voltage in exact terms; the code is what the call returns. *)
Theorem C13_voltage c cal xs x s0 s1 s2 s3 s4 n : valid_ccfg c -> valid_pair (adc_C_A cal) ->
  calls c cal xs x s0 s1 s2 s3 -> update_states_and_output c cal s3 = Ok (s4, n) ->
  (is_outputting s4 = true \/ 0 < drain_n s4 -> fR (V_out s4) = out_voltage c (fR (V_mid s4)))
  /\ (is_outputting s4 = false /\ drain_n s4 <= 0 -> fR (V_out s4) = 0%R)
  /\ n = V_out_raw s4
  /\ (skip_gpio s4 = true <-> (fR (V_out s4) < IZR (V_output_log_gpio_threshold_uV c))%R).
Proof.
  intros V Hp C H. destruct (calls_frame c V cal _ _ _ _ _ _ Hp C) as (_ & _ & _ & _ & _ & B).
  destruct (before_ok c V cal s3 Hp B) as (_ & _ & Vm & _). exact (vout_exact c V cal s3 s4 n Vm H).
Qed.
Print Assumptions C13_voltage.

(** The code before the first step is in range as well. *)
Theorem C13_initial c cal s : conv_sim c cal [] = Ok s -> 0 <= V_out_raw s <= 65535.
Proof.
  intros H. unfold conv_sim, conv_init in H. destruct (conv_uV_to_dac_raw cal _) as [r|] eqn:E; [|discriminate].
  cbn [bind conv_run] in H. apply (f_equal (fun r => match r with Ok a => V_out_raw a | Err _ => 0 end)) in H.
  cbn [V_out_raw] in H. rewrite <- H. exact (dac_range cal _ _ E).
Qed.
Print Assumptions C13_initial.
(** 2.3 V behind the buck converter, 3.0 V minus the drop without, nothing when off. *)
Example C13_ex : let idle := mkCin (fz 0) (fz 0) 0 in
  let raw c xs := let* s := conv_sim c cal_ex xs in Ok (V_out_raw s) in
  raw (cfg_ex 7 0 3000000) [idle] = Ok 30144 /\ raw (cfg_ex 3 0 3000000) [idle] = Ok 38506
  /\ raw (cfg_ex 7 0 2000000) [idle; idle; idle] = Ok 0.
Proof. vm_compute. auto. Qed.

(* ------------------------------------------------------------------ C14 *)

Theorem C14_power_good c cal xs x s0 s1 s2 s3 s4 n : valid_ccfg c -> valid_pair (adc_C_A cal) ->
  calls c cal xs x s0 s1 s2 s3 -> update_states_and_output c cal s3 = Ok (s4, n) ->
  (power_good s0 = true -> power_good s4 = false <->
     (is_check c s3 \/ immediate_pwr_good_signal c <> 0) /\ (fR (V_mid s3) <= IZR (V_pwr_good_disable_threshold_uV c))%R)
  /\ (power_good s0 = false -> power_good s4 = true <->
     (is_check c s3 \/ immediate_pwr_good_signal c <> 0) /\ (IZR (V_pwr_good_enable_threshold_uV c) <= fR (V_mid s3))%R
     /\ is_outputting s4 = true).
Proof.
  intros V Hp C H. destruct (calls_frame c V cal _ _ _ _ _ _ Hp C) as (_ & <- & _ & _ & _ & B).
  exact (good_trigger c V cal s3 s4 n (proj1 (before_ok c V cal s3 Hp B)) H).
Qed.
Print Assumptions C14_power_good.

(** The flag starts as true, so it can be true while the output is off. *)
Theorem C14_initial : exists c s, valid_ccfg c /\ conv_sim c cal_ex [in_ex] = Ok s
  /\ power_good s = true /\ is_outputting s = false.
Proof.
  assert (V : valid_ccfg (cfg_ex 7 0 2900000)) by (apply cfg_ex_valid; unfold u32; lia).
  destruct (sim_total _ V cal_ex [in_ex] cal_ex_bounded) as [s H].
  exists (cfg_ex 7 0 2900000), s. split; [exact V|]. split; [exact H|].
  assert (E : (let* s := conv_sim (cfg_ex 7 0 2900000) cal_ex [in_ex] in Ok (power_good s, is_outputting s)) = Ok (true, false))
    by (vm_compute; reflexivity).
  rewrite H in E. cbn [bind] in E. injection E as -> ->. auto.
Qed.
Print Assumptions C14_initial.
Example C14_ex : let idle := mkCin (fz 0) (fz 0) 0 in
  let pg init := let* s := conv_sim (cfg_ex 7 0 init) cal_ex [idle] in Ok (power_good s) in
  pg 2400000 = Ok false /\ pg 2400001 = Ok true.
Proof. vm_compute. auto. Qed.

(* ------------------------------------------------------------------ C15 *)

(** Covered by the source with a boost converter, without storage, without input resistor, or when the input is
    not below the storage. *)
Theorem C15_energy c cal xs s0 x s1 n : valid_ccfg c -> valid_pair (adc_C_A cal) -> conv_sim c cal xs = Ok s0 ->
  fin (in_V x) = true -> fin (in_I x) = true -> calc_inp_power c s0 (in_V x) (in_I x) = Ok (s1, n) ->
  fin (P_inp s1) = true /\ n = ZnearestE (fR (P_inp s1)) /\ (0 <= fR (P_inp s1))%R
  /\ (has_boost c \/ ~ has_storage c \/ R_input_kOhm_n22 c = 0 \/ (fR (V_mid s0) <= fR (V_input s1))%R ->
      (fR (P_inp s1) <= rnd (Rmax 0 (fR (in_V x)) * Rmax 0 (fR (in_I x))))%R).
Proof.
  intros V Hp H0 Fv Fi H. exact (inp_energy c V s0 _ _ s1 n (i_mid s0 (sim_inv c V cal _ _ Hp H0)) Fv Fi H).
Qed.
Print Assumptions C15_energy.

(** Exact power of the boost converter. *)
Theorem C15_boost c s v i s' n : valid_ccfg c -> has_boost c -> fin v = true -> fin i = true ->
  calc_inp_power c s v i = Ok (s', n) ->
  V_mid s' = V_mid s /\ fR (V_input s') = limited_voltage c (fR v) /\
  exists v' j e, get_input_efficiency c v' j = Ok e
    /\ fR v' = (if Rlt_dec (limited_voltage c (fR v)) (IZR (V_input_boost_threshold_uV c)) then 0 else limited_voltage c (fR v))%R
    /\ fR j = limited_current c (fR i)
    /\ fR (P_inp s') = rnd (rnd (fR e * fR v') * fR j).
Proof. intros V. exact (inp_exact_boost c V s v i s' n). Qed.
Print Assumptions C15_boost.

(** Exact power of the diode-capacitor circuit and the request to the harvester. *)
Theorem C15_diode c cal xs s0 x s' n : valid_ccfg c -> valid_pair (adc_C_A cal) -> conv_sim c cal xs = Ok s0 ->
  ~ has_boost c -> has_storage c -> fin (in_V x) = true -> fin (in_I x) = true ->
  calc_inp_power c s0 (in_V x) (in_I x) = Ok (s', n) ->
  let feedback := Z.testbit (converter_mode c) 4 in
  let w := limited_voltage c (fR (in_V x)) in
  let j := limited_current c (fR (in_I x)) in
  let drop := rnd (j * (IZR (R_input_kOhm_n22 c) / 4194304)) in
  V_mid s' = V_mid s0 /\ fR (V_input s') = w
  /\ fR (P_inp s') = rnd (diode_voltage feedback (fR (V_mid s0)) w drop * j)
  /\ (feedback = true -> fR (V_request s') = rnd (rnd (fR (V_mid s0) + drop) + IZR (V_input_drop_uV c)))
  /\ (feedback = false -> V_request s' = V_request s0).
Proof.
  intros V Hp H0 Bo St Fv Fi H. exact (inp_exact_diode c V s0 _ _ s' n Bo St (i_mid s0 (sim_inv c V cal _ _ Hp H0)) Fv Fi H).
Qed.
Print Assumptions C15_diode.

(** Without converter and storage the input is connected to the output. *)
Theorem C15_direct c s v i s' n : valid_ccfg c -> ~ has_boost c -> ~ has_storage c -> fin v = true ->
  calc_inp_power c s v i = Ok (s', n) ->
  fR (V_mid s') = limited_voltage c (fR v) /\ V_input s' = V_mid s' /\ fR (P_inp s') = 0%R /\ n = 0.
Proof. intros V. exact (inp_exact_direct c V s v i s' n). Qed.
Print Assumptions C15_direct.

(** Storage without boost converter: with an input resistor a source below the storage charges it as if it
    had its voltage.  1 V and 1 mA are credited as 3 mW. *)
Theorem C15_energy_refuted : exists c s0 s1 v i n, valid_ccfg c /\ conv_sim c cal_ex [] = Ok s0
  /\ calc_inp_power c s0 (fz v) (fz i) = Ok (s1, n) /\ 0 <= v < 2 ^ 32 /\ 0 <= i < 2 ^ 32 /\ v * i < n.
Proof.
  set (c := cfg_ex 5 4194304 3000000).
  assert (V : valid_ccfg c) by (apply cfg_ex_valid; unfold u32; lia).
  destruct (sim_total c V cal_ex [] cal_ex_bounded) as [s0 H].
  pose proof (proj1 cal_ex_bounded) as Hp.
  destruct (inp_ok c V s0 (fz 1100000) (fz 1000000) (i_mid s0 (sim_inv c V cal_ex _ _ Hp H))) as (p & vm & rq & E & _).
  assert (X : (let* s0 := conv_sim c cal_ex [] in let* (s1, n) := calc_inp_power c s0 (fz 1100000) (fz 1000000) in Ok n)
     = Ok 3000000000000) by (vm_compute; reflexivity).
  rewrite H in X. cbn [bind] in X. rewrite E in X. cbn [bind] in X. injection X as X.
  rewrite X in E. exists c, s0, (after_inp c s0 (fz 1100000) p vm rq), 1100000, 1000000, 3000000000000.
  repeat (split; [assumption|]). lia.
Qed.
Print Assumptions C15_energy_refuted.
Example C15_ex : let pwr c v i := let* s0 := conv_sim c cal_ex [] in
     let* (s1, n) := calc_inp_power c s0 v i in Ok n in
  pwr (cfg_ex 7 0 3000000) (fz 2000000) (fz 1000000) = Ok 1669921875000
  /\ pwr (cfg_ex 5 0 3000000) (fz 2000000) (fz 1000000) = Ok 0
  /\ pwr (cfg_ex 5 4194304 1000000) (fz 2500000) (fz 1000000) = Ok 1400000000000
  /\ pwr (cfg_ex 7 0 3000000) (fz 2000000) (fz (-5)) = Ok 0.
Proof. vm_compute. auto. Qed.

(* ------------------------------------------------------------------ C16 *)

Theorem C16_drawn c cal xs s0 x s1 n1 s2 n2 : valid_ccfg c -> valid_pair (adc_C_A cal) -> conv_sim c cal xs = Ok s0 ->
  calc_inp_power c s0 (in_V x) (in_I x) = Ok (s1, n1) ->
  calc_out_power c cal s1 (in_raw x) = Ok (s2, n2) ->
  fin (P_out s2) = true /\ (0 <= fR (P_out s2))%R
  /\ (Z.of_nat (List.length xs) < interval_startup_delay_drain_n c -> fR (P_out s2) = 0%R)
  /\ (interval_startup_delay_drain_n c <= Z.of_nat (List.length xs) ->
      exists i eta, conv_adc_raw_to_nA cal (residue s0) (Z.min 262143 (Z.max 0 (in_raw x))) = (i, residue s2)
          /\ fin i = true /\ (0 <= fR i)%R
          /\ (has_buck c -> get_output_inv_efficiency c i = Ok eta) /\ (~ has_buck c -> fR eta = 1%R)
          /\ fR (P_out s2) = drawn (fR eta) (fR (V_out s0)) (fR i) (fR (V_mid s1)) (IZR (I_intermediate_leak_nA c))).
Proof. intros V. exact (drain_step c V cal xs s0 x s1 n1 s2 n2). Qed.
Print Assumptions C16_drawn.

(** The counter of the start-up phase. *)
Theorem C16_counter c cal xs s : valid_ccfg c -> valid_pair (adc_C_A cal) -> conv_sim c cal xs = Ok s ->
  drain_n s = Z.max 0 (interval_startup_delay_drain_n c - Z.of_nat (List.length xs)).
Proof. intros V. exact (sim_drain c V cal xs s). Qed.
Print Assumptions C16_counter.
(** Three steps without load, the fourth one draws. *)
Example C16_ex : let load := mkCin (fz 0) (fz 0) 1000 in
  let po k := let* s := conv_sim (cfg_ex 7 0 3000000) cal_ex (repeat load k) in get_P_output_fW s in
  po 1%nat = Ok 0 /\ po 3%nat = Ok 0 /\ (let* n := po 4%nat in Ok (0 <? n)) = Ok true.
Proof. vm_compute. auto. Qed.

(* ------------------------------------------------------------------ C17 *)

Theorem C17_stream cal raws r l r' : valid_pair (adc_C_A cal) -> fin r = true -> (0 <= fR r <= 60000)%R ->
  Forall (fun raw => 0 <= raw <= 2 ^ 18 - 1) raws -> adc_stream cal r raws = (l, r') ->
  Forall (fun i => isnan i = false /\ (0 <= xR i)%R) l /\ List.length l = List.length raws
  /\ fin r' = true /\ (0 <= fR r' <= 60000)%R.
Proof. intros Hp F B. exact (adc_stream_ok cal raws r l r' Hp (conj F B)). Qed.
Print Assumptions C17_stream.

(** In every simulation, whatever the readings. *)
Theorem C17_simulation c cal xs s : valid_ccfg c -> valid_pair (adc_C_A cal) -> conv_sim c cal xs = Ok s ->
  fin (residue s) = true /\ (0 <= fR (residue s) <= 60000)%R.
Proof. intros V. exact (residue_bounds c V cal xs s). Qed.
Print Assumptions C17_simulation.

(** What is compensated: below the limit nothing is lost but the rounding. *)
Theorem C17_balance cal r raw i r' : valid_pair (adc_C_A cal) -> fin r = true -> (0 <= fR r <= 60000)%R ->
  0 <= raw <= 2 ^ 18 - 1 ->
  let si := raw_to_si (adc_C_A cal) (fz raw) true in
  let I := fmul si (fz (10 ^ 9)) in
  fin I = true -> (fR (cp_off (adc_C_A cal)) < 0)%R -> conv_adc_raw_to_nA cal r raw = (i, r') ->
  (fR r' = 0 /\ fR i = rnd (fR I - fR r) /\ fR r < fR I)%R
  \/ (fR i = 0 /\ fR I <= fR r /\ fR r' = Rmin (rnd (fR r - fR I)) 60000)%R.
Proof. intros Hp F B. exact (adc_balance cal r raw i r' Hp (conj F B)). Qed.
Print Assumptions C17_balance.

(** Without a negative offset the reading is used as it is. *)
Theorem C17_no_offset cal r raw : valid_pair (adc_C_A cal) -> (0 <= fR (cp_off (adc_C_A cal)))%R ->
  conv_adc_raw_to_nA cal r raw = (fmul (raw_to_si (adc_C_A cal) (fz raw) true) (fz (10 ^ 9)), r).
Proof.
  intros (_ & Fo & _) H. unfold conv_adc_raw_to_nA. destruct (fz_ok 0) as [F0 R0]; [lia|].
  destruct (flt (cp_off (adc_C_A cal)) (fz 0)) eqn:E; [|reflexivity].
  apply flt_R in E; auto. rewrite R0 in E. lra.
Qed.
Print Assumptions C17_no_offset.
(** Code 0 reads as -1000 nA: the residue grows and is paid back by the next reading. *)
Example C17_ex : let '(l, r) := adc_stream cal_ex (fz 0) [0; 0; 15; 20] in
  map fround l = [Ok 0; Ok 0; Ok 0; Ok 2685] /\ fround r = Ok 0
  /\ fround (snd (adc_stream cal_ex (fz 0) [0; 0; 15])) = Ok 135.
Proof. vm_compute. auto. Qed.

(* ------------------------------------------------------------------ C18 *)

Theorem C18_input c v i : valid_ccfg c -> fin v = true -> fin i = true -> (0 <= fR v)%R -> (0 <= fR i)%R ->
  exists e r cc row n, get_input_efficiency c v i = Ok e /\ fin e = true
    /\ row_for (LUT_input_V_min_log2_uV c) (fR v) r /\ col_for (LUT_input_I_min_log2_nA c) (fR i) cc
    /\ entry (LUT_inp_efficiency_n8 c) r row /\ entry row cc n
    /\ fR e = (IZR n / 256)%R /\ (0 <= fR e <= 255 / 256)%R.
Proof. intros V. exact (input_eff c V v i). Qed.
Print Assumptions C18_input.

Theorem C18_output c i : valid_ccfg c -> fin i = true -> (0 <= fR i)%R ->
  exists e cc n, get_output_inv_efficiency c i = Ok e /\ fin e = true
    /\ col_for (LUT_output_I_min_log2_nA c) (fR i) cc
    /\ entry (LUT_out_inv_efficiency_n4 c) cc n
    /\ fR e = (IZR n / 16)%R /\ (0 <= fR e <= IZR (2 ^ 28))%R.
Proof. intros V. exact (output_eff c V i). Qed.
Print Assumptions C18_output.
Example C18_ex : let e v i := let* x := get_input_efficiency (cfg_ex 7 0 0) (fz v) (fz i) in fround (fmul x (fz 256)) in
  e 0 0 = Ok 10 /\ e 1000 1023 = Ok 10 /\ e 1000 1024 = Ok 40 /\ e (2 ^ 31) (2 ^ 31) = Ok 230.
Proof. vm_compute. auto. Qed.

(* ------------------------------------------------------------------ C70 *)

(** The storage update in exact terms. *)
Theorem C70_charge c cal xs x s0 s1 s2 s3 : valid_ccfg c -> bounded_cal cal -> calls c cal xs x s0 s1 s2 s3 ->
  let lim := limited (IZR (V_intermediate_max_uV c)) in
  fin (V_mid s3) = true
  /\ (has_storage c -> fR (V_mid s3) =
        lim (charged (fR (V_mid s0)) (fR (P_inp s1)) (fR (P_out s2)) (IZR (Constant_us_per_nF_n28 c) / 268435456)))
  /\ (~ has_storage c -> has_boost c -> fR (V_mid s3) = lim (fR (V_mid s0)))
  /\ (~ has_storage c -> ~ has_boost c -> fR (V_mid s3) = lim (fR (V_input s1))).
Proof.
  intros V Hb (n1 & n2 & n3 & H0 & H1 & H2 & H3).
  destruct (storage_step c V cal xs x s0 s1 n1 s2 n2 s3 n3 Hb H0 H1 H2 H3) as (A & _ & B). exact (conj A B).
Qed.
Print Assumptions C70_charge.

(** With more power in than out the voltage does not fall (below the limit), with less it does not rise. *)
Theorem C70_direction c cal xs x s0 s1 s2 s3 : valid_ccfg c -> bounded_cal cal -> has_storage c ->
  calls c cal xs x s0 s1 s2 s3 ->
  ((fR (P_out s2) <= fR (P_inp s1))%R -> (Rmin (fR (V_mid s0)) (IZR (V_intermediate_max_uV c)) <= fR (V_mid s3))%R)
  /\ ((fR (P_inp s1) <= fR (P_out s2))%R -> (fR (V_mid s3) <= Rmax (fR (V_mid s0)) 1)%R).
Proof.
  intros V Hb St (n1 & n2 & n3 & H0 & H1 & H2 & H3).
  exact (storage_direction c V cal xs x s0 s1 n1 s2 n2 s3 n3 Hb St H0 H1 H2 H3).
Qed.
Print Assumptions C70_direction.
Example C70_ex : let v init x := let* s := conv_sim (cfg_ex 7 0 init) cal_ex [x] in get_V_intermediate_uV s in
  v 2000000 in_ex = Ok 2004268 /\ v 1000000 in_ex = Ok 1008535.
Proof. vm_compute. auto. Qed.

(* ------------------------------------------------------------------ C71 *)

(** The energy counters of the source never decrease and are never negative or undefined. *)
Theorem C71_counters c cal xs ys w w' : valid_ccfg c -> valid_pair (adc_C_A cal) ->
  src_sim c cal xs = Ok w -> src_sim c cal (xs ++ ys) = Ok w' ->
  (isnan (W_inp w) = false /\ 0 <= xR (W_inp w))%R /\ (isnan (W_out w) = false /\ 0 <= xR (W_out w))%R
  /\ (xR (W_inp w) <= xR (W_inp w'))%R /\ (xR (W_out w) <= xR (W_out w'))%R.
Proof. intros V. exact (src_energy c V cal xs ys w w'). Qed.
Print Assumptions C71_counters.

(** One step of the source is one step of the converter with the reading that the calibration gives for the
    output current; the powers are added to the counters, the result is the storage or the output voltage. *)
Theorem C71_step c cal w v i io w' r : src_step c cal w v i io = Ok (w', r) ->
  exists raw pi po vm vraw, conv_step c cal (cnv w) (mkCin v i raw) = Ok (cnv w', (pi, po, vm, vraw))
    /\ si_to_raw (adc_C_A cal) (fmul io (fdec 1 9)) = Ok raw
    /\ W_inp w' = fadd (W_inp w) (fz pi) /\ W_out w' = fadd (W_out w) (fz po)
    /\ (Z.testbit (converter_mode c) 3 = true -> r = vm)
    /\ (Z.testbit (converter_mode c) 3 = false -> fint (fmul (raw_to_si (dac_V_A cal) (fz vraw) true) (fz (10 ^ 6))) = Ok r).
Proof. exact (src_split c cal w v i io w' r). Qed.
Print Assumptions C71_step.

(** So all properties of simulations hold for the converter inside a source. *)
Theorem C71_refines c cal xs w : src_sim c cal xs = Ok w ->
  exists ys, conv_sim c cal ys = Ok (cnv w) /\ List.length ys = List.length xs.
Proof. exact (src_sim_conv c cal xs w). Qed.
Print Assumptions C71_refines.
Example C71_ex : let x := mkSin (fz 2000000) (fz 5000000) (fz 1000000) in
  let w k := let* w := src_sim (cfg_ex 7 0 3000000) cal_ex (repeat x k) in
             let* a := fround (W_inp w) in let* b := fround (W_out w) in Ok (a, 0 <? b) in
  w 1%nat = Ok (8535156250000, false) /\ w 4%nat = Ok (34140625000000, true).
Proof. vm_compute. auto. Qed.

(* ------------------------------------------------------------------ C72 *)

(** The current drawn from the storage can be asked for after every step, unless the output was connected in it
    at a storage voltage of exactly the voltage that this costs. *)
Theorem C72_mid_current c cal xs x s0 s1 s2 s3 s4 n : valid_ccfg c -> valid_pair (adc_C_A cal) ->
  calls c cal xs x s0 s1 s2 s3 -> update_states_and_output c cal s3 = Ok (s4, n) ->
  (exists i, get_I_mid_out_nA s4 = Ok i)
  \/ (get_I_mid_out_nA s4 = Err ZeroDivisionError /\ is_outputting s0 = false /\ is_outputting s4 = true
      /\ rnd (fR (V_mid s3) - IZR (dV_enable_output_uV c)) = 0%R).
Proof. intros V. exact (mid_current c V cal xs x s0 s1 s2 s3 s4 n). Qed.
Print Assumptions C72_mid_current.

(** This case can be reached. *)
Theorem C72_mid_current_refuted : exists c s, valid_ccfg c /\ conv_sim c cal_ex [mkCin (fz 0) (fz 0) 0] = Ok s
  /\ get_I_mid_out_nA s = Err ZeroDivisionError.
Proof.
  set (c := cfg_ex4 7 0 3000000 3000000). set (xs := [mkCin (fz 0) (fz 0) 0]).
  assert (V : valid_ccfg c) by (apply cfg_ex4_valid; unfold u32; lia).
  destruct (sim_total c V cal_ex xs cal_ex_bounded) as [s H]. exists c, s. split; [exact V|]. split; [exact H|].
  assert (X : (let* s := conv_sim c cal_ex xs in match get_I_mid_out_nA s with Err e => Ok (Some e) | Ok _ => Ok None end)
     = Ok (Some ZeroDivisionError)) by (vm_compute; reflexivity).
  rewrite H in X. cbn [bind] in X. destruct (get_I_mid_out_nA s) as [i|e]; [discriminate|]. injection X as ->. reflexivity.
Qed.
Print Assumptions C72_mid_current_refuted.
Example C72_ex : let i k := let* s := conv_sim (cfg_ex 7 0 3000000) cal_ex (repeat (mkCin (fz 0) (fz 0) 1000) k) in
    let* i := get_I_mid_out_nA s in fround i in
  i 1%nat = Ok 0 /\ i 4%nat = Ok 183156.
Proof. vm_compute. auto. Qed.
