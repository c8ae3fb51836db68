(** C129: what the converter tells about itself agrees with what it did. *)
From Coq Require Import ZArith Bool Reals Lia Lra List.
From Flocq Require Import Core IEEE754.BinarySingleNaN.
From Verif Require Import PyBase F64 F64x CalModel CalSpec ConvModel ConvSpec ConvProofs ConvStepProofs ConvRunProofs GetModel GetProofs PropsConv.
Import ListNotations.
Open Scope Z_scope.

(** After each step the powers are those that the calls returned; so is the voltage of the storage, unless the
    output was connected, which lowers it. *)
Theorem C129_asked c cal xs x s s' pi po vm raw : valid_ccfg c -> valid_pair (adc_C_A cal) -> conv_sim c cal xs = Ok s ->
  conv_step c cal s x = Ok (s', (pi, po, vm, raw)) ->
  get_P_input_fW s' = Ok pi /\ get_P_output_fW s' = Ok po /\ V_out_raw s' = raw /\
  (is_outputting s = true \/ is_outputting s' = false -> get_V_intermediate_uV s' = Ok vm) /\
  (is_outputting s = false -> is_outputting s' = true -> exists v, ZnearestE v = vm /\
     get_V_intermediate_uV s' = Ok (ZnearestE (rnd (v - IZR (dV_enable_output_uV c))))).
Proof. intros V. exact (asked c V cal xs x s s' pi po vm raw). Qed.
Print Assumptions C129_asked.

(** The code of the storage voltage is ordered like the codes of the output. *)
Theorem C129_code c cal xs s : valid_ccfg c -> bounded_cal cal -> conv_sim c cal xs = Ok s ->
  exists n, get_V_intermediate_raw cal s = Ok n /\ 0 <= n <= 65535 /\
    forall ys t, ys <> [] -> conv_sim c cal ys = Ok t -> is_outputting t = true \/ drain_n t <> 0 ->
      ((fR (V_out t) <= fR (V_mid s))%R -> V_out_raw t <= n) /\ ((fR (V_mid s) <= fR (V_out t))%R -> n <= V_out_raw t).
Proof. intros V. exact (code c V cal xs s). Qed.
Print Assumptions C129_code.

(** A value that was set is the one that is told, and the others stay. *)
Theorem C129_set v s :
  get_P_input_fW (set_P_input_fW v s) = fround v /\ get_P_output_fW (set_P_input_fW v s) = get_P_output_fW s /\ get_V_intermediate_uV (set_P_input_fW v s) = get_V_intermediate_uV s /\
  get_P_output_fW (set_P_output_fW v s) = fround v /\ get_P_input_fW (set_P_output_fW v s) = get_P_input_fW s /\ get_V_intermediate_uV (set_P_output_fW v s) = get_V_intermediate_uV s /\
  get_V_intermediate_uV (set_V_intermediate_uV v s) = fround v /\ get_P_input_fW (set_V_intermediate_uV v s) = get_P_input_fW s /\ get_P_output_fW (set_V_intermediate_uV v s) = get_P_output_fW s.
Proof. exact (set_get v s). Qed.
Print Assumptions C129_set.

(** What was set is what the storage is charged with. *)
Theorem C129_set_charge c s v pi po : valid_ccfg c -> has_storage c ->
  fin v = true -> fin pi = true -> fin po = true -> (0 <= fR v <= IZR (2 ^ 32))%R -> (0 <= fR pi <= P2 64)%R -> (0 <= fR po <= P2 300)%R ->
  exists s' n, update_cap_storage c (set_V_intermediate_uV v (set_P_output_fW po (set_P_input_fW pi s))) = Ok (s', n) /\
    get_V_intermediate_uV s' = Ok n /\
    fR (V_mid s') = Rmax (Rmin (charged (fR v) (fR pi) (fR po) (IZR (Constant_us_per_nF_n28 c) / 268435456)) (IZR (V_intermediate_max_uV c))) 1.
Proof.
  intros V S Fv Fi Fo Bv Bi Bo.
  destruct (cap_ok c V (set_V_intermediate_uV v (set_P_output_fW po (set_P_input_fW pi s))) (conj Fv Bv) Fi Bi Fo Bo) as (w & E & Fw & R).
  eexists. eexists. split; [exact E|]. split; [apply fround_ok; exact Fw|]. cbn [with_mid V_mid]. rewrite storage_bit in R.
  unfold has_storage in S. rewrite S in R. exact R.
Qed.
Print Assumptions C129_set_charge.

(** The told power-good signal is the Schmitt trigger of C14. *)
Theorem C129_power_good c cal xs x s0 s1 s2 s3 s4 n : valid_ccfg c -> valid_pair (adc_C_A cal) ->
  calls c cal xs x s0 s1 s2 s3 -> update_states_and_output c cal s3 = Ok (s4, n) ->
  (get_power_good s0 = true -> get_power_good s4 = false <->
     (is_check c s3 \/ immediate_pwr_good_signal c <> 0) /\ (fR (V_mid s3) <= IZR (V_pwr_good_disable_threshold_uV c))%R)
  /\ (get_power_good s0 = false -> get_power_good s4 = true <->
     (is_check c s3 \/ immediate_pwr_good_signal c <> 0) /\ (IZR (V_pwr_good_enable_threshold_uV c) <= fR (V_mid s3))%R
     /\ is_outputting s4 = true).
Proof. exact (C14_power_good c cal xs x s0 s1 s2 s3 s4 n). Qed.
Print Assumptions C129_power_good.

(** The told choice of the logged node is bit 3 of the mode. *)
Theorem C129_log_node c s : get_state_log_intermediate c s = Z.testbit (converter_mode c) 3.
Proof.
  unfold get_state_log_intermediate, enable_log_mid, mode_bit.
  rewrite <- (Z.b2z_bit0 (Z.testbit (converter_mode c) 3)) at 1.
  assert (E : Z.land (converter_mode c) 8 = Z.b2z (Z.testbit (converter_mode c) 3) * 8).
  { apply Z.bits_inj'. intros k K. rewrite Z.land_spec. change 8 with (2 ^ 3). rewrite Z.pow2_bits_eqb by lia.
    rewrite Z.mul_pow2_bits by lia. destruct (Z.eqb_spec 3 k) as [<-|N].
    - rewrite andb_true_r, Z.sub_diag, Z.b2z_bit0. reflexivity.
    - rewrite andb_false_r. symmetry. destruct (Z.ltb_spec k 3).
      + apply Z.testbit_neg_r. lia.
      + destruct (Z.testbit (converter_mode c) 3); cbn [Z.b2z]; [|apply Z.bits_0].
        change 1 with (2 ^ 0). rewrite Z.pow2_bits_eqb by lia. destruct (Z.eqb_spec 0 (k - 3)); [lia|reflexivity]. }
  rewrite E. destruct (Z.testbit (converter_mode c) 3); reflexivity.
Qed.
Print Assumptions C129_log_node.

(** The flag of the gpio log tells when to leave out, not when to log. *)
Theorem C129_gpio c cal xs s : valid_ccfg c -> valid_pair (adc_C_A cal) -> xs <> [] -> conv_sim c cal xs = Ok s ->
  get_state_log_gpio s = true <-> (fR (V_out s) < IZR (V_output_log_gpio_threshold_uV c))%R.
Proof. intros V. exact (skipping c V cal xs s). Qed.
Print Assumptions C129_gpio.

(** REFUTED: by its name the flag would be set when the output voltage suffices. *)
Theorem C129_gpio_refuted : exists c s, valid_ccfg c /\ conv_sim c cal_ex [mkCin (fz 0) (fz 0) 0] = Ok s /\
  (IZR (V_output_log_gpio_threshold_uV c) <= fR (V_out s))%R /\ get_state_log_gpio s = false.
Proof.
  set (c := cfg_ex 7 0 3000000). set (xs := [mkCin (fz 0) (fz 0) 0]).
  assert (V : valid_ccfg c) by (apply cfg_ex_valid; unfold u32; lia).
  destruct (sim_total c V cal_ex xs cal_ex_bounded) as [s H]. exists c, s. split; [exact V|]. split; [exact H|].
  assert (X : (let* s := conv_sim c cal_ex xs in Ok (get_state_log_gpio s)) = Ok false) by (vm_compute; reflexivity).
  rewrite H in X. cbn [bind] in X. injection X as X. split; [|exact X].
  apply Rnot_lt_le. intros L. apply (C129_gpio c cal_ex xs s V (proj1 cal_ex_bounded)) in L; [congruence|discriminate|exact H].
Qed.
Print Assumptions C129_gpio_refuted.

(** The storage voltage is told lower than returned in the step that connects the output, and as returned in the
    next one; its code is above that of the output, 2.3 V. *)
Example C129_ex :
  let told k := let* s := conv_sim (cfg_ex 7 0 3000000) cal_ex (repeat (mkCin (fz 0) (fz 0) 1000) k) in
    let* (s', r) := conv_step (cfg_ex 7 0 3000000) cal_ex s (mkCin (fz 1000000) (fz 1000) 1000) in
    let* p := get_P_input_fW s' in let* v := get_V_intermediate_uV s' in let* n := get_V_intermediate_raw cal_ex s' in Ok (r, (p, v, n, is_outputting s')) in
  told 0%nat = Ok (35156250, 0, 3000000, 30144, (35156250, 2988000, 39161, true)) /\ told 1%nat = Ok (35156250, 0, 2988000, 30144, (35156250, 2988000, 39161, true)).
Proof. vm_compute. auto. Qed.
