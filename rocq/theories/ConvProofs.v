(** Proofs about the converter stage, part 1: look-up tables, input limits, the four calls of one step. *)
From Coq Require Import ZArith Bool Reals Lia Lra Psatz List.
From Flocq Require Import Core IEEE754.BinarySingleNaN.
From RecordUpdate Require Import RecordSet.
From Verif Require Import PyBase F64 F64x CalModel CalSpec CalProofs ConvModel ConvSpec.
Import RecordSetNotations ListNotations.
Open Scope Z_scope.

Lemma fz_u32 z : u32 z -> fin (fz z) = true /\ fR (fz z) = IZR z /\ (0 <= IZR z <= IZR (2 ^ 32))%R.
Proof.
  intros [H1 H2]. destruct (fz_ok z) as [A B]; [lia|]. repeat split; auto; apply IZR_le; lia.
Qed.

(** Mode flags. *)
Lemma mode_bit_test c k : 0 <= k -> mode_bit c (2 ^ k) = Z.testbit (converter_mode c) k.
Proof.
  intros Hk. unfold mode_bit.
  assert (E : Z.land (converter_mode c) (2 ^ k) = if Z.testbit (converter_mode c) k then 2 ^ k else 0).
  { apply Z.bits_inj'. intros n Hn. rewrite Z.land_spec, Z.pow2_bits_eqb by lia.
    destruct (Z.eqb_spec k n) as [->|N].
    - rewrite andb_true_r. destruct (Z.testbit (converter_mode c) n); [rewrite Z.pow2_bits_true|rewrite Z.bits_0]; auto.
    - rewrite andb_false_r. destruct (Z.testbit (converter_mode c) k); [rewrite Z.pow2_bits_false by lia|rewrite Z.bits_0]; auto. }
  rewrite E. destruct (Z.testbit (converter_mode c) k); [|reflexivity].
  apply Z.ltb_lt. apply Z.pow_pos_nonneg; lia.
Qed.
Lemma storage_bit c : enable_storage c = Z.testbit (converter_mode c) 0.
Proof. exact (mode_bit_test c 0 ltac:(lia)). Qed.
Lemma boost_bit c : enable_boost c = Z.testbit (converter_mode c) 1.
Proof. exact (mode_bit_test c 1 ltac:(lia)). Qed.
Lemma buck_bit c : enable_buck c = Z.testbit (converter_mode c) 2.
Proof. exact (mode_bit_test c 2 ltac:(lia)). Qed.
Lemma log_bit c : enable_log_mid c = Z.testbit (converter_mode c) 3.
Proof. exact (mode_bit_test c 3 ltac:(lia)). Qed.
Lemma feedback_bit c : feedback_to_hrv c = Z.testbit (converter_mode c) 4.
Proof. exact (mode_bit_test c 4 ltac:(lia)). Qed.

(** Table access. *)
Lemma py_at_ok {A} (l : list A) i : 0 <= i < Z.of_nat (List.length l) ->
  exists a, py_at l i = Ok a /\ nth_error l (Z.to_nat i) = Some a /\ In a l.
Proof.
  intros H. unfold py_at. destruct (Z.ltb_spec i 0); [lia|].
  destruct (Z.ltb_spec i 0); [lia|].
  destruct (nth_error l (Z.to_nat i)) as [a|] eqn:E.
  - exists a. repeat split; auto. now apply nth_error_In in E.
  - apply nth_error_None in E. lia.
Qed.

(** Division by a scale. *)
Lemma scale_ok k : 0 <= k <= 20 -> fin (fz (2 ^ k)) = true /\ fR (fz (2 ^ k)) = bpow radix2 k /\ fR (fz (2 ^ k)) <> 0%R.
Proof.
  intros H. assert (2 ^ k <= 2 ^ 20) by (apply Z.pow_le_mono_r; lia). assert (0 < 2 ^ k) by (apply Z.pow_pos_nonneg; lia).
  destruct (fz_ok (2 ^ k)) as [A B]; [lia|]. split; [exact A|].
  assert (E : IZR (2 ^ k) = bpow radix2 k) by (rewrite <- IZR_Zpower by lia; reflexivity).
  rewrite B, E. split; [reflexivity|]. pose proof (bpow_gt_0 radix2 k). lra.
Qed.

Lemma scale_div v k : fin v = true -> (0 <= fR v)%R -> 0 <= k <= 20 ->
  exists q, fdiv v (fz (2 ^ k)) = Ok q /\ fint q = Ok (Zfloor (fR v * bpow radix2 (- k))).
Proof.
  intros F H Hk. destruct (scale_ok k Hk) as (A & B & C).
  assert (E : (fR v / fR (fz (2 ^ k)) = fR v * bpow radix2 (- k))%R).
  { rewrite B, bpow_opp. reflexivity. }
  destruct (fdiv_ok v (fz (2 ^ k)) F A C) as (q & Q1 & Q2 & Q3).
  { rewrite E. eapply Rle_lt_trans; [|apply (fR_lt_Top v)].
    assert (L : (fR v * bpow radix2 (- k) <= fR v)%R).
    { rewrite <- (Rmult_1_r (fR v)) at 2. apply Rmult_le_compat_l; [exact H|].
      change 1%R with (bpow radix2 0). apply bpow_le. lia. }
    assert (P : (0 <= fR v * bpow radix2 (- k))%R) by (apply Rmult_le_pos; [exact H|apply bpow_ge_0]).
    rewrite !Rabs_pos_eq; auto; [|now apply rnd_nonneg]. now apply rnd_le_self. }
  exists q. split; [exact Q1|]. rewrite fint_ok by exact Q2. rewrite Q3, E, trunc_scaled; auto.
  - apply fmt_fR.
  - lia.
Qed.

Lemma bpow_IZR k : 0 <= k -> bpow radix2 k = IZR (2 ^ k).
Proof. intros H. rewrite <- IZR_Zpower by lia. reflexivity. Qed.

Lemma scale_floor v k n : 0 <= k -> Zfloor (v * bpow radix2 (- k)) = n ->
  (IZR (n * 2 ^ k) <= v < IZR ((n + 1) * 2 ^ k))%R.
Proof.
  intros Hk E. pose proof (Zfloor_lb (v * bpow radix2 (- k))) as L.
  pose proof (Zfloor_ub (v * bpow radix2 (- k))) as U. rewrite E in L, U.
  rewrite !mult_IZR, plus_IZR, <- !bpow_IZR by lia.
  assert (X : (bpow radix2 (- k) * bpow radix2 k = 1)%R).
  { rewrite <- bpow_plus. replace (- k + k) with 0 by lia. reflexivity. }
  assert (Y : (v = v * bpow radix2 (- k) * bpow radix2 k)%R) by (rewrite Rmult_assoc, X; ring).
  pose proof (bpow_gt_0 radix2 k) as P. rewrite Y. split.
  - apply Rmult_le_compat_r; lra.
  - apply Rmult_lt_compat_r; lra.
Qed.

Lemma scale_floor_nonneg v k : (0 <= v)%R -> 0 <= Zfloor (v * bpow radix2 (- k)).
Proof.
  intros H. apply (Zfloor_lub 0). apply Rmult_le_pos; [exact H|apply bpow_ge_0].
Qed.

Lemma row_ok k v : 0 <= k -> (0 <= v)%R ->
  row_for k v (pos_clamp (if 0 <? Zfloor (v * bpow radix2 (- k)) then Zfloor (v * bpow radix2 (- k)) else 0)).
Proof.
  intros Hk Hv. pose proof (scale_floor_nonneg v k Hv) as N.
  pose proof (scale_floor v k _ Hk eq_refl) as S. set (n := Zfloor (v * bpow radix2 (- k))) in *.
  assert (E : (if 0 <? n then n else 0) = n) by (destruct (Z.ltb_spec 0 n); lia). rewrite E.
  unfold pos_clamp, LUT_SIZE. unfold row_for. pose proof (Z.pow_pos_nonneg 2 k ltac:(lia) Hk) as P.
  destruct (Z.leb_spec 12 n) as [L|L].
  - split; [lia|]. split; [|lia]. eapply Rle_trans; [|apply S]. apply IZR_le. nia.
  - split; [lia|]. split; [apply S|]. intros _. apply S.
Qed.

Lemma col_ok k i : 0 <= k -> (0 <= i)%R -> col_for k i (pos_clamp (pos_log2 (Zfloor (i * bpow radix2 (- k))))).
Proof.
  intros Hk Hv. pose proof (scale_floor_nonneg i k Hv) as N.
  pose proof (scale_floor i k _ Hk eq_refl) as S. set (n := Zfloor (i * bpow radix2 (- k))) in *.
  pose proof (Z.pow_pos_nonneg 2 k ltac:(lia) Hk) as P.
  unfold pos_clamp, LUT_SIZE, pos_log2, col_for.
  destruct (Z.ltb_spec 0 n) as [L|L].
  - pose proof (Z.log2_spec n L) as [A B]. pose proof (Z.log2_nonneg n) as C.
    destruct (Z.leb_spec 12 (Z.log2 n)) as [M|M].
    + split; [lia|]. split; [|lia]. intros _. eapply Rle_trans; [|apply S]. apply IZR_le.
      rewrite Z.pow_add_r by lia. apply Z.mul_le_mono_nonneg_r; [lia|].
      apply Z.le_trans with (2 ^ Z.log2 n); [|exact A]. apply Z.pow_le_mono_r; lia.
    + split; [lia|]. split.
      * intros _. eapply Rle_trans; [|apply S]. apply IZR_le. rewrite Z.pow_add_r by lia.
        apply Z.mul_le_mono_nonneg_r; lia.
      * intros _. eapply Rlt_le_trans; [apply S|]. apply IZR_le.
        rewrite (Z.pow_add_r 2 (Z.log2 n + 1)) by lia. apply Z.mul_le_mono_nonneg_r; [lia|].
        rewrite <- Z.add_1_r in B. lia.
  - assert (E : n = 0) by lia. rewrite E in *. simpl (12 <=? 0).
    destruct (Z.leb_spec 12 0); [lia|]. split; [lia|]. split; [lia|]. intros _.
    eapply Rlt_le_trans; [apply S|]. apply IZR_le. rewrite !Z.pow_add_r by lia. lia.
Qed.

Lemma eff_ok e : u8 e -> let f := idiv (fz e) (fz (2 ^ 8)) in
  fin f = true /\ fR f = (IZR e / 256)%R /\ (0 <= fR f <= 255 / 256)%R.
Proof.
  intros [H1 H2]. destruct (fz_ok e) as [A B]; [lia|]. destruct (fz_ok (2 ^ 8)) as [C D]; [lia|].
  assert (Q : (IZR e / IZR (2 ^ 8) = IZR e * bpow radix2 (-8))%R) by (simpl; lra).
  assert (F : fmt (IZR e / IZR (2 ^ 8))) by (rewrite Q; apply fmt_scaled; lia).
  assert (G : (0 <= IZR e <= 255)%R) by (split; apply IZR_le; lia).
  assert (D' : IZR (2 ^ 8) = 256%R) by reflexivity.
  destruct (idiv_Big (fz e) (fz (2 ^ 8)) A) as [X Y].
  - rewrite D, D'. lra.
  - rewrite B, D, D'. assert (L : (1 <= Big)%R) by (apply IZR_Big; lia). rewrite Rabs_pos_eq; lra.
  - cbv zeta. rewrite B, D, rnd_id in Y by exact F. rewrite D' in Y. split; [exact X|]. split; [exact Y|].
    rewrite Y. lra.
Qed.

Lemma inv_eff_ok e : u32 e -> let f := idiv (fz e) (fz (2 ^ 4)) in
  fin f = true /\ fR f = (IZR e / 16)%R /\ (0 <= fR f <= IZR (2 ^ 28))%R.
Proof.
  intros [H1 H2]. destruct (fz_ok e) as [A B]; [lia|]. destruct (fz_ok (2 ^ 4)) as [C D]; [lia|].
  assert (Q : (IZR e / IZR (2 ^ 4) = IZR e * bpow radix2 (-4))%R) by (simpl; lra).
  assert (F : fmt (IZR e / IZR (2 ^ 4))) by (rewrite Q; apply fmt_scaled; lia).
  assert (G : (0 <= IZR e <= 4294967296)%R) by (split; apply IZR_le; lia).
  assert (D' : IZR (2 ^ 4) = 16%R) by reflexivity.
  destruct (idiv_Big (fz e) (fz (2 ^ 4)) A) as [X Y].
  - rewrite D, D'. lra.
  - rewrite B, D, D'. assert (L : (4294967296 <= Big)%R) by (apply IZR_Big; lia). rewrite Rabs_pos_eq; lra.
  - cbv zeta. rewrite B, D, rnd_id in Y by exact F. rewrite D' in Y. split; [exact X|]. split; [exact Y|].
    rewrite Y. assert (IZR (2 ^ 28) = 268435456%R) by reflexivity. lra.
Qed.

Section Cfg.
Variable c : ccfg.
Hypothesis V : valid_ccfg c.

(** C18 *)
Lemma input_eff v i : fin v = true -> fin i = true -> (0 <= fR v)%R -> (0 <= fR i)%R ->
  exists e r cc row n, get_input_efficiency c v i = Ok e /\ fin e = true
    /\ row_for (LUT_input_V_min_log2_uV c) (fR v) r /\ col_for (LUT_input_I_min_log2_nA c) (fR i) cc
    /\ entry (LUT_inp_efficiency_n8 c) r row /\ entry row cc n
    /\ fR e = (IZR n / 256)%R /\ (0 <= fR e <= 255 / 256)%R.
Proof.
  intros Fv Fi Hv Hi. unfold get_input_efficiency.
  destruct (scale_div v _ Fv Hv (vc_lutV c V)) as (qv & Q1 & Q2).
  destruct (scale_div i _ Fi Hi (vc_lutI c V)) as (qi & Q3 & Q4).
  rewrite Q1. cbn [bind]. rewrite Q3. cbn [bind]. rewrite Q2. cbn [bind]. rewrite Q4. cbn [bind].
  pose proof (row_ok _ (fR v) (proj1 (vc_lutV c V)) Hv) as R1.
  pose proof (col_ok _ (fR i) (proj1 (vc_lutI c V)) Hi) as C1.
  set (r := pos_clamp (if _ <? _ then _ else _)) in *.
  set (cc := pos_clamp (pos_log2 _)) in *.
  destruct (vc_lut_in c V) as [L1 L2].
  destruct (py_at_ok (LUT_inp_efficiency_n8 c) r) as (row & E1 & E2 & E3); [rewrite L1; destruct R1; lia|].
  rewrite Forall_forall in L2. destruct (L2 row E3) as [L3 L4].
  destruct (py_at_ok row cc) as (n & E4 & E5 & E6); [rewrite L3; destruct C1; lia|].
  rewrite E1. cbn [bind]. rewrite E4. cbn [bind].
  rewrite Forall_forall in L4. destruct (eff_ok n (L4 n E6)) as (F1 & F2 & F3).
  exists (idiv (fz n) (fz (2 ^ 8))), r, cc, row, n. repeat (split; [first [reflexivity|assumption]|]).
  split; [split; [destruct R1; lia|exact E2]|]. split; [split; [destruct C1; lia|exact E5]|]. split; assumption.
Qed.

Lemma output_eff i : fin i = true -> (0 <= fR i)%R ->
  exists e cc n, get_output_inv_efficiency c i = Ok e /\ fin e = true
    /\ col_for (LUT_output_I_min_log2_nA c) (fR i) cc
    /\ entry (LUT_out_inv_efficiency_n4 c) cc n
    /\ fR e = (IZR n / 16)%R /\ (0 <= fR e <= IZR (2 ^ 28))%R.
Proof.
  intros Fi Hi. unfold get_output_inv_efficiency.
  destruct (scale_div i _ Fi Hi (vc_lutO c V)) as (qi & Q3 & Q4).
  rewrite Q3. cbn [bind]. rewrite Q4. cbn [bind].
  pose proof (col_ok _ (fR i) (proj1 (vc_lutO c V)) Hi) as C1.
  set (cc := pos_clamp (pos_log2 _)) in *.
  destruct (vc_lut_out c V) as [L1 L2].
  destruct (py_at_ok (LUT_out_inv_efficiency_n4 c) cc) as (n & E4 & E5 & E6); [rewrite L1; destruct C1; lia|].
  rewrite E4. cbn [bind].
  rewrite Forall_forall in L2. destruct (inv_eff_ok n (L2 n E6)) as (F1 & F2 & F3).
  exists (idiv (fz n) (fz (2 ^ 4))), cc, n. repeat (split; [first [reflexivity|assumption]|]).
  split; [split; [destruct C1; lia|exact E5]|]. split; assumption.
Qed.

(** Inputs after clamping: finite, in range, never above the (non-negative part of the) argument. *)
Lemma clamp_max0 v : isnan (fmax (fz 0) v) = false
  /\ ((isnan v = true /\ fmax (fz 0) v = fz 0) \/ (isnan v = false /\ xR (fmax (fz 0) v) = Rmax 0 (xR v)))
  /\ (0 <= xR (fmax (fz 0) v))%R.
Proof.
  destruct (fz_x 0) as [N0 X0]; [lia|]. destruct (isnan v) eqn:N.
  - rewrite (nan_eq v N), fmaxk_nan. split; [exact N0|]. split; [left; auto|]. rewrite X0. lra.
  - destruct (fmax_x (fz 0) v N0 N) as [A B]. rewrite X0 in B. split; [exact A|]. split; [right; auto|].
    rewrite B. apply Rmax_l.
Qed.

Lemma IZR32 z : u32 z -> Z.abs z <= 2 ^ 53.
Proof. unfold u32. lia. Qed.

Lemma min_u32 w k : u32 k -> isnan w = false -> (0 <= xR w)%R ->
  fin (fmin w (fz k)) = true /\ fR (fmin w (fz k)) = Rmin (xR w) (IZR k) /\ (0 <= fR (fmin w (fz k)) <= IZR k)%R
  /\ (fR (fmin w (fz k)) <= xR w)%R.
Proof.
  intros Hk N P. destruct (fz_u32 k Hk) as (F & R1 & R2).
  destruct (fmin_x w (fz k) N (fin_nan _ F)) as [A B]. rewrite (xR_fin (fz k)), R1 in B by exact F.
  pose proof Top_pos as HT. pose proof (xR_open (fz k) F) as O. rewrite xR_fin, R1 in O by exact F.
  assert (G : fin (fmin w (fz k)) = true).
  { apply fin_of_x; [exact A|]. rewrite B. unfold Rmin. destruct (Rle_dec (xR w) (IZR k)); lra. }
  rewrite xR_fin in B by exact G. split; [exact G|]. split; [exact B|]. rewrite B.
  unfold Rmin. destruct (Rle_dec (xR w) (IZR k)); lra.
Qed.

Lemma input_current_ok i : fin (input_current c i) = true
  /\ (0 <= fR (input_current c i) <= IZR (I_input_max_nA c))%R
  /\ (fin i = true -> fR (input_current c i) <= Rmax 0 (fR i))%R.
Proof.
  unfold input_current. destruct (clamp_max0 i) as (A & B & P).
  destruct (min_u32 _ _ (vc_Iin_max c V) A P) as (F & E & R1 & R2). split; [exact F|]. split; [exact R1|].
  intros Fi. destruct B as [[N _]|[_ B]]; [rewrite (fin_nan i Fi) in N; discriminate|].
  rewrite (xR_fin i Fi) in B. lra.
Qed.

Lemma input_voltage_ok v : fin (input_voltage c v) = true
  /\ (0 <= fR (input_voltage c v) <= IZR (V_input_max_uV c))%R
  /\ (fin v = true -> fR (input_voltage c v) <= Rmax 0 (fR v))%R.
Proof.
  unfold input_voltage. destruct (clamp_max0 v) as (A & B & P). set (w := fmax (fz 0) v) in *.
  destruct (fz_u32 _ (vc_Vin_drop c V)) as (Fd & Rd & Bd). destruct (fz_x 0) as [N0 X0]; [lia|].
  assert (K : isnan (if flt (fz (V_input_drop_uV c)) w then fsub w (fz (V_input_drop_uV c)) else fz 0) = false
    /\ (0 <= xR (if flt (fz (V_input_drop_uV c)) w then fsub w (fz (V_input_drop_uV c)) else fz 0) <= xR w)%R).
  { destruct (flt (fz (V_input_drop_uV c)) w) eqn:E.
    - apply flt_x in E; [|now apply fin_nan|exact A]. rewrite (xR_fin (fz _)), Rd in E by exact Fd.
      destruct (fin w) eqn:Fw.
      + destruct (fsub_x w (fz (V_input_drop_uV c)) Fw Fd) as [N X]. split; [exact N|]. rewrite X, Rd.
        rewrite (xR_fin w Fw) in *.
        assert (Q : (0 <= rnd (fR w - IZR (V_input_drop_uV c)) <= fR w)%R).
        { split; [apply rnd_nonneg; lra|apply rnd_le_self; lra]. }
        rewrite clampR_in; [exact Q|]. rewrite Rabs_pos_eq by lra. pose proof (xR_open w Fw) as O.
        rewrite xR_fin in O by exact Fw. lra.
      + pose proof Top_pos. destruct (inf_cases w Fw A) as [W|W]; rewrite W in *.
        * rewrite xR_ninf in P. lra.
        * rewrite xR_pinf in *. assert (I : fsub (B754_infinity false) (fz (V_input_drop_uV c)) = B754_infinity false).
          { clear -Fd. destruct (fz (V_input_drop_uV c)) as [s|s| |s m e Bo]; simpl in Fd; try discriminate; reflexivity. }
          rewrite I. split; [reflexivity|]. rewrite xR_pinf. lra.
    - split; [exact N0|]. rewrite X0. lra. }
  destruct K as [K1 K2].
  destruct (min_u32 _ _ (vc_Vin_max c V) K1 (proj1 K2)) as (F & E & R1 & R2). split; [exact F|]. split; [exact R1|].
  intros Fi. destruct B as [[N _]|[_ B]]; [rewrite (fin_nan v Fi) in N; discriminate|].
  rewrite (xR_fin v Fi) in B. rewrite <- B. eapply Rle_trans; [exact R2|]. exact (proj2 K2).
Qed.

Lemma R_ok : fin (R_input_kOhm c) = true /\ fR (R_input_kOhm c) = (IZR (R_input_kOhm_n22 c) / 4194304)%R
  /\ (0 <= fR (R_input_kOhm c) <= 1024)%R.
Proof.
  unfold R_input_kOhm. destruct (fz_u32 _ (vc_R c V)) as (A & B & G). destruct (fz_ok (2 ^ 22)) as [C D]; [lia|].
  assert (Q : (IZR (R_input_kOhm_n22 c) / IZR (2 ^ 22) = IZR (R_input_kOhm_n22 c) * bpow radix2 (-22))%R) by (simpl; lra).
  assert (F : fmt (IZR (R_input_kOhm_n22 c) / IZR (2 ^ 22))).
  { rewrite Q. apply fmt_scaled; [|lia]. apply IZR32, V. }
  change (IZR (2 ^ 32)) with 4294967296%R in G. assert (D' : IZR (2 ^ 22) = 4194304%R) by reflexivity.
  destruct (idiv_Big (fz (R_input_kOhm_n22 c)) (fz (2 ^ 22)) A) as [X Y].
  - rewrite D, D'. lra.
  - rewrite B, D, D'. assert (L : (4294967296 <= Big)%R) by (apply IZR_Big; lia). rewrite Rabs_pos_eq; lra.
  - rewrite B, D, rnd_id in Y by exact F. rewrite D' in Y. split; [exact X|]. split; [exact Y|]. rewrite Y. lra.
Qed.

Lemma Const_ok : fin (Constant_us_per_nF c) = true
  /\ fR (Constant_us_per_nF c) = (IZR (Constant_us_per_nF_n28 c) / 268435456)%R
  /\ (0 <= fR (Constant_us_per_nF c) <= 16)%R.
Proof.
  unfold Constant_us_per_nF. destruct (fz_u32 _ (vc_const c V)) as (A & B & G). destruct (fz_ok (2 ^ 28)) as [C D]; [lia|].
  assert (Q : (IZR (Constant_us_per_nF_n28 c) / IZR (2 ^ 28) = IZR (Constant_us_per_nF_n28 c) * bpow radix2 (-28))%R) by (simpl; lra).
  assert (F : fmt (IZR (Constant_us_per_nF_n28 c) / IZR (2 ^ 28))).
  { rewrite Q. apply fmt_scaled; [|lia]. apply IZR32, V. }
  change (IZR (2 ^ 32)) with 4294967296%R in G. assert (D' : IZR (2 ^ 28) = 268435456%R) by reflexivity.
  destruct (idiv_Big (fz (Constant_us_per_nF_n28 c)) (fz (2 ^ 28)) A) as [X Y].
  - rewrite D, D'. lra.
  - rewrite B, D, D'. assert (L : (4294967296 <= Big)%R) by (apply IZR_Big; lia). rewrite Rabs_pos_eq; lra.
  - rewrite B, D, rnd_id in Y by exact F. rewrite D' in Y. split; [exact X|]. split; [exact Y|]. rewrite Y. lra.
Qed.

(** A voltage inside the state. *)
Definition vok (x : f64) : Prop := fin x = true /\ (0 <= fR x <= IZR (2 ^ 32))%R.

Lemma fz_vok k : u32 k -> vok (fz k).
Proof. intros H. destruct (fz_u32 k H) as (A & B & C). split; [exact A|]. now rewrite B. Qed.
Lemma input_voltage_vok v : vok (input_voltage c v).
Proof.
  destruct (input_voltage_ok v) as (A & B & _). split; [exact A|].
  destruct (fz_u32 _ (vc_Vin_max c V)) as (_ & _ & G). lra.
Qed.

Definition P2 (n : Z) : R := IZR (2 ^ n).
Lemma P2_Big n : 0 <= n <= 1000 -> (P2 n <= Big)%R.
Proof. intros H. apply IZR_Big. apply Z.pow_le_mono_r; lia. Qed.
Lemma P2_mul a b : 0 <= a -> 0 <= b -> (P2 a * P2 b)%R = P2 (a + b).
Proof. intros. unfold P2. rewrite <- mult_IZR, <- Z.pow_add_r by lia. reflexivity. Qed.
Lemma P2_fmt n : 0 <= n <= 1000 -> fmt (P2 n).
Proof.
  intros H. unfold P2. rewrite <- bpow_IZR by lia. apply generic_format_bpow. unfold SpecFloat.fexp, SpecFloat.emin. lia.
Qed.
Lemma P2_pos n : 0 <= n -> (1 <= P2 n)%R.
Proof. intros H. unfold P2. apply IZR_le. pose proof (Z.pow_pos_nonneg 2 n). lia. Qed.
Lemma P2_le a b : 0 <= a <= b -> (P2 a <= P2 b)%R.
Proof. intros H. unfold P2. apply IZR_le. apply Z.pow_le_mono_r; lia. Qed.

(** Product of two non-negative bounded numbers. *)
Lemma mul_pos x y a b : fin x = true -> fin y = true -> 0 <= a -> 0 <= b -> a + b <= 1000 ->
  (0 <= fR x <= P2 a)%R -> (0 <= fR y <= P2 b)%R ->
  fin (fmul x y) = true /\ fR (fmul x y) = rnd (fR x * fR y) /\ (0 <= fR (fmul x y) <= P2 (a + b))%R.
Proof.
  intros Fx Fy Ha Hb Hab Bx By.
  assert (Q : (0 <= fR x * fR y <= P2 (a + b))%R).
  { rewrite <- P2_mul by lia. split; [apply Rmult_le_pos; lra|apply Rmult_le_compat; lra]. }
  destruct (fmul_Big x y Fx Fy) as [A B].
  { rewrite Rabs_pos_eq by lra. pose proof (P2_Big (a + b) ltac:(lia)). lra. }
  split; [exact A|]. split; [exact B|]. rewrite B. split; [apply rnd_nonneg; lra|].
  apply rnd_le_fmt; [apply P2_fmt; lia|lra].
Qed.
Lemma add_pos x y a : fin x = true -> fin y = true -> 0 <= a <= 999 ->
  (0 <= fR x <= P2 a)%R -> (0 <= fR y <= P2 a)%R ->
  fin (fadd x y) = true /\ fR (fadd x y) = rnd (fR x + fR y) /\ (0 <= fR (fadd x y) <= P2 (a + 1))%R.
Proof.
  intros Fx Fy Ha Bx By.
  assert (Q : (0 <= fR x + fR y <= P2 (a + 1))%R).
  { rewrite <- P2_mul by lia. assert (E : P2 1 = 2%R) by reflexivity. rewrite E. lra. }
  destruct (fadd_Big x y Fx Fy) as [A B].
  { rewrite Rabs_pos_eq by lra. pose proof (P2_Big (a + 1) ltac:(lia)). lra. }
  split; [exact A|]. split; [exact B|]. rewrite B. split; [apply rnd_nonneg; lra|].
  apply rnd_le_fmt; [apply P2_fmt; lia|lra].
Qed.
Lemma sub_vok x y : vok x -> vok y -> (fR y <= fR x)%R ->
  vok (fsub x y) /\ fR (fsub x y) = rnd (fR x - fR y) /\ (fR (fsub x y) <= fR x)%R.
Proof.
  intros [Fx Bx] [Fy By] L. pose proof (P2_Big 32 ltac:(lia)) as PB. unfold P2 in PB.
  destruct (fsub_Big x y Fx Fy) as [A B]; [rewrite Rabs_pos_eq; lra|].
  assert (Q : (0 <= rnd (fR x - fR y) <= fR x)%R) by (split; [apply rnd_nonneg; lra|apply rnd_le_self; lra]).
  rewrite <- B in Q. split; [split; [exact A|lra]|]. split; [exact B|lra].
Qed.

(** Conditions under which the credited input power is covered by the source. *)
Definition covered (s : conv) (v : f64) : Prop :=
  has_boost c \/ ~ has_storage c \/ R_input_kOhm_n22 c = 0 \/ (fR (V_mid s) <= fR (input_voltage c v))%R.

Definition after_inp (s : conv) (v p vm rq : f64) : conv :=
  mkConv (input_voltage c v) p (P_out s) (drain_n s) vm rq (V_out s) (V_out_raw s) (power_good s)
    (sample_count s) (is_outputting s) (skip_gpio s) (residue s).

Lemma vok_P2 x : vok x -> fin x = true /\ (0 <= fR x <= P2 32)%R.
Proof. intros [A B]. split; [exact A|exact B]. Qed.
Lemma zero_vok : vok (fz 0).
Proof. apply fz_vok. split; lia. Qed.
Lemma fz0 : fR (fz 0) = 0%R.
Proof. apply fz_R. lia. Qed.
Lemma fz1 : fin (fz 1) = true /\ fR (fz 1) = 1%R.
Proof. apply fz_ok. lia. Qed.
Lemma current_P2 i : fin (input_current c i) = true /\ (0 <= fR (input_current c i) <= P2 32)%R.
Proof.
  destruct (input_current_ok i) as (A & B & _). split; [exact A|].
  destruct (fz_u32 _ (vc_Iin_max c V)) as (_ & _ & G). unfold P2. lra.
Qed.

(** Power from an efficiency not above one. *)
Lemma power_ok e v i : fin e = true -> (0 <= fR e <= 1)%R -> vok v -> fin i = true -> (0 <= fR i <= P2 32)%R ->
  let p := fmul (fmul e v) i in
  fin p = true /\ fR p = rnd (rnd (fR e * fR v) * fR i) /\ (0 <= fR p <= P2 64)%R
  /\ (fR p <= rnd (fR v * fR i))%R.
Proof.
  intros Fe Be Hv Fi Bi. destruct (vok_P2 v Hv) as [Fv Bv].
  assert (B0 : (0 <= fR e <= P2 0)%R) by (change (P2 0) with 1%R; exact Be).
  destruct (mul_pos e v 0 32 Fe Fv) as (A1 & A2 & A3); try lia; auto.
  destruct (mul_pos (fmul e v) i 32 32 A1 Fi) as (C1 & C2 & C3); try lia; auto.
  cbv zeta. split; [exact C1|]. split; [now rewrite C2, A2|]. split; [exact C3|].
  rewrite C2. apply rnd_le. apply Rmult_le_compat_r; [lra|]. rewrite A2. apply rnd_le_self.
  rewrite <- (Rmult_1_l (fR v)) at 2. apply Rmult_le_compat_r; lra.
Qed.

Lemma inp_boost s v i : enable_boost c = true ->
  exists e p, let v' := if flt (input_voltage c v) (fz (V_input_boost_threshold_uV c)) then fz 0 else input_voltage c v in
  get_input_efficiency c v' (input_current c i) = Ok e
  /\ calc_inp_power c s v i = Ok (after_inp s v p (V_mid s) (V_request s), ZnearestE (fR p))
  /\ fin p = true /\ fR p = rnd (rnd (fR e * fR v') * fR (input_current c i)) /\ (0 <= fR p <= P2 64)%R
  /\ (fR p <= rnd (fR (input_voltage c v) * fR (input_current c i)))%R.
Proof.
  intros Bo. unfold calc_inp_power. rewrite Bo.
  pose proof (input_voltage_vok v) as Vv. destruct (current_P2 i) as [Fi Bi].
  set (w := input_voltage c v) in *. set (j := input_current c i) in *.
  set (v' := if flt w (fz (V_input_boost_threshold_uV c)) then fz 0 else w).
  assert (Vv' : vok v') by (unfold v'; destruct (flt _ _); [apply zero_vok|exact Vv]).
  assert (L : (fR v' <= fR w)%R).
  { unfold v'; destruct (flt _ _); [rewrite fz0; apply Vv|lra]. }
  destruct (input_eff v' j (proj1 Vv') Fi (proj1 (proj2 Vv')) (proj1 Bi)) as (e & _ & _ & _ & _ & E & Fe & _ & _ & _ & _ & _ & Be).
  destruct (power_ok e v' j Fe ltac:(lra) Vv' Fi Bi) as (C1 & C2 & C3 & C4).
  exists e, (fmul (fmul e v') j). cbv zeta.
  cbn [bind]. fold v'. rewrite E. cbn [bind]. rewrite fround_ok by exact C1. cbn [bind].
  split; [reflexivity|]. split; [reflexivity|]. split; [exact C1|]. split; [exact C2|]. split; [exact C3|].
  eapply Rle_trans; [exact C4|]. apply rnd_le. apply Rmult_le_compat_r; lra.
Qed.

Lemma inp_direct s v i : enable_boost c = false -> enable_storage c = false ->
  exists p, calc_inp_power c s v i = Ok (after_inp s v p (input_voltage c v) (V_request s), 0)
  /\ fin p = true /\ fR p = 0%R.
Proof.
  intros Bo St. unfold calc_inp_power. rewrite Bo, St. destruct (current_P2 i) as [Fi Bi]. destruct fz1 as [F1 R1].
  destruct (power_ok (fz 1) (fz 0) (input_current c i) F1 ltac:(lra) zero_vok Fi Bi) as (C1 & C2 & _ & _).
  rewrite fz0, Rmult_0_r, rnd_0, Rmult_0_l, rnd_0 in C2.
  exists (fmul (fmul (fz 1) (fz 0)) (input_current c i)). cbn [bind]. rewrite fround_ok by exact C1.
  cbn [bind]. rewrite C2. split; [|split; [exact C1|reflexivity]].
  now rewrite (near_IZR 0).
Qed.

(** Voltage over the diode-capacitor input. *)
Definition V_drop_R i : R := rnd (fR (input_current c i) * fR (R_input_kOhm c)).
Definition V_diff_R (vm w : R) : R := if Rle_dec vm w then rnd (w - vm) else 0%R.
Definition V_node vm w dr : R := if Rlt_dec (V_diff_R vm w) dr then vm else rnd (w - dr).
Definition V_used (fb : bool) vm w dr : R :=
  if fb then V_node vm w dr else if Rlt_dec (V_node vm w dr) vm then 0%R else V_node vm w dr.

Lemma res_drop_ok i : let d := fmul (input_current c i) (R_input_kOhm c) in
  fin d = true /\ fR d = V_drop_R i /\ (0 <= fR d <= P2 42)%R.
Proof.
  destruct (current_P2 i) as [Fi Bi]. destruct R_ok as (FR & _ & BR).
  change 1024%R with (P2 10) in BR.
  destruct (mul_pos _ _ 32 10 Fi FR ltac:(lia) ltac:(lia) ltac:(lia) Bi BR) as (A & B & C).
  cbv zeta. split; [exact A|]. split; [exact B|exact C].
Qed.

Lemma inp_diode s v i : enable_boost c = false -> enable_storage c = true -> vok (V_mid s) ->
  exists p rq, calc_inp_power c s v i = Ok (after_inp s v p (V_mid s) rq, ZnearestE (fR p))
  /\ fin p = true /\ (0 <= fR p <= P2 64)%R
  /\ fR p = rnd (V_used (feedback_to_hrv c) (fR (V_mid s)) (fR (input_voltage c v)) (V_drop_R i)
                 * fR (input_current c i))
  /\ (feedback_to_hrv c = true -> fin rq = true
       /\ fR rq = rnd (rnd (fR (V_mid s) + V_drop_R i) + IZR (V_input_drop_uV c)))
  /\ (feedback_to_hrv c = false -> rq = V_request s).
Proof.
  intros Bo St Hm. unfold calc_inp_power. rewrite Bo, St.
  pose proof (input_voltage_vok v) as Vv. destruct (current_P2 i) as [Fi Bi].
  destruct (res_drop_ok i) as (Fd & Ed & Bd).
  set (w := input_voltage c v) in *. set (d := fmul (input_current c i) (R_input_kOhm c)) in *.
  set (s' := set V_input (fun _ => w) s). change (V_mid s') with (V_mid s).
  set (vm := V_mid s) in *.
  set (df := if fle vm w then fsub w vm else fz 0).
  assert (Df : vok df /\ fR df = V_diff_R (fR vm) (fR w) /\ (fR df <= fR w)%R).
  { unfold df, V_diff_R. destruct (fle vm w) eqn:E.
    - apply fle_R in E; [|apply Hm|apply Vv]. destruct (sub_vok w vm Vv Hm E) as (A & B & C).
      destruct (Rle_dec (fR vm) (fR w)); [|lra]. auto.
    - apply fle_R_false in E; [|apply Hm|apply Vv]. destruct (Rle_dec (fR vm) (fR w)); [lra|].
      split; [apply zero_vok|]. rewrite fz0. split; [reflexivity|apply Vv]. }
  destruct Df as (D1 & D2 & D3).
  set (nd := if flt df d then vm else fsub w d).
  assert (Nd : vok nd /\ fR nd = V_node (fR vm) (fR w) (V_drop_R i)).
  { unfold nd, V_node. rewrite <- D2, <- Ed. destruct (flt df d) eqn:E.
    - apply flt_R in E; [|apply D1|exact Fd]. destruct (Rlt_dec (fR df) (fR d)); [|lra]. auto.
    - apply flt_R_false in E; [|apply D1|exact Fd]. destruct (Rlt_dec (fR df) (fR d)); [lra|].
      assert (Hd : vok d).
      { split; [exact Fd|]. pose proof (proj2 Vv). lra. }
      destruct (sub_vok w d Vv Hd ltac:(lra)) as (A & B & _). auto. }
  destruct Nd as [N1 N2].
  set (u := if feedback_to_hrv c then nd else if flt nd vm then fz 0 else nd).
  assert (U : vok u /\ fR u = V_used (feedback_to_hrv c) (fR vm) (fR w) (V_drop_R i)).
  { unfold u, V_used. rewrite <- N2. destruct (feedback_to_hrv c); [auto|].
    destruct (flt nd vm) eqn:E.
    - apply flt_R in E; [|apply N1|apply Hm]. destruct (Rlt_dec (fR nd) (fR vm)); [|lra].
      split; [apply zero_vok|apply fz0].
    - apply flt_R_false in E; [|apply N1|apply Hm]. destruct (Rlt_dec (fR nd) (fR vm)); [lra|]. auto. }
  destruct U as [U1 U2]. destruct fz1 as [F1 R1].
  destruct (power_ok (fz 1) u (input_current c i) F1 ltac:(lra) U1 Fi Bi) as (C1 & C2 & C3 & C4).
  set (rq := if feedback_to_hrv c then fadd (fadd vm d) (fz (V_input_drop_uV c)) else V_request s).
  exists (fmul (fmul (fz 1) u) (input_current c i)), rq.
  split.
  { subst u rq. destruct (feedback_to_hrv c); cbn [bind]; fold df; fold nd; rewrite fround_ok by exact C1; reflexivity. }
  split; [exact C1|]. split; [exact C3|].
  split. { rewrite C2, R1, Rmult_1_l, rnd_fR, U2. reflexivity. }
  unfold rq. destruct (feedback_to_hrv c); split; intros X; try discriminate; [|reflexivity].
  destruct (fz_u32 _ (vc_Vin_drop c V)) as (Fk & Rk & Bk).
  assert (B1 : (0 <= fR vm <= P2 42)%R).
  { destruct Hm as [_ Hm]. pose proof (P2_le 32 42 ltac:(lia)). unfold P2 in *. lra. }
  destruct (add_pos vm d 42 (proj1 Hm) Fd ltac:(lia) B1 Bd) as (A1 & A2 & A3).
  assert (B2 : (0 <= fR (fz (V_input_drop_uV c)) <= P2 43)%R).
  { rewrite Rk. pose proof (P2_le 32 43 ltac:(lia)). unfold P2 in *. lra. }
  destruct (add_pos _ _ 43 A1 Fk ltac:(lia) A3 B2) as (G1 & G2 & _).
  split; [exact G1|]. rewrite G2, A2, Rk, Ed. reflexivity.
Qed.

(** The three cases together. *)
Lemma inp_ok s v i : vok (V_mid s) -> exists p vm rq,
  calc_inp_power c s v i = Ok (after_inp s v p vm rq, ZnearestE (fR p))
  /\ fin p = true /\ (0 <= fR p <= P2 64)%R
  /\ vm = (if enable_boost c || enable_storage c then V_mid s else input_voltage c v) /\ vok vm
  /\ (covered s v -> (fR p <= rnd (fR (input_voltage c v) * fR (input_current c i)))%R).
Proof.
  intros Hm. pose proof (input_voltage_vok v) as Vv. destruct (current_P2 i) as [Fi Bi].
  destruct (enable_boost c) eqn:Bo; [|destruct (enable_storage c) eqn:St].
  - destruct (inp_boost s v i Bo) as (e & p & H). cbv zeta in H. destruct H as (_ & H1 & H2 & _ & H3 & H4).
    exists p, (V_mid s), (V_request s). repeat split; auto; try apply H3; apply Hm.
  - destruct (inp_diode s v i Bo St Hm) as (p & rq & H1 & H2 & H3 & H4 & _).
    exists p, (V_mid s), rq. repeat (split; [first [assumption|reflexivity]|]).
    intros [Cv|[Cv|Cv]]; unfold has_boost, has_storage in *.
    + rewrite <- boost_bit in Cv. congruence.
    + rewrite <- storage_bit in Cv. congruence.
    + rewrite H4. apply rnd_le. apply Rmult_le_compat_r; [lra|].
      set (vm := fR (V_mid s)) in *. set (w := fR (input_voltage c v)) in *.
      assert (Pv : (0 <= w)%R) by (unfold w; apply Vv).
      destruct (res_drop_ok i) as (_ & Ed & Bd). rewrite Ed in Bd.
      assert (N : (V_node vm w (V_drop_R i) <= w)%R).
      { unfold V_node, V_diff_R. destruct Cv as [Z0|Cv].
        - assert (E0 : V_drop_R i = 0%R).
          { unfold V_drop_R. destruct R_ok as (_ & E & _). rewrite E, Z0. unfold Rdiv. rewrite Rmult_0_l, Rmult_0_r. apply rnd_0. }
          rewrite E0. destruct (Rle_dec vm w).
          + destruct (Rlt_dec _ _) as [Y|Y]; [exfalso|].
            * assert (0 <= rnd (w - vm))%R by (apply rnd_nonneg; lra). lra.
            * apply rnd_le_self. fold w. lra.
          + destruct (Rlt_dec _ _); [lra|]. apply rnd_le_self. fold w. lra.
        - destruct (Rle_dec vm w); [|lra]. destruct (Rlt_dec _ _); [lra|]. apply rnd_le_self. fold w. lra. }
      unfold V_used. destruct (feedback_to_hrv c); [exact N|]. destruct (Rlt_dec _ _); lra.
  - destruct (inp_direct s v i Bo St) as (p & H1 & H2 & H3).
    exists p, (input_voltage c v), (V_request s). rewrite H3. rewrite (near_IZR 0).
    split; [exact H1|]. split; [exact H2|]. split; [pose proof (P2_pos 64 ltac:(lia)); lra|]. split; [reflexivity|]. split; [exact Vv|].
    intros _. apply rnd_nonneg. apply Rmult_le_pos; [apply Vv|lra].
Qed.
End Cfg.
