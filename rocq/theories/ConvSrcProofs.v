(** Proofs about the converter stage, part 4: direction of the storage voltage and the energy counters of the
    source. *)
From Coq Require Import ZArith Bool Reals Lia Lra Psatz List.
From Flocq Require Import Core IEEE754.BinarySingleNaN.
From RecordUpdate Require Import RecordSet.
From Verif Require Import PyBase F64 F64x CalModel CalSpec CalProofs CalHwProofs ConvModel ConvSpec ConvProofs ConvStepProofs ConvRunProofs.
Import RecordSetNotations ListNotations.
Open Scope Z_scope.

(** Sums of non-negative numbers that may be infinite. *)
Lemma fz_pos_x n : 0 <= n -> isnan (fz n) = false /\ (0 <= xR (fz n))%R.
Proof.
  intros H. unfold fz. pose proof (binary_normalize_correct 53 1024 eq_refl eq_refl mode_NE n 0 false) as C.
  cbv zeta in C. change (round_mode mode_NE) with ZnearestE in C.
  replace (F2R {| Fnum := n; Fexp := 0 |}) with (IZR n) in C by (unfold F2R; simpl; ring).
  fold (rnd (IZR n)) in C. assert (P : (0 <= IZR n)%R) by now apply IZR_le.
  set (x := binary_normalize _ _ _ _ _ _ _ _) in *. destruct (Rlt_bool _ _).
  - destruct C as (C1 & C2 & _). change (is_finite x = true) with (fin x = true) in C2.
    split; [now apply fin_nan|]. rewrite xR_fin by exact C2. change (fR x) with (B2R x). rewrite C1. now apply rnd_nonneg.
  - rewrite (Rlt_bool_false (IZR n) 0 P) in C. pose proof Top_pos.
    destruct x as [s|[|]| |s m e B]; try discriminate C. split; [reflexivity|]. rewrite xR_pinf. lra.
Qed.

Lemma fadd_pos_x a b : isnan a = false -> isnan b = false -> (0 <= xR a)%R -> (0 <= xR b)%R ->
  isnan (fadd a b) = false /\ (xR a <= xR (fadd a b))%R.
Proof.
  intros Na Nb Pa Pb. pose proof Top_pos as HT. destruct (fin a) eqn:Fa.
  - destruct (fin b) eqn:Fb.
    + destruct (fadd_x a b Fa Fb) as [N X]. split; [exact N|]. rewrite X. rewrite (xR_fin a Fa), (xR_fin b Fb) in *.
      rewrite <- (clampR_in (fR a)) at 1 by apply fR_lt_Top. apply clampR_le, rnd_ge_self. lra.
    + rewrite (pinf_of_x b Nb Fb Pb).
      assert (E : fadd a (B754_infinity false) = B754_infinity false).
      { clear -Fa. destruct a as [s|s| |s m e B]; simpl in Fa; try discriminate; reflexivity. }
      rewrite E, xR_pinf. split; [reflexivity|]. apply Rlt_le, xR_open, Fa.
  - rewrite (pinf_of_x a Na Fa Pa). destruct (fin b) eqn:Fb.
    + assert (E : fadd (B754_infinity false) b = B754_infinity false).
      { clear -Fb. destruct b as [s|s| |s m e B]; simpl in Fb; try discriminate; reflexivity. }
      rewrite E. split; [reflexivity|lra].
    + rewrite (pinf_of_x b Nb Fb Pb). split; [reflexivity|]. apply Rle_refl.
Qed.

Lemma near_nonneg r : (0 <= r)%R -> 0 <= ZnearestE r.
Proof. intros H. rewrite <- (near_IZR 0). now apply near_le. Qed.

Section Cfg.
Variable c : ccfg.
Hypothesis V : valid_ccfg c.
Variable cal : cal_emu.

(** The storage update of a simulation in exact terms. *)
Lemma storage_step xs x s0 s1 n1 s2 n2 s3 n3 : bounded_cal cal -> conv_sim c cal xs = Ok s0 ->
  calc_inp_power c s0 (in_V x) (in_I x) = Ok (s1, n1) ->
  calc_out_power c cal s1 (in_raw x) = Ok (s2, n2) ->
  update_cap_storage c s2 = Ok (s3, n3) ->
  fin (V_mid s3) = true /\ n3 = ZnearestE (fR (V_mid s3))
  /\ (has_storage c -> fR (V_mid s3) = Rmax (Rmin
        (V_next (fR (V_mid s0)) (fR (P_inp s1)) (fR (P_out s2)) (IZR (Constant_us_per_nF_n28 c) / 268435456))
        (IZR (V_intermediate_max_uV c))) 1)
  /\ (~ has_storage c -> has_boost c -> fR (V_mid s3) = Rmax (Rmin (fR (V_mid s0)) (IZR (V_intermediate_max_uV c))) 1)
  /\ (~ has_storage c -> ~ has_boost c -> fR (V_mid s3) = Rmax (Rmin (fR (V_input s1)) (IZR (V_intermediate_max_uV c))) 1).
Proof.
  intros Hb H0 H1 H2 H3. pose proof (sim_inv c V cal _ _ (proj1 Hb) H0) as I.
  destruct (inp_ok c V s0 (in_V x) (in_I x) (i_mid s0 I)) as (p & vm1 & rq & E1 & Fp & Bp & Ev & Vm1 & _).
  rewrite H1 in E1. assert (X : s1 = after_inp c s0 (in_V x) p vm1 rq) by congruence. subst s1.
  set (s1 := after_inp c s0 (in_V x) p vm1 rq) in *.
  destruct (out_total c V cal s1 (in_raw x) Hb Vm1 (i_out s0 I) (i_res s0 I) (i_drain s0 I)) as (s2' & n2' & E2 & B2).
  rewrite H2 in E2. assert (X : s2' = s2) by congruence. subst s2'.
  destruct (out_inv c V cal s1 _ _ _ (proj1 Hb) Vm1 (i_out s0 I) (i_res s0 I) (i_drain s0 I) H2)
    as (q & r & -> & -> & Fq & Bq & Rr & D1 & _).
  cbn [P_out after_out] in B2.
  destruct (cap_ok c V (after_out s1 q r) Vm1 Fp Bp Fq (conj Bq B2)) as (v & E3 & Fv & Rv).
  rewrite H3 in E3. assert (X : s3 = with_mid (after_out s1 q r) v /\ n3 = ZnearestE (fR v)) by (split; congruence).
  destruct X as [-> ->]. cbn [V_mid with_mid]. split; [exact Fv|]. split; [reflexivity|].
  change (V_mid (after_out s1 q r)) with vm1 in Rv. change (P_inp (after_out s1 q r)) with p in Rv.
  change (P_out (after_out s1 q r)) with q in Rv. cbn [P_inp P_out V_input after_out]. change (P_inp s1) with p.
  change (V_input s1) with (input_voltage c (in_V x)).
  unfold has_storage, has_boost. rewrite <- storage_bit, <- boost_bit.
  destruct (enable_storage c); [|destruct (enable_boost c)]; cbn [orb] in Ev;
    try (rewrite orb_true_r in Ev); subst vm1; repeat split; intros; try congruence; exact Rv.
Qed.

(** The voltage follows the power balance. *)
Lemma storage_direction xs x s0 s1 n1 s2 n2 s3 n3 : bounded_cal cal -> has_storage c -> conv_sim c cal xs = Ok s0 ->
  calc_inp_power c s0 (in_V x) (in_I x) = Ok (s1, n1) ->
  calc_out_power c cal s1 (in_raw x) = Ok (s2, n2) ->
  update_cap_storage c s2 = Ok (s3, n3) ->
  ((fR (P_out s2) <= fR (P_inp s1))%R -> (Rmin (fR (V_mid s0)) (IZR (V_intermediate_max_uV c)) <= fR (V_mid s3))%R)
  /\ ((fR (P_inp s1) <= fR (P_out s2))%R -> (fR (V_mid s3) <= Rmax (fR (V_mid s0)) 1)%R).
Proof.
  intros Hb St H0 H1 H2 H3.
  destruct (storage_step xs x s0 s1 n1 s2 n2 s3 n3 Hb H0 H1 H2 H3) as (_ & _ & E & _). rewrite (E St). clear E.
  pose proof (sim_inv c V cal _ _ (proj1 Hb) H0) as I. destruct (i_mid s0 I) as [_ B].
  assert (K : (0 <= IZR (Constant_us_per_nF_n28 c) / 268435456)%R).
  { destruct (fz_u32 _ (vc_const c V)) as (_ & _ & G). lra. }
  split; intros L.
  - pose proof (V_next_up _ _ _ _ (fmt_fR (V_mid s0)) (proj1 B) K L) as U. set (w := V_next _ _ _ _) in *.
    eapply Rle_trans; [|apply Rmax_l]. apply Rle_min_compat_r. exact U.
  - pose proof (V_next_down _ _ _ _ (fmt_fR (V_mid s0)) (proj1 B) K L) as U. set (w := V_next _ _ _ _) in *.
    apply Rle_max_compat_r. eapply Rle_trans; [apply Rmin_l|]. exact U.
Qed.

(** One step of the source is one step of the converter. *)
Lemma src_split w v i io w' r : src_step c cal w v i io = Ok (w', r) ->
  exists raw pi po vm vraw, conv_step c cal (cnv w) (mkCin v i raw) = Ok (cnv w', (pi, po, vm, vraw))
    /\ si_to_raw (adc_C_A cal) (fmul io (fdec 1 9)) = Ok raw
    /\ W_inp w' = fadd (W_inp w) (fz pi) /\ W_out w' = fadd (W_out w) (fz po)
    /\ (Z.testbit (converter_mode c) 3 = true -> r = vm)
    /\ (Z.testbit (converter_mode c) 3 = false -> fint (fmul (raw_to_si (dac_V_A cal) (fz vraw) true) (fz (10 ^ 6))) = Ok r).
Proof.
  unfold src_step, conv_step. cbn [in_V in_I in_raw].
  destruct (calc_inp_power c (cnv w) v i) as [[s1 pi]|]; [|discriminate]. cbn [bind].
  destruct (si_to_raw _ _) as [raw|]; [|discriminate]. cbn [bind].
  destruct (calc_out_power c cal s1 raw) as [[s2 po]|] eqn:E2; [|discriminate]. cbn [bind].
  destruct (update_cap_storage c s2) as [[s3 vm]|] eqn:E3; [|discriminate]. cbn [bind].
  destruct (update_states_and_output c cal s3) as [[s4 vraw]|] eqn:E4; [|discriminate]. cbn [bind].
  destruct (fint _) as [vo|] eqn:E5; [|discriminate]. cbn [bind].
  rewrite (log_bit c).
  intros H. set (t1 := fadd (W_inp w) (fz pi)) in *. set (t2 := fadd (W_out w) (fz po)) in *.
  assert (X : mkSrc s4 t1 t2 = w' /\ (if Z.testbit (converter_mode c) 3 then vm else vo) = r) by (split; congruence).
  destruct X as [<- <-]. exists raw, pi, po, vm, vraw. rewrite E2. cbn [bind]. rewrite E3. cbn [bind]. rewrite E4. cbn [bind].
  repeat (split; [reflexivity|]). split; intros ->; [reflexivity|exact E5].
Qed.

(** The converter inside the source behaves like a simulation of the converter. *)
Lemma src_run_conv xs : forall w w', src_run c cal w xs = Ok w' -> exists ys,
  conv_run c cal (cnv w) ys = Ok (cnv w') /\ List.length ys = List.length xs.
Proof.
  induction xs as [|x xs IH]; intros w w' H; cbn [src_run] in H.
  - injection H as <-. exists []. auto.
  - destruct (src_step c cal w (s_V x) (s_I x) (s_Iout x)) as [[w1 r]|] eqn:E; [|discriminate]. cbn [bind] in H.
    destruct (src_split _ _ _ _ _ _ E) as (raw & pi & po & vm & vraw & S & _).
    destruct (IH _ _ H) as (ys & Y1 & Y2). exists (mkCin (s_V x) (s_I x) raw :: ys). cbn [conv_run List.length]. rewrite S.
    cbn [bind]. auto.
Qed.
Lemma src_sim_conv xs w : src_sim c cal xs = Ok w -> exists ys, conv_sim c cal ys = Ok (cnv w) /\ List.length ys = List.length xs.
Proof.
  unfold src_sim, src_init, conv_sim. destruct (conv_init c cal) as [s|]; [|discriminate]. cbn [bind].
  intros H. destruct (src_run_conv _ _ _ H) as (ys & A & B). exists ys. auto.
Qed.

Lemma src_run_app w xs ys : src_run c cal w (xs ++ ys) = let* w' := src_run c cal w xs in src_run c cal w' ys.
Proof.
  revert w. induction xs as [|x xs IH]; intros w; [reflexivity|]. cbn [app src_run].
  destruct (src_step c cal w (s_V x) (s_I x) (s_Iout x)) as [[w' t]|e]; [|reflexivity]. cbn [bind]. apply IH.
Qed.

(** Energy counters. *)
Definition wok (x : f64) : Prop := isnan x = false /\ (0 <= xR x)%R.

Lemma src_energy_step w v i io w' r : valid_pair (adc_C_A cal) -> inv (cnv w) -> wok (W_inp w) -> wok (W_out w) ->
  src_step c cal w v i io = Ok (w', r) ->
  inv (cnv w') /\ wok (W_inp w') /\ wok (W_out w')
  /\ (xR (W_inp w) <= xR (W_inp w'))%R /\ (xR (W_out w) <= xR (W_out w'))%R.
Proof.
  intros Hp I [N1 P1] [N2 P2'] H. destruct (src_split _ _ _ _ _ _ H) as (raw & pi & po & vm & vraw & S & _ & E1 & E2 & _).
  pose proof (proj1 (step_inv c V cal _ _ _ _ Hp I S)) as I'.
  destruct (step_facts c V cal _ _ _ _ Hp I S) as (p & vm1 & rq & q & r' & v' & raw' & G). cbv zeta in G.
  destruct G as (_ & _ & _ & Bp & _ & Bq & _ & _ & _ & _ & Et & _).
  assert (Pi : 0 <= pi) by (replace pi with (ZnearestE (fR p)) by congruence; apply near_nonneg, Bp).
  assert (Po : 0 <= po) by (replace po with (ZnearestE (fR q)) by congruence; apply near_nonneg, Bq).
  destruct (fz_pos_x pi Pi) as [A1 A2]. destruct (fz_pos_x po Po) as [B1 B2].
  destruct (fadd_pos_x _ _ N1 A1 P1 A2) as [C1 C2]. destruct (fadd_pos_x _ _ N2 B1 P2' B2) as [D1 D2].
  rewrite <- E1 in C1, C2. rewrite <- E2 in D1, D2.
  split; [exact I'|]. split; [split; [exact C1|lra]|]. split; [split; [exact D1|lra]|]. split; [exact C2|exact D2].
Qed.

Lemma src_energy_run xs : forall w w', valid_pair (adc_C_A cal) -> inv (cnv w) -> wok (W_inp w) -> wok (W_out w) ->
  src_run c cal w xs = Ok w' ->
  inv (cnv w') /\ wok (W_inp w') /\ wok (W_out w')
  /\ (xR (W_inp w) <= xR (W_inp w'))%R /\ (xR (W_out w) <= xR (W_out w'))%R.
Proof.
  induction xs as [|x xs IH]; intros w w' Hp I A B H; cbn [src_run] in H.
  - injection H as <-. repeat split; auto; try apply A; try apply B; try apply I; apply Rle_refl.
  - destruct (src_step c cal w (s_V x) (s_I x) (s_Iout x)) as [[w1 r]|] eqn:E; [|discriminate]. cbn [bind] in H.
    destruct (src_energy_step _ _ _ _ _ _ Hp I A B E) as (I1 & A1 & B1 & L1 & L2).
    destruct (IH _ _ Hp I1 A1 B1 H) as (I2 & A2 & B2 & L3 & L4). repeat (split; [assumption|]). split; lra.
Qed.

Lemma src_energy xs ys w w' : valid_pair (adc_C_A cal) -> src_sim c cal xs = Ok w -> src_sim c cal (xs ++ ys) = Ok w' ->
  wok (W_inp w) /\ wok (W_out w) /\ (xR (W_inp w) <= xR (W_inp w'))%R /\ (xR (W_out w) <= xR (W_out w'))%R.
Proof.
  intros Hp. unfold src_sim. destruct (src_init c cal) as [w0|] eqn:E0; [|discriminate]. cbn [bind].
  intros H1. rewrite src_run_app, H1. cbn [bind]. intros H2.
  assert (K : inv (cnv w0) /\ wok (W_inp w0) /\ wok (W_out w0)).
  { unfold src_init in E0. destruct (conv_init c cal) as [s|] eqn:E; [|discriminate]. cbn [bind] in E0.
    assert (X : w0 = mkSrc s (fz 0) (fz 0)) by congruence. subst w0. cbn [cnv W_inp W_out].
    destruct (fz_ok 0) as [F0 R0]; [lia|].
    assert (K : wok (fz 0)) by (split; [now apply fin_nan|rewrite xR_fin, R0 by exact F0; lra]).
    split; [now apply (init_inv c V cal)|]. split; exact K. }
  destruct K as (K1 & K2 & K3).
  destruct (src_energy_run _ _ _ Hp K1 K2 K3 H1) as (J1 & J2 & J3 & _).
  destruct (src_energy_run _ _ _ Hp J1 J2 J3 H2) as (_ & _ & _ & L1 & L2). repeat (split; [assumption|]). exact L2.
Qed.

(** The getter that divides by the storage voltage. *)
Lemma mid_current xs x s0 s1 s2 s3 s4 n : valid_pair (adc_C_A cal) ->
  calls c cal xs x s0 s1 s2 s3 -> update_states_and_output c cal s3 = Ok (s4, n) ->
  (exists i, get_I_mid_out_nA s4 = Ok i)
  \/ (get_I_mid_out_nA s4 = Err ZeroDivisionError /\ is_outputting s0 = false /\ is_outputting s4 = true
      /\ rnd (fR (V_mid s3) - IZR (dV_enable_output_uV c)) = 0%R).
Proof.
  intros Hp C H. destruct (calls_frame c V cal _ _ _ _ _ _ Hp C) as (Eo & _ & _ & _ & _ & B).
  destruct (before_ok c V cal s3 Hp B) as (Fm & Bm & Vm & _).
  destruct (enable_drop c V cal s3 s4 n Vm H) as (F4 & D1 & D2). rewrite Eo in *.
  unfold get_I_mid_out_nA, fdiv. destruct (feq (V_mid s4) (fz 0)) eqn:E; [right|left; eauto].
  destruct (fz_ok 0) as [F0 R0]; [lia|]. apply feq_R in E; auto. rewrite R0 in E.
  split; [reflexivity|].
  destruct (is_outputting s0) eqn:E0, (is_outputting s4) eqn:E4.
  1,2,4: rewrite D2 in E by (intros []; congruence); lra.
  split; [reflexivity|]. split; [reflexivity|]. rewrite <- D1 by auto. exact E.
Qed.
End Cfg.
