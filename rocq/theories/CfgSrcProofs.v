(** Proofs about source configurations. *)
From Coq Require Import ZArith Bool Reals Lia Lra Psatz List.
From Flocq Require Import Core IEEE754.BinarySingleNaN.
From Verif Require Import PyBase F64 F64x HarvModel CalModel CalSpec ConvModel ConvSpec CfgModel CfgSpec CfgHrvProofs.
Import ListNotations.
Open Scope Z_scope.

Definition rng (x : f64) (b : R) : Prop := fin x = true /\ (0 <= fR x <= b)%R.

Lemma rng_ok b x : Z.abs b <= 2 ^ 53 -> in_range (fz 0) (fz b) x = true -> rng x (IZR b).
Proof. intros Hb H. apply in_range_R in H; [exact H|lia|exact Hb]. Qed.

(** A validated configuration. *)
Record src_ok (v : vsrc) : Prop := mkSrcOk {
  so_hrv : hrv_ok (vs_harvester v);
  so_drain : rng (vs_drain_ms v) 10000;
  so_Vin_max : rng (vs_Vin_max v) 10000;
  so_Iin_max : rng (vs_Iin_max v) 4290;
  so_Vin_drop : rng (vs_Vin_drop v) 4290000;
  so_R_in : rng (vs_R_in v) 4290000;
  so_C_mid : rng (vs_C_mid v) 100000;
  so_V_init : rng (vs_V_init v) 10000;
  so_I_leak : rng (vs_I_leak v) 4290000000;
  so_V_en : rng (vs_V_en v) 10000;
  so_V_dis : rng (vs_V_dis v) 10000;
  so_check : rng (vs_check_ms v) 4290;
  so_pg_en : rng (vs_pg_en v) 10000;
  so_pg_dis : rng (vs_pg_dis v) 10000;
  so_C_out : rng (vs_C_out v) 4290000;
  so_V_log : rng (vs_V_log v) 4290000;
  so_V_boost : rng (vs_V_boost v) 10000;
  so_V_mid_max : rng (vs_V_mid_max v) 10000;
  so_LUT_in : List.length (vs_LUT_in v) = 12%nat
    /\ Forall (fun r => List.length r = 12%nat /\ Forall (fun x => rng x 1) r) (vs_LUT_in v);
  so_LUT_in_V : 0 <= vs_LUT_in_V v <= 20;
  so_LUT_in_I : 1 <= vs_LUT_in_I v <= 20;
  so_V_out : rng (vs_V_out v) 5000;
  so_V_buck : rng (vs_V_buck v) 5000;
  so_LUT_out : List.length (vs_LUT_out v) = 12%nat /\ Forall (fun x => rng x 1) (vs_LUT_out v);
  so_LUT_out_I : 1 <= vs_LUT_out_I v <= 20;
}.

Lemma lut1d_ok l : lut1d l = true -> List.length l = 12%nat /\ Forall (fun x => rng x 1) l.
Proof.
  unfold lut1d. intros H. apply andb_prop in H as [H1 H2]. apply Nat.eqb_eq in H1. split; [exact H1|].
  rewrite forallb_forall in H2. apply Forall_forall. intros x Hx. apply (rng_ok 1); [lia|]. now apply H2.
Qed.
Lemma lut2d_ok l : lut2d l = true ->
  List.length l = 12%nat /\ Forall (fun r => List.length r = 12%nat /\ Forall (fun x => rng x 1) r) l.
Proof.
  unfold lut2d. intros H. apply andb_prop in H as [H1 H2]. apply Nat.eqb_eq in H1. split; [exact H1|].
  rewrite forallb_forall in H2. apply Forall_forall. intros x Hx. apply lut1d_ok. now apply H2.
Qed.

Lemma check_vsrc_ok v v' : check_vsrc v = Ok v' ->
  v' = v /\ src_ok v /\ exists r, from_vhrv (vs_harvester v) (Some D_ivsample) None None true = Ok r.
Proof.
  unfold check_vsrc. destruct (check_vhrv (vs_harvester v)) as [h|] eqn:E1; cbn [bind]; [|discriminate].
  destruct (fields_vsrc v) eqn:E2; [|discriminate].
  destruct (from_vhrv _ _ _ _ _) as [r|] eqn:E3; cbn [bind]; [|discriminate].
  intros H. split; [congruence|]. split; [|eauto].
  unfold fields_vsrc in E2. repeat match type of E2 with (_ && _) = true => apply andb_prop in E2 as [E2 ?] end.
  constructor;
    first [ apply check_vhrv_ok; now exists h
          | apply (rng_ok 10000); [lia|assumption] | apply (rng_ok 4290); [lia|assumption]
          | apply (rng_ok 4290000); [lia|assumption] | apply (rng_ok 100000); [lia|assumption]
          | apply (rng_ok 4290000000); [lia|assumption] | apply (rng_ok 5000); [lia|assumption]
          | apply in_rangeZ_ok; assumption | apply lut1d_ok; assumption | apply lut2d_ok; assumption ].
Qed.

(** *** The hysteresis *)

Lemma drop_le a r : fin a = true -> (0 <= fR a <= 10000)%R -> flt r (fz 0) = false -> fle (fz 0) (fsub a r) = true ->
  rng (fsub a r) (fR a).
Proof.
  intros Fa Ha Hr H. assert (F0 : fin (fz 0) = true) by (apply fz_fin; lia). pose proof Top_pos as TP.
  destruct (fin r) eqn:Fr.
  - apply flt_R_false in Hr; [|exact Fr|exact F0]. rewrite fz_R in Hr by lia.
    destruct (fsub_x a r Fa Fr) as [N X].
    assert (L : (rnd (fR a - fR r) <= fR a)%R) by (apply rnd_le_self; lra).
    destruct (fin (fsub a r)) eqn:F.
    + destruct (fsub_fin_inv a r F) as (_ & _ & Y). apply fle_R in H; [|exact F0|exact F]. rewrite fz_R in H by lia.
      split; [exact F|]. rewrite Y in *. split; [exact H|exact L].
    + exfalso. destruct (inf_cases _ F N) as [E|E].
      * rewrite E in H. destruct (fle_inf_r _ F0) as [K _]. congruence.
      * rewrite E, xR_pinf in X. pose proof (fR_lt_Top a) as LT. apply Rabs_def2 in LT.
        assert (clampR (rnd (fR a - fR r)) <= clampR (fR a))%R by (apply clampR_le; exact L).
        rewrite (clampR_in (fR a)) in H0 by apply fR_lt_Top. lra.
  - exfalso. destruct r as [|s| |]; try discriminate Fr.
    + destruct s.
      * destruct (flt_inf_l _ F0) as [K _]. congruence.
      * destruct a as [sa|sa| |sa ma ea Ba]; try discriminate Fa; unfold fsub in H; cbn in H; discriminate.
    + destruct a as [sa|sa| |sa ma ea Ba]; try discriminate Fa; unfold fsub in H; cbn in H; discriminate.
Qed.

Lemma one_minus r : flt r (fz 0) = false ->
  (fin (fsub (fz 1) r) = true /\ (fR (fsub (fz 1) r) <= 1)%R) \/ fsub (fz 1) r = B754_infinity true \/ fsub (fz 1) r = B754_nan.
Proof.
  intros Hr. assert (F0 : fin (fz 0) = true) by (apply fz_fin; lia). assert (F1 : fin (fz 1) = true) by (apply fz_fin; lia).
  pose proof Top_pos as TP. destruct (fin r) eqn:Fr.
  - apply flt_R_false in Hr; [|exact Fr|exact F0]. rewrite fz_R in Hr by lia.
    destruct (fsub_x (fz 1) r F1 Fr) as [N X]. rewrite fz_R in X by lia.
    assert (L : (rnd (1 - fR r) <= 1)%R) by (apply (rnd_le_Z 1); [lia|lra]).
    destruct (fin (fsub (fz 1) r)) eqn:F.
    + left. split; [reflexivity|]. destruct (fsub_fin_inv _ _ F) as (_ & _ & Y). rewrite Y, fz_R by lia. exact L.
    + right. left. destruct (inf_cases _ F N) as [E|E]; [exact E|exfalso].
      rewrite E, xR_pinf in X. assert (clampR (rnd (1 - fR r)) <= clampR 1)%R by (apply clampR_le; exact L).
      assert (1 < Top)%R by (apply (bpow_lt radix2 0 1024); lia).
      rewrite (clampR_in 1) in H by (rewrite Rabs_pos_eq; lra). lra.
  - right. destruct r as [|s| |]; try discriminate Fr.
    + destruct s.
      * destruct (flt_inf_l _ F0) as [K _]. congruence.
      * left. reflexivity.
    + right. reflexivity.
Qed.

Lemma low_le a r : fin a = true -> (0 <= fR a <= 10000)%R -> flt r (fz 0) = false ->
  fle (fz 0) (fmul a (fsub (fz 1) r)) = true -> rng (fmul a (fsub (fz 1) r)) (fR a).
Proof.
  intros Fa Ha Hr H. assert (F0 : fin (fz 0) = true) by (apply fz_fin; lia). pose proof Top_pos as TP.
  destruct (one_minus r Hr) as [[Fy Hy]|[E|E]].
  - set (y := fsub (fz 1) r) in *. clearbody y. destruct (fmul_x a y Fa Fy) as [N X].
    assert (L : (rnd (fR a * fR y) <= fR a)%R) by (apply rnd_le_self; nra).
    destruct (fin (fmul a y)) eqn:F.
    + destruct (fmul_fin_inv a y F) as (_ & _ & Y). apply fle_R in H; [|exact F0|exact F]. rewrite fz_R in H by lia.
      split; [exact F|]. rewrite Y in *. split; [exact H|exact L].
    + exfalso. destruct (inf_cases _ F N) as [E|E].
      * rewrite E in H. destruct (fle_inf_r _ F0) as [K _]. congruence.
      * rewrite E, xR_pinf in X. pose proof (fR_lt_Top a) as LT. apply Rabs_def2 in LT.
        assert (clampR (rnd (fR a * fR y)) <= clampR (fR a))%R by (apply clampR_le; exact L).
        rewrite (clampR_in (fR a)) in H0 by apply fR_lt_Top. lra.
  - exfalso. rewrite E in H. destruct a as [sa|sa| |sa ma ea Ba]; try discriminate Fa.
    + cbn in H. discriminate.
    + destruct sa; [|unfold fmul in H; cbn in H; discriminate].
      assert ((fR (B754_finite true ma ea Ba) < 0)%R) by (apply F2R_lt_0; reflexivity). lra.
  - exfalso. rewrite E in H. destruct a as [sa|sa| |sa ma ea Ba]; try discriminate Fa; cbn in H; discriminate.
Qed.

Lemma protect_rng o b : (0 <= b)%R -> (forall d, o = Some d -> fle (fz 0) d = true -> rng d b) -> rng (protect o) b.
Proof.
  intros Hb H. assert (Z : rng (fz 0) b) by (split; [apply fz_fin; lia|rewrite fz_R by lia; lra]).
  unfold protect. destruct o as [d|]; [|exact Z]. destruct (fle (fz 0) d) eqn:E; [|exact Z]. now apply H.
Qed.

Lemma dV_ok p v : pow_ok p -> src_ok v -> exists a b, dV_raw p v = Ok (a, b)
  /\ rng (protect a) (fR (vs_V_en v)) /\ rng (protect b) (fR (vs_V_out v)).
Proof.
  intros P V. destruct (so_V_en v V) as [Fe He]. destruct (so_V_out v V) as [Fo Ho].
  destruct (so_C_mid v V) as [Fc Hc]. assert (F0 : fin (fz 0) = true) by (apply fz_fin; lia).
  unfold dV_raw. destruct (flt (fz 0) (vs_C_mid v)) eqn:E1; cbn [andb].
  - destruct (flt (fz 0) (vs_C_out v)) eqn:E2.
    + apply flt_R in E1; [|exact F0|exact Fc]. rewrite fz_R in E1 by lia.
      rewrite fdiv_nz by (auto; lra). cbn [bind]. eexists. eexists. split; [reflexivity|]. split.
      * apply protect_rng; [lra|]. intros d Hd. unfold omap in Hd.
        destruct (p_rt p _) as [r|] eqn:ER; [|discriminate]. assert (D : fsub (vs_V_en v) r = d) by congruence.
        rewrite <- D. apply drop_le; [exact Fe|lra|]. exact (P _ _ ER).
      * apply protect_rng; [lra|]. intros d Hd. unfold omap in Hd.
        destruct (p_rt p (fsub (fz 1) _)) as [r|] eqn:ER; [|discriminate].
        assert (D : fmul (vs_V_out v) (fsub (fz 1) r) = d) by congruence.
        rewrite <- D. apply low_le; [exact Fo|lra|]. exact (P _ _ ER).
    + exists (Some (fz 0)), (Some (fz 0)). split; [reflexivity|]. unfold protect.
      destruct (fle (fz 0) (fz 0)); split; (split; [exact F0|rewrite fz_R by lia; lra]).
  - exists (Some (fz 0)), (Some (fz 0)). split; [reflexivity|]. unfold protect.
    destruct (fle (fz 0) (fz 0)); split; (split; [exact F0|rewrite fz_R by lia; lra]).
Qed.

Lemma V_pre_ok v : src_ok v -> rng (fadd (vs_V_out v) (vs_V_buck v)) 10000
  /\ fR (fadd (vs_V_out v) (vs_V_buck v)) = V_pre v /\ (0 <= V_pre v <= 10000)%R /\ fmt (V_pre v).
Proof.
  intros V. destruct (so_V_out v V) as [Fo Ho]. destruct (so_V_buck v V) as [Fb Hb].
  assert (Q : (Rabs (fR (vs_V_out v) + fR (vs_V_buck v)) <= Big)%R).
  { apply small_Big. change (2 ^ 60) with 1152921504606846976. apply Rabs_le. lra. }
  destruct (fadd_Big _ _ Fo Fb Q) as [A B].
  assert (R0 : (0 <= V_pre v <= 10000)%R).
  { unfold V_pre. split; [apply rnd_nonneg; lra|apply (rnd_le_Z 10000); [lia|lra]]. }
  split; [|split; [exact B|split; [exact R0|apply rnd_fmt]]].
  split; [exact A|]. rewrite B. exact R0.
Qed.

Lemma states_ok p v : pow_ok p -> src_ok v -> exists dV Ven Vdis, calc_internal_states p v = Ok (dV, Ven, Vdis)
  /\ rng dV 10000 /\ rng Ven 15000 /\ rng Vdis 10000 /\ (fR dV <= fR Ven)%R
  /\ (vs_buck v = true -> (fR Vdis = Rmax (V_pre v) (fR (vs_V_dis v)))
        /\ ((V_pre v < fR (vs_V_en v) /\ fR Ven = fR (vs_V_en v))
            \/ (fR (vs_V_en v) <= V_pre v /\ fR dV <= fR (vs_V_out v) /\ fR Ven = rnd (V_pre v + fR dV)))%R)
  /\ (vs_buck v = false -> fR Vdis = fR (vs_V_dis v) /\ fR Ven = fR (vs_V_en v)).
Proof.
  intros P V. destruct (dV_ok p v P V) as (a & b & E & A & B). unfold calc_internal_states. rewrite E. cbn [bind fst snd].
  destruct (so_V_en v V) as [Fe He]. destruct (so_V_out v V) as [Fo Ho]. destruct (so_V_dis v V) as [Fd Hd].
  destruct (V_pre_ok v V) as ([P1 P2] & P3 & P4 & P5). destruct A as [A1 A2]. destruct B as [B1 B2].
  destruct (vs_buck v).
  - set (pre := fadd (vs_V_out v) (vs_V_buck v)) in *. set (da := protect a) in *. set (db := protect b) in *.
    clearbody pre da db.
    set (dis := if flt pre (vs_V_dis v) then vs_V_dis v else pre).
    assert (D : fin dis = true /\ fR dis = Rmax (V_pre v) (fR (vs_V_dis v)) /\ (0 <= fR dis <= 10000)%R).
    { unfold dis. destruct (flt pre (vs_V_dis v)) eqn:G.
      - apply flt_R in G; auto. rewrite P3 in G. rewrite Rmax_right by lra. auto.
      - apply flt_R_false in G; auto. rewrite P3 in G. rewrite Rmax_left by lra. rewrite P3. auto. }
    destruct D as (D1 & D2 & D3). clearbody dis.
    destruct (flt pre (vs_V_en v)) eqn:G.
    + apply flt_R in G; auto. exists da, (vs_V_en v), dis. split; [reflexivity|].
      split; [split; [exact A1|lra]|]. split; [split; [exact Fe|lra]|]. split; [split; [exact D1|lra]|].
      split; [lra|]. split; [|discriminate]. intros _. split; [exact D2|]. left. rewrite <- P3. auto.
    + apply flt_R_false in G; auto.
      assert (Q : (Rabs (fR pre + fR db) <= Big)%R).
      { apply small_Big. change (2 ^ 60) with 1152921504606846976. apply Rabs_le. lra. }
      destruct (fadd_Big _ _ P1 B1 Q) as [K1 K2].
      exists db, (fadd pre db), dis. split; [reflexivity|].
      assert (L1 : (fR db <= rnd (fR pre + fR db))%R) by (apply rnd_ge_self; lra).
      assert (L2 : (rnd (fR pre + fR db) <= 15000)%R) by (apply (rnd_le_Z 15000); [lia|lra]).
      split; [split; [exact B1|lra]|]. split; [split; [exact K1|rewrite K2; lra]|]. split; [split; [exact D1|lra]|].
      split; [rewrite K2; exact L1|]. split; [|discriminate]. intros _. split; [exact D2|]. right. rewrite K2, P3. 
      rewrite P3 in G. split; [exact G|]. split; [apply B2|reflexivity].
  - exists (protect a), (vs_V_en v), (vs_V_dis v). split; [reflexivity|].
    split; [split; [exact A1|lra]|]. split; [split; [exact Fe|lra]|]. split; [split; [exact Fd|lra]|].
    split; [lra|]. split; [discriminate|auto].
Qed.

(** *** The capacity *)
Lemma floor_quot_ok n y : 0 <= n -> fin y = true -> (0 < fR y)%R -> exists q, floor_quot n y = Ok q
  /\ (IZR q <= IZR n / fR y < IZR q + 1)%R.
Proof.
  intros Hn Fy Py. destruct y as [sy|sy| |sy m e B]; try discriminate Fy.
  - cbn in Py. lra.
  - destruct sy.
    { assert ((fR (B754_finite true m e B) < 0)%R) by (apply F2R_lt_0; reflexivity). lra. }
    unfold floor_quot. eexists. split; [reflexivity|]. cbn [B2R]. unfold cond_Zopp, F2R. cbn [Fnum Fexp].
    assert (Key : forall a b, 0 < b -> (IZR (a / b) <= IZR a / IZR b < IZR (a / b) + 1)%R).
    { intros a b Hb. pose proof (Z.div_mod a b ltac:(lia)) as D. pose proof (Z.mod_pos_bound a b Hb) as M.
      assert (Pb : (0 < IZR b)%R) by (apply IZR_lt; lia).
      assert (EE : (IZR a = IZR b * IZR (a / b) + IZR (a mod b))%R) by (rewrite <- mult_IZR, <- plus_IZR; now f_equal).
      destruct M as [M1 M2]. apply IZR_le in M1. apply IZR_lt in M2.
      assert (X : (IZR a / IZR b = IZR (a / b) + IZR (a mod b) / IZR b)%R) by (rewrite EE; field; lra).
      rewrite X. assert (0 <= IZR (a mod b) / IZR b < 1)%R; [|lra].
      split; [apply Rmult_le_pos; [lra|left; now apply Rinv_0_lt_compat]|].
      apply Rmult_lt_reg_r with (IZR b); [exact Pb|]. unfold Rdiv. rewrite Rmult_assoc, Rinv_l by lra. lra. }
    destruct (0 <=? e) eqn:G.
    + apply Z.leb_le in G. pose proof (Key n (Z.pos m * 2 ^ e)) as K.
      rewrite mult_IZR in K. replace (IZR (2 ^ e)) with (bpow radix2 e) in K by (symmetry; now apply (IZR_Zpower radix2)). apply K.
      apply Z.mul_pos_pos; [lia|]. apply Z.pow_pos_nonneg; lia.
    + apply Z.leb_gt in G. pose proof (Key (n * 2 ^ (- e)) (Z.pos m) ltac:(lia)) as K.
      rewrite mult_IZR in K. replace (IZR (2 ^ (- e))) with (bpow radix2 (- e)) in K by (symmetry; apply (IZR_Zpower radix2); lia).
      assert (Pm : (0 < IZR (Z.pos m))%R) by (apply IZR_lt; lia).
      replace (IZR n / (IZR (Z.pos m) * bpow radix2 e))%R with (IZR n * bpow radix2 (- e) / IZR (Z.pos m))%R; [exact K|].
      pose proof (bpow_gt_0 radix2 e) as Pe. rewrite bpow_opp. set (b := bpow radix2 e) in *. set (k := IZR (Z.pos m)) in *.
      clearbody b k. field. lra.
Qed.

Lemma cap_ok v : src_ok v -> exists q, calc_cap_constant v = Ok q /\ 0 <= q < 2 ^ 32
  /\ (IZR q <= 268435456000 / cap_R v < IZR q + 1)%R.
Proof.
  intros V. destruct (so_C_mid v V) as [Fc Hc]. destruct dec3 as [D1 D2].
  unfold calc_cap_constant. set (m := fmax (vs_C_mid v) (fdec 1 3)).
  assert (Fm : fin m = true) by (unfold m; now apply fmax_fin).
  assert (Rm : fR m = Rmax (fR (vs_C_mid v)) (fR (fdec 1 3))) by (unfold m; now apply fmax_R).
  assert (Bm : (/ 1000 <= fR m <= 100000)%R).
  { rewrite Rm. split; [eapply Rle_trans; [|apply Rmax_r]; lra|]. apply Rmax_lub; lra. }
  clearbody m. assert (Fk : fin (fz samplerate) = true) by (apply fz_fin; unfold samplerate; lia).
  assert (Q : (Rabs (fR m * fR (fz samplerate)) <= Big)%R).
  { rewrite fz_R by (unfold samplerate; lia). apply small_Big. change (IZR samplerate) with 100000%R.
    change (2 ^ 60) with 1152921504606846976. rewrite Rabs_pos_eq by lra. lra. }
  destruct (fmul_Big _ _ Fm Fk Q) as [M1 M2]. rewrite fz_R in M2 by (unfold samplerate; lia).
  change (IZR samplerate) with 100000%R in M2. rewrite Rm in M2. fold (cap_R v) in M2.
  assert (B : (100 <= cap_R v <= 10000000000)%R).
  { unfold cap_R. rewrite <- Rm. split; [apply (rnd_ge_Z 100); [lia|lra]|apply (rnd_le_Z 10000000000); [lia|lra]]. }
  destruct (floor_quot_ok (10 ^ 3 * 2 ^ 28) (fmul m (fz samplerate)) ltac:(lia) M1) as (q & Q1 & Q2); [rewrite M2; lra|].
  rewrite M2 in Q2. change (IZR (10 ^ 3 * 2 ^ 28)) with 268435456000%R in Q2.
  exists q. split; [exact Q1|]. split; [|exact Q2].
  assert (I : (0 < / cap_R v <= / 100)%R) by (split; [apply Rinv_0_lt_compat; lra|apply Rinv_le; lra]).
  unfold Rdiv in Q2. destruct Q2 as [Q2 Q3]. split.
  - assert (L : (IZR (-1) < IZR q)%R) by (change (IZR (-1)) with (-1)%R; nra). apply lt_IZR in L. lia.
  - change (2 ^ 32) with 4294967296. apply lt_IZR. nra.
Qed.

(** *** The tables *)
Lemma mapM_ok {A B} (f : A -> res B) l : Forall (fun a => exists b, f a = Ok b) l ->
  exists l', mapM f l = Ok l' /\ Forall2 (fun a b => f a = Ok b) l l'.
Proof.
  induction 1 as [|a l [b Hb] _ (l' & E & F)]; [exists []; auto|].
  exists (b :: l'). cbn [mapM]. rewrite Hb. cbn [bind]. rewrite E. auto.
Qed.
Lemma mapM_inv {A B} (f : A -> res B) l l' : mapM f l = Ok l' -> Forall2 (fun a b => f a = Ok b) l l'.
Proof.
  revert l'. induction l as [|a l IH]; cbn [mapM]; intros l' H; [injection H as <-; constructor|].
  destruct (f a) as [b|] eqn:E; cbn [bind] in H; [|discriminate].
  destruct (mapM f l) as [bs|]; cbn [bind] in H; [|discriminate]. injection H as <-. constructor; auto.
Qed.
Lemma mapM_err {A B} (f : A -> res B) l e : mapM f l = Err e -> exists a, In a l /\ f a = Err e.
Proof.
  induction l as [|a l IH]; cbn [mapM]; [discriminate|]. destruct (f a) as [b|e'] eqn:E; cbn [bind].
  - destruct (mapM f l) as [bs|e']; cbn [bind]; [discriminate|]. intros H. destruct IH as (x & X1 & X2); [exact H|].
    exists x. split; [now right|exact X2].
  - intros H. exists a. split; [now left|congruence].
Qed.

Lemma F2_impl {A B} (Q Q' : A -> B -> Prop) l l' : (forall a b, Q a b -> Q' a b) -> Forall2 Q l l' -> Forall2 Q' l l'.
Proof. intros H. induction 1; constructor; auto. Qed.

Lemma F2_length {A B} {Q : A -> B -> Prop} {l l'} : Forall2 Q l l' -> List.length l = List.length l'.
Proof. induction 1; cbn [List.length]; congruence. Qed.

Lemma scale256 x : fmt x -> fmt (256 * x).
Proof.
  intros H. replace 256%R with (bpow radix2 8) by reflexivity.
  apply generic_format_FLT. apply FLT_format_generic in H; [|reflexivity].
  destruct H as [[m e] G1 G2 G3]. exists (Float radix2 m (e + 8)); cbn [Fnum Fexp] in *.
  - rewrite G1. unfold F2R. cbn [Fnum Fexp]. rewrite bpow_plus. ring.
  - exact G2.
  - lia.
Qed.

Lemma lut_in_ok x : rng x 1 -> exists n, lut_in_entry x = Ok n /\ n = Z.min 255 (ZnearestE (256 * fR x)) /\ u8 n.
Proof.
  intros [F H]. unfold lut_in_entry. assert (Fk : fin (fz 256) = true) by (apply fz_fin; lia).
  assert (Q : (Rabs (fR (fz 256) * fR x) <= Big)%R).
  { rewrite fz_R by lia. apply small_Big. change (2 ^ 60) with 1152921504606846976. rewrite Rabs_pos_eq by lra. lra. }
  destruct (fmul_Big _ _ Fk F Q) as [M1 M2]. rewrite fz_R in M2 by lia. rewrite (rnd_id _ (scale256 _ (fmt_fR x))) in M2.
  rewrite fround_ok by exact M1. rewrite M2. cbn [bind]. eexists. split; [reflexivity|]. split; [reflexivity|].
  assert (0 <= ZnearestE (256 * fR x)) by (apply near_ge_Z; lra). unfold u8. lia.
Qed.

(** The inverse of an efficiency. *)
Lemma inv_bound x : fmt x -> (bpow radix2 (-1020) < x)%R -> (rnd (16 / x) < bpow radix2 1024)%R.
Proof.
  intros Fx L.
  assert (S : (bpow radix2 (-1020) * (1 + bpow radix2 (-52)) <= x)%R).
  { assert (Fb : fmt (bpow radix2 (-1020))).
    { replace (bpow radix2 (-1020)) with (IZR 1 * bpow radix2 (-1020))%R by ring. apply fmt_scaled; lia. }
    pose proof (succ_le_lt radix2 (SpecFloat.fexp 53 1024) _ _ Fb Fx L) as K.
    rewrite succ_eq_pos in K by apply bpow_ge_0. rewrite ulp_bpow in K.
    replace (bpow radix2 (-1020) * (1 + bpow radix2 (-52)))%R with (bpow radix2 (-1020) + bpow radix2 (-1072))%R; [exact K|].
    rewrite Rmult_plus_distr_l, Rmult_1_r, <- bpow_plus. reflexivity. }
  apply Rle_lt_trans with (IZR (2 ^ 53 - 1) * bpow radix2 971)%R.
  - apply rnd_le_fmt; [apply fmt_scaled; lia|].
    pose proof (bpow_gt_0 radix2 (-1020)) as P0.
    assert (P : (0 < bpow radix2 (-1020) * (1 + bpow radix2 (-52)))%R).
    { apply Rmult_lt_0_compat; [exact P0|]. pose proof (bpow_gt_0 radix2 (-52)). lra. }
    assert (I : (/ x <= / (bpow radix2 (-1020) * (1 + bpow radix2 (-52))))%R) by (apply Rinv_le; assumption).
    assert (E : (16 * / (bpow radix2 (-1020) * (1 + bpow radix2 (-52))) <= IZR (2 ^ 53 - 1) * bpow radix2 971)%R).
    { rewrite Rinv_mult. rewrite <- bpow_opp. change (- -1020) with 1020.
      replace (bpow radix2 1020) with (bpow radix2 49 * bpow radix2 971)%R by (rewrite <- bpow_plus; reflexivity).
      pose proof (bpow_gt_0 radix2 971) as P9. set (b := bpow radix2 971) in *. clearbody b.
      change (bpow radix2 49) with 562949953421312%R. change (bpow radix2 (-52)) with (/ 4503599627370496)%R.
      change (2 ^ 53 - 1) with 9007199254740991.
      assert (J : (/ (1 + / 4503599627370496) <= 9007199254740991 / 9007199254740992)%R).
      { apply Rmult_le_reg_l with (1 + / 4503599627370496)%R; [lra|]. rewrite Rinv_r by lra. lra. }
      set (j := (/ (1 + / 4503599627370496))%R) in *. clearbody j. nra. }
    unfold Rdiv. lra.
  - replace (bpow radix2 1024) with (IZR (2 ^ 53) * bpow radix2 971)%R.
    + apply Rmult_lt_compat_r; [apply bpow_gt_0|apply IZR_lt; lia].
    + replace (IZR (2 ^ 53)) with (bpow radix2 53) by reflexivity. rewrite <- bpow_plus. reflexivity.
Qed.

Lemma inv_over x : (0 < x)%R -> (x <= bpow radix2 (-1020))%R -> (bpow radix2 1024 <= Rabs (rnd (16 / x)))%R.
Proof.
  intros P L. assert (I : (bpow radix2 1020 <= / x)%R).
  { change 1020 with (- -1020). rewrite bpow_opp. apply Rinv_le; assumption. }
  assert (E : (bpow radix2 1024 <= 16 / x)%R).
  { replace (bpow radix2 1024) with (16 * bpow radix2 1020)%R by (change 16%R with (bpow radix2 4); rewrite <- bpow_plus; reflexivity).
    unfold Rdiv. lra. }
  assert (fmt (bpow radix2 1024)).
  { replace (bpow radix2 1024) with (IZR 1 * bpow radix2 1024)%R by ring. apply fmt_scaled; lia. }
  pose proof (rnd_ge _ _ H E). pose proof (bpow_gt_0 radix2 1024). rewrite Rabs_pos_eq; lra.
Qed.

Lemma lut_out_ok x : rng x 1 ->
  (usable_efficiency x -> exists n, lut_out_entry x = Ok n /\ 16 <= n <= 2 ^ 14
     /\ ((fR x = 0%R /\ n = 2 ^ 14) \/ ((0 < fR x)%R /\ n = Z.min (2 ^ 14) (ZnearestE (rnd (16 / fR x))))))
  /\ (~ usable_efficiency x -> lut_out_entry x = Err OverflowError).
Proof.
  intros [F H]. assert (F0 : fin (fz 0) = true) by (apply fz_fin; lia).
  assert (F16 : fin (fz (2 ^ 4)) = true) by (apply fz_fin; lia).
  unfold lut_out_entry, usable_efficiency. destruct (flt (fz 0) x) eqn:G.
  - apply flt_R in G; auto. rewrite fz_R in G by lia. rewrite fdiv_nz by (auto; lra). cbn [bind]. split.
    + intros [U|U]; [lra|].
      assert (B : (16 <= 16 / fR x)%R).
      { assert (1 <= / fR x)%R by (rewrite <- Rinv_1; apply Rinv_le; lra). unfold Rdiv. lra. }
      assert (B2 : (16 <= rnd (16 / fR x))%R) by (apply (rnd_ge_Z 16); [lia|exact B]).
      destruct (idiv_ok (fz (2 ^ 4)) x F16) as [M1 M2]; [lra| |].
      { rewrite fz_R by lia. change (IZR (2 ^ 4)) with 16%R. rewrite Rabs_pos_eq by lra. apply inv_bound; [apply fmt_fR|exact U]. }
      rewrite fz_R in M2 by lia. change (IZR (2 ^ 4)) with 16%R in M2.
      rewrite fround_ok by exact M1. rewrite M2. cbn [bind]. eexists. split; [reflexivity|].
      assert (16 <= ZnearestE (rnd (16 / fR x))) by (now apply near_ge_Z).
      split; [change (2 ^ 14) with 16384; lia|]. right. auto.
    + intros U. assert (L : (fR x <= bpow radix2 (-1020))%R).
      { destruct (Rle_or_lt (fR x) (bpow radix2 (-1020))); [assumption|]. exfalso. apply U. now right. }
      pose proof (inv_over _ G L) as O.
      rewrite (idiv_big (fz (2 ^ 4)) x); [|lra|rewrite fz_R by lia; exact O].
      destruct (xorb _ _); reflexivity.
  - apply flt_R_false in G; auto. rewrite fz_R in G by lia. split.
    + intros _. exists (2 ^ 14). split; [reflexivity|]. split; [lia|]. left. split; [lra|reflexivity].
    + intros U. exfalso. apply U. left. lra.
Qed.

Lemma milli_ok x b : 0 <= b <= 4290000 -> rng x (IZR b) ->
  exists n, milli x = Ok n /\ n = ZnearestE (rnd (fR x * 1000)) /\ 0 <= n < 2 ^ 32.
Proof.
  intros Hb [F H]. destruct (scaled x 1000 b) as (n & A & B & C); [exact F|lia|lia|lia|nia|exact H|].
  exists n. split; [exact A|]. split; [exact B|]. nia.
Qed.

(** 1e-6 * 2^22 *)
Lemma kR : fin (fmul (fdec 1 6) (fz (2 ^ 22))) = true
  /\ (4194304 / 1000000 <= fR (fmul (fdec 1 6) (fz (2 ^ 22))) * (1 + / 1125899906842624)
      /\ fR (fmul (fdec 1 6) (fz (2 ^ 22))) <= 4194304 / 1000000 * (1 + / 1125899906842624))%R.
Proof.
  destruct (cst (fmul (fdec 1 6) (fz (2 ^ 22))) 4722366482869645 (-50)) as [A B]; [vm_compute; reflexivity|].
  split; [exact A|]. rewrite B. assert (bpow radix2 (-50) = / 1125899906842624)%R as -> by reflexivity. lra.
Qed.

Lemma R_in_ok x : rng x 4290000 -> exists n, fround (fmul x (fmul (fdec 1 6) (fz (2 ^ 22)))) = Ok n
  /\ 0 <= n < 2 ^ 32 /\ rounds_to n (fR x * 4194304 / 1000000).
Proof.
  intros [F H]. destruct kR as [K1 K2]. set (k := fmul (fdec 1 6) (fz (2 ^ 22))) in *. clearbody k.
  assert (P : (0 <= fR x * fR k <= 18000000)%R) by nra.
  assert (Q : (Rabs (fR x * fR k) <= Big)%R).
  { apply small_Big. change (2 ^ 60) with 1152921504606846976. rewrite Rabs_pos_eq by lra. lra. }
  destruct (fmul_Big _ _ F K1 Q) as [M1 M2]. rewrite fround_ok by exact M1. rewrite M2.
  eexists. split; [reflexivity|]. split.
  - split; [apply near_ge_Z, rnd_nonneg; lra|].
    assert (ZnearestE (rnd (fR x * fR k)) <= 18000000) by (apply near_le_Z, rnd_le_Z; [lia|lra]). lia.
  - unfold rounds_to. pose proof (near_half (rnd (fR x * fR k))) as N. pose proof (rnd_err (fR x * fR k)) as E.
    rewrite Rabs_pos_eq with (x := (fR x * fR k)%R) in E by lra. rewrite u64_val in E.
    assert (eta64 <= bpow radix2 (-40))%R as ET by (apply bpow_le; lia).
    assert (bpow radix2 (-40) = / 1099511627776)%R as B1 by reflexivity. rewrite B1 in ET.
    assert (bpow radix2 (-18) = / 262144)%R as -> by reflexivity.
    assert (W : (- / 10000000 <= fR x * fR k - fR x * 4194304 / 1000000 <= / 10000000)%R).
    { replace (fR x * fR k - fR x * 4194304 / 1000000)%R with (fR x * (fR k - 4194304 / 1000000))%R by field.
      assert (- / 100000000000000 <= fR k - 4194304 / 1000000 <= / 100000000000000)%R by lra. nra. }
    apply Rabs_le_inv in N, E. apply Rabs_le. lra.
Qed.

(** *** The conversion *)
Section conv.
  Variables (p : pypow) (v : vsrc).
  Hypothesis (P : pow_ok p) (V : src_ok v).

  Record result (dtype : edtype) (log_mid : bool) (c : ccfg) : Prop := mkResult {
    rs_valid : valid_ccfg c;
    rs_mode : converter_mode c = calc_converter_mode v dtype log_mid;
    rs_regs : source_regs v c;
    rs_states : exists dV Ven Vdis, calc_internal_states p v = Ok (dV, Ven, Vdis)
       /\ dV_enable_output_uV c = ZnearestE (rnd (fR dV * 1000))
       /\ V_enable_output_threshold_uV c = ZnearestE (rnd (fR Ven * 1000))
       /\ V_disable_output_threshold_uV c = ZnearestE (rnd (fR Vdis * 1000));
  }.

  Lemma mode_u32 dtype log_mid : u32 (calc_converter_mode v dtype log_mid).
  Proof.
    unfold calc_converter_mode. unfold u32.
    destruct (flt (fz 0) (vs_C_mid v)), (vs_boost v), (vs_buck v), log_mid, (vs_feedback v), (edtype_eqb dtype D_ivcurve);
    cbn; lia.
  Qed.

  Lemma lut_in_all : exists l, mapM (mapM lut_in_entry) (vs_LUT_in v) = Ok l
    /\ Forall2 (Forall2 (fun x n => n = Z.min 255 (ZnearestE (256 * fR x)))) (vs_LUT_in v) l
    /\ List.length l = 12%nat /\ Forall (fun row => List.length row = 12%nat /\ Forall u8 row) l.
  Proof.
    destruct (so_LUT_in v V) as [L1 L2].
    assert (K : forall r, List.length r = 12%nat -> Forall (fun x => rng x 1) r ->
      exists l, mapM lut_in_entry r = Ok l /\ Forall2 (fun x n => n = Z.min 255 (ZnearestE (256 * fR x))) r l
        /\ List.length l = 12%nat /\ Forall u8 l).
    { intros r Hl Hr. destruct (mapM_ok lut_in_entry r) as (l & E & F).
      - eapply Forall_impl; [|exact Hr]. intros x Hx. destruct (lut_in_ok x Hx) as (n & N & _). eauto.
      - exists l. split; [exact E|].
        assert (G : Forall2 (fun x n => n = Z.min 255 (ZnearestE (256 * fR x)) /\ u8 n) r l).
        { clear E Hl. induction F as [|x n r l N F IH]; [constructor|]. inversion Hr; subst.
          constructor; [|now apply IH]. destruct (lut_in_ok x) as (m & M1 & M2 & M3); [assumption|].
          rewrite M1 in N. injection N as <-. auto. }
        split; [refine (F2_impl _ _ _ _ _ G); cbn beta; intros a b; tauto|].
        split; [rewrite <- Hl; symmetry; exact (F2_length F)|].
        clear - G. induction G; constructor; [tauto|assumption]. }
    destruct (mapM_ok (mapM lut_in_entry) (vs_LUT_in v)) as (l & E & F).
    - eapply Forall_impl; [|exact L2]. intros r [R1 R2]. destruct (K r R1 R2) as (l & E & _). eauto.
    - exists l. split; [exact E|].
      assert (G : Forall2 (fun r m => Forall2 (fun x n => n = Z.min 255 (ZnearestE (256 * fR x))) r m
        /\ List.length m = 12%nat /\ Forall u8 m) (vs_LUT_in v) l).
      { clear E L1. revert L2. generalize dependent l. induction (vs_LUT_in v) as [|r L IH]; intros l F L2; inversion F; subst; [constructor|].
        inversion L2 as [|? ? [R1 R2] L2']; subst. constructor; [|now apply IH].
        destruct (K r R1 R2) as (m & M1 & M2 & M3). match goal with X : mapM lut_in_entry r = Ok _ |- _ => rewrite M1 in X; injection X as <- end. auto. }
      split; [refine (F2_impl _ _ _ _ _ G); cbn beta; intros a b; tauto|].
      split; [rewrite <- L1; symmetry; exact (F2_length F)|].
      clear - G. induction G; constructor; [tauto|assumption].
  Qed.

  Lemma lut_out_all : Forall usable_efficiency (vs_LUT_out v) -> exists l, mapM lut_out_entry (vs_LUT_out v) = Ok l
    /\ Forall2 (fun x n => (fR x = 0%R /\ n = 2 ^ 14) \/ ((0 < fR x)%R /\ n = Z.min (2 ^ 14) (ZnearestE (rnd (16 / fR x))))) (vs_LUT_out v) l
    /\ List.length l = 12%nat /\ Forall u32 l.
  Proof.
    intros U. destruct (so_LUT_out v V) as [L1 L2].
    assert (K : Forall (fun x => exists n, lut_out_entry x = Ok n /\ 16 <= n <= 2 ^ 14
       /\ ((fR x = 0%R /\ n = 2 ^ 14) \/ ((0 < fR x)%R /\ n = Z.min (2 ^ 14) (ZnearestE (rnd (16 / fR x)))))) (vs_LUT_out v)).
    { clear L1. induction U; constructor; inversion L2; subst; [now apply lut_out_ok|now apply IHU]. }
    destruct (mapM_ok lut_out_entry (vs_LUT_out v)) as (l & E & F).
    - eapply Forall_impl; [|exact K]. intros x (n & N & _). eauto.
    - exists l. split; [exact E|].
      assert (G : Forall2 (fun x n => ((fR x = 0%R /\ n = 2 ^ 14) \/ ((0 < fR x)%R /\ n = Z.min (2 ^ 14) (ZnearestE (rnd (16 / fR x))))) /\ u32 n) (vs_LUT_out v) l).
      { clear E L1 L2 U. induction F as [|x n r l N F IH]; [constructor|]. inversion K as [|? ? (m & M1 & M2 & M3) K']; subst.
        constructor; [|now apply IH]. rewrite M1 in N. injection N as <-.
        split; [exact M3|]. unfold u32. lia. }
      split; [refine (F2_impl _ _ _ _ _ G); cbn beta; intros a b; tauto|].
      split; [rewrite <- L1; symmetry; exact (F2_length F)|].
      clear - G. induction G; constructor; [tauto|assumption].
  Qed.

  Lemma near_milli x b n : 0 <= b <= 4290000 -> rng x (IZR b) -> n = ZnearestE (rnd (fR x * 1000)) -> rounds_to n (fR x * 1000).
  Proof.
    intros Hb [F H] ->. apply rnd_near. change (2 ^ 33) with 8589934592. destruct Hb as [_ Hb]. apply IZR_le in Hb. lra.
  Qed.

  Theorem from_vsrc_ok dtype log_mid : Forall usable_efficiency (vs_LUT_out v) ->
    exists c, from_vsrc p v dtype log_mid = Ok c /\ result dtype log_mid c.
  Proof.
    intros U. destruct (states_ok p v P V) as (dV & Ven & Vdis & E & S1 & S2 & S3 & S4 & _).
    destruct lut_in_all as (li & LI1 & LI2 & LI3 & LI4). destruct (lut_out_all U) as (lo & LO1 & LO2 & LO3 & LO4).
    destruct (cap_ok v V) as (q & C1 & C2 & C3). destruct (R_in_ok _ (so_R_in v V)) as (nR & R1 & R2 & R3).
    destruct (milli_ok _ 10000 ltac:(lia) (so_Vin_max v V)) as (n1 & A1 & A2 & A3).
    destruct (milli_ok _ 4290000 ltac:(lia) (so_Vin_drop v V)) as (n2 & B1 & B2 & B3).
    destruct (milli_ok _ 10000 ltac:(lia) (so_V_init v V)) as (n3 & D1 & D2 & D3).
    destruct (milli_ok _ 15000 ltac:(lia) S2) as (n4 & F1 & F2 & F3).
    destruct (milli_ok _ 10000 ltac:(lia) S3) as (n5 & G1 & G2 & G3).
    destruct (milli_ok _ 10000 ltac:(lia) S1) as (n6 & H1 & H2 & H3).
    destruct (milli_ok _ 10000 ltac:(lia) (so_pg_en v V)) as (n7 & I1 & I2 & I3).
    destruct (milli_ok _ 10000 ltac:(lia) (so_pg_dis v V)) as (n8 & J1 & J2 & J3).
    destruct (milli_ok _ 4290000 ltac:(lia) (so_V_log v V)) as (n9 & K1 & K2 & K3).
    destruct (milli_ok _ 10000 ltac:(lia) (so_V_boost v V)) as (n10 & M1 & M2 & M3).
    destruct (milli_ok _ 10000 ltac:(lia) (so_V_mid_max v V)) as (n11 & N1 & N2 & N3).
    destruct (milli_ok _ 5000 ltac:(lia) (so_V_out v V)) as (n12 & O1 & O2 & O3).
    destruct (milli_ok _ 5000 ltac:(lia) (so_V_buck v V)) as (n13 & Q1 & Q2 & Q3).
    destruct (so_Iin_max v V) as [FI HI]. destruct (scaled (vs_Iin_max v) 1000000 4290) as (n14 & T1 & T2 & T3); [exact FI|lia|lia|lia|lia|exact HI|].
    destruct (so_I_leak v V) as [FL HL].
    destruct (so_drain v V) as [FD HD]. destruct (so_check v V) as [FC HC].
    assert (X1 : ms_to_n (vs_drain_ms v) = Ok (ZnearestE (ms_R (fR (vs_drain_ms v))))) by (apply ms_ok; [exact FD|lra]).
    assert (X2 : ms_to_n (vs_check_ms v) = Ok (ZnearestE (ms_R (fR (vs_check_ms v))))) by (apply ms_ok; [exact FC|lra]).
    assert (Y1 : 0 <= ZnearestE (ms_R (fR (vs_drain_ms v))) <= 10000 * 100).
    { split; [apply (ms_lower 0); [lia|lra]|apply ms_upper; [lia|lra]]. }
    assert (Y2 : 0 <= ZnearestE (ms_R (fR (vs_check_ms v))) <= 4290 * 100).
    { split; [apply (ms_lower 0); [lia|lra]|apply ms_upper; [lia|lra]]. }
    assert (Y3 : 0 <= ZnearestE (fR (vs_I_leak v)) <= 4290000000).
    { split; [apply near_ge_Z; lra|apply near_le_Z; lra]. }
    unfold from_vsrc. rewrite E. cbn [bind]. rewrite X1. cbn [bind]. rewrite A1. cbn [bind]. rewrite T1. cbn [bind].
    rewrite B1. cbn [bind]. rewrite R1. cbn [bind]. rewrite C1. cbn [bind]. rewrite D1. cbn [bind].
    rewrite (fround_ok _ FL). cbn [bind]. rewrite F1. cbn [bind]. rewrite G1. cbn [bind]. rewrite H1. cbn [bind].
    rewrite X2. cbn [bind]. rewrite I1. cbn [bind]. rewrite J1. cbn [bind]. rewrite K1. cbn [bind]. rewrite M1. cbn [bind].
    rewrite N1. cbn [bind]. rewrite O1. cbn [bind]. rewrite Q1. cbn [bind]. rewrite LI1. cbn [bind]. rewrite LO1. cbn [bind].
    cbv zeta. set (c := mkCcfg _ _ _ _ _ _ _ _ _ _ _ _ _ _ _ _ _ _ _ _ _ _ _ _ _ _).
    assert (VC : valid_ccfg c).
    { pose proof (mode_u32 dtype log_mid) as MU. pose proof (so_LUT_in_V v V). pose proof (so_LUT_in_I v V). pose proof (so_LUT_out_I v V).
      constructor; unfold c; cbn [converter_mode interval_startup_delay_drain_n V_input_max_uV I_input_max_nA V_input_drop_uV
        R_input_kOhm_n22 Constant_us_per_nF_n28 V_intermediate_init_uV I_intermediate_leak_nA V_enable_output_threshold_uV
        V_disable_output_threshold_uV dV_enable_output_uV interval_check_thresholds_n V_pwr_good_enable_threshold_uV
        V_pwr_good_disable_threshold_uV immediate_pwr_good_signal V_output_log_gpio_threshold_uV V_input_boost_threshold_uV
        V_intermediate_max_uV V_output_uV V_buck_drop_uV LUT_input_V_min_log2_uV LUT_input_I_min_log2_nA
        LUT_output_I_min_log2_nA LUT_inp_efficiency_n8 LUT_out_inv_efficiency_n4]; unfold u32 in *; auto; try lia.
      destruct (vs_pg_immediate v); cbn; lia. }
    assert (VB : valid_cpru c = true).
    { destruct VC. unfold valid_cpru. destruct vc_lut_in as [Z1 Z2]. destruct vc_lut_out as [Z3 Z4].
      rewrite !andb_true_iff, !is_u32_ok, !Nat.eqb_eq, !forallb_forall.
      repeat match goal with |- _ /\ _ => split end; auto; try (unfold u32; lia).
      - intros r Hr. rewrite Forall_forall in Z2. destruct (Z2 r Hr) as [W1 W2].
        rewrite andb_true_iff, Nat.eqb_eq, forallb_forall. split; [exact W1|]. intros b Hb.
        rewrite Forall_forall in W2. apply is_u8_ok. now apply W2.
      - intros b Hb. rewrite Forall_forall in Z4. apply is_u32_ok. now apply Z4. }
    rewrite VB. exists c. split; [reflexivity|].
    constructor; [exact VC|reflexivity| |exists dV, Ven, Vdis; auto].
    constructor; unfold c; cbn [converter_mode interval_startup_delay_drain_n V_input_max_uV I_input_max_nA V_input_drop_uV
        R_input_kOhm_n22 Constant_us_per_nF_n28 V_intermediate_init_uV I_intermediate_leak_nA V_enable_output_threshold_uV
        V_disable_output_threshold_uV dV_enable_output_uV interval_check_thresholds_n V_pwr_good_enable_threshold_uV
        V_pwr_good_disable_threshold_uV immediate_pwr_good_signal V_output_log_gpio_threshold_uV V_input_boost_threshold_uV
        V_intermediate_max_uV V_output_uV V_buck_drop_uV LUT_input_V_min_log2_uV LUT_input_I_min_log2_nA
        LUT_output_I_min_log2_nA LUT_inp_efficiency_n8 LUT_out_inv_efficiency_n4]; auto.
    - apply ms_near. lra.
    - apply ms_near. lra.
    - apply (near_milli _ 10000); [lia|apply so_Vin_max; exact V|exact A2].
    - rewrite T2. apply rnd_near. change (2 ^ 33) with 8589934592. lra.
    - apply (near_milli _ 4290000); [lia|apply so_Vin_drop; exact V|exact B2].
    - apply (near_milli _ 10000); [lia|apply so_V_init; exact V|exact D2].
    - unfold rounds_to. pose proof (near_half (fR (vs_I_leak v))). pose proof (bpow_gt_0 radix2 (-18)). lra.
    - apply (near_milli _ 10000); [lia|apply so_pg_en; exact V|exact I2].
    - apply (near_milli _ 10000); [lia|apply so_pg_dis; exact V|exact J2].
    - apply (near_milli _ 4290000); [lia|apply so_V_log; exact V|exact K2].
    - apply (near_milli _ 10000); [lia|apply so_V_boost; exact V|exact M2].
    - apply (near_milli _ 10000); [lia|apply so_V_mid_max; exact V|exact N2].
    - apply (near_milli _ 5000); [lia|apply so_V_out; exact V|exact O2].
    - apply (near_milli _ 5000); [lia|apply so_V_buck; exact V|exact Q2].
  Qed.
End conv.
