(** Proofs about targets. *)
From Coq Require Import ZArith Bool Reals Lia Lra Psatz List.
From Flocq Require Import Core IEEE754.BinarySingleNaN.
From Verif Require Import PyBase F64 F64x CfgModel CfgHrvProofs CfgSrcProofs TgtModel TgtSpec.
Import ListNotations.
Open Scope Z_scope.

Lemma bind_ok {A B} (x : A) (f : A -> res B) : bind (Ok x) f = f x.
Proof. reflexivity. Qed.
Lemma fz0 : fin (fz 0) = true /\ fR (fz 0) = 0%R.
Proof. apply fz_ok. lia. Qed.

(** ** Signs, for every target and every parameter *)
Lemma max0_nn x : not_negative (fmax (fz 0) x).
Proof.
  destruct (fz_x 0) as [N X]; [lia|]. unfold fmax. destruct (flt (fz 0) x) eqn:E.
  - destruct (is_nan x) eqn:K; [apply nan_eq in K; subst x; now rewrite flt_nan_r in E|].
    apply flt_x in E; auto. rewrite X in E. split; [exact K|lra].
  - split; [exact N|lra].
Qed.

Lemma fadd_nn a b : not_negative a -> not_negative b -> not_negative (fadd a b).
Proof.
  intros [Na Xa] [Nb Xb]. destruct (is_finite a) eqn:Fa.
  - destruct (is_finite b) eqn:Fb.
    + destruct (fadd_x a b Fa Fb) as [N X]. split; [exact N|]. rewrite X. rewrite (xR_fin a Fa) in Xa. rewrite (xR_fin b Fb) in Xb.
      rewrite <- (clampR_in 0) by (rewrite Rabs_R0; apply Top_pos). apply clampR_le, rnd_nonneg. lra.
    + destruct (inf_cases b Fb Nb) as [->| ->]; [rewrite xR_ninf in Xb; pose proof Top_pos; lra|].
      assert (fadd a (B754_infinity false) = B754_infinity false) as -> by (destruct a; try discriminate Fa; reflexivity).
      split; [reflexivity|rewrite xR_pinf; pose proof Top_pos; lra].
  - destruct (inf_cases a Fa Na) as [->| ->]; [rewrite xR_ninf in Xa; pose proof Top_pos; lra|].
    assert (fadd (B754_infinity false) b = B754_infinity false) as ->.
    { destruct b as [|[]| |]; try reflexivity; try discriminate Nb. rewrite xR_ninf in Xb; pose proof Top_pos; lra. }
    split; [reflexivity|rewrite xR_pinf; pose proof Top_pos; lra].
Qed.

Lemma fmul_pos_nn a b : fin a = true -> (0 < fR a)%R -> not_negative b -> not_negative (fmul a b).
Proof.
  intros Fa Pa [Nb Xb]. destruct (is_finite b) eqn:Fb.
  - destruct (fmul_x a b Fa Fb) as [N X]. split; [exact N|]. rewrite X. rewrite (xR_fin b Fb) in Xb.
    rewrite <- (clampR_in 0) by (rewrite Rabs_R0; apply Top_pos). apply clampR_le, rnd_nonneg, Rmult_le_pos; lra.
  - destruct (inf_cases b Fb Nb) as [->| ->]; [rewrite xR_ninf in Xb; pose proof Top_pos; lra|].
    assert (fmul a (B754_infinity false) = B754_infinity false) as ->.
    { destruct a as [s|s| |s m e B]; try discriminate Fa; [simpl in Pa; lra|]. destruct s; [|reflexivity].
      exfalso. change (0 < IZR (Z.neg m) * bpow radix2 e)%R in Pa.
      assert (0 < bpow radix2 e)%R by apply bpow_gt_0. assert (IZR (Z.neg m) <= -1)%R by (apply IZR_le; lia). nra. }
    split; [reflexivity|rewrite xR_pinf; pose proof Top_pos; lra].
Qed.

Lemma idiv_pos_nn a b : fin b = true -> (0 < fR b)%R -> not_negative a -> not_negative (idiv a b).
Proof.
  intros Fb Pb [Na Xa]. destruct (is_finite a) eqn:Fa.
  - destruct (idiv_x a b Fa Fb Pb) as [N X]. split; [exact N|]. rewrite X. rewrite (xR_fin a Fa) in Xa.
    rewrite <- (clampR_in 0) by (rewrite Rabs_R0; apply Top_pos). apply clampR_le, rnd_nonneg.
    apply Rmult_le_pos; [lra|]. left. now apply Rinv_0_lt_compat.
  - destruct (inf_cases a Fa Na) as [->| ->]; [rewrite xR_ninf in Xa; pose proof Top_pos; lra|].
    assert (idiv (B754_infinity false) b = B754_infinity false) as ->.
    { destruct b as [s|s| |s m e B]; try discriminate Fb; [simpl in Pb; lra|]. destruct s; [|reflexivity].
      exfalso. change (0 < IZR (Z.neg m) * bpow radix2 e)%R in Pb.
      assert (0 < bpow radix2 e)%R by apply bpow_gt_0. assert (IZR (Z.neg m) <= -1)%R by (apply IZR_le; lia). nra. }
    split; [reflexivity|rewrite xR_pinf; pose proof Top_pos; lra].
Qed.

Lemma fdiv_inv x y q : fdiv x y = Ok q -> q = idiv x y.
Proof. unfold fdiv. destruct (feq y (fz 0)); [discriminate|]. congruence. Qed.

Lemma pass_nn m t Vcc Vd V IR ID b : diode_pass m t Vcc Vd = Ok (V, IR, ID, b) -> not_negative IR /\ not_negative ID.
Proof.
  unfold diode_pass. intros H.
  destruct (fdiv (fsub Vcc Vd) (fmul (dt_R t) (dt_IS t))) as [x|]; cbn [bind] in H; [|discriminate].
  match type of H with bind ?r _ = _ => destruct r as [Vd1|]; cbn [bind] in H; [|discriminate] end.
  destruct (fdiv (fsub Vcc Vd1) (dt_R t)) as [ir|]; cbn [bind] in H; [|discriminate].
  destruct (fdiv Vd1 c1) as [a|]; cbn [bind] in H; [|discriminate].
  destruct (m_expm1 m a) as [e|]; cbn [bind] in H; [|discriminate].
  match type of H with bind ?r _ = _ => destruct r as [h|]; cbn [bind] in H; [|discriminate] end.
  assert (IR = fmax (fz 0) ir /\ ID = fmax (fz 0) (fmul (dt_IS t) e)) as [-> ->] by (split; congruence).
  split; apply max0_nn.
Qed.
Lemma loop_nn m t n : forall Vcc Vd IR ID, diode_loop m t n Vcc Vd = Ok (IR, ID) -> not_negative IR /\ not_negative ID.
Proof.
  induction n as [|n IH]; intros Vcc Vd IR ID H; cbn [diode_loop] in H;
    destruct (diode_pass m t Vcc Vd) as [[[[V a] b] stop]|] eqn:P; cbn [bind] in H; try discriminate.
  - apply pass_nn in P. assert (IR = a /\ ID = b) as [-> ->] by (split; congruence). exact P.
  - destruct stop; [|eauto]. apply pass_nn in P. assert (IR = a /\ ID = b) as [-> ->] by (split; congruence). exact P.
Qed.

Theorem diode_sign m t uV pg i : diode_step m t uV pg = Ok i -> not_negative i.
Proof.
  unfold diode_step. destruct fz0 as [F0 R0]. destruct (pg || negb (dt_ctrl t)).
  - intros H. destruct (py_float uV) as [v|]; [rewrite bind_ok in H; cbv beta zeta in H|discriminate H].
    destruct (fdiv (fmul v (fdec 1 6)) (fz 2)) as [Vd|]; [rewrite bind_ok in H|discriminate H].
    destruct (diode_loop m t 9 (fmul v (fdec 1 6)) Vd) as [[IR ID]|] eqn:L; [rewrite bind_ok in H; cbn [fst snd] in H|discriminate H].
    apply loop_nn in L. destruct L as [A B]. apply fdiv_inv in H. subst i.
    destruct (fz_ok 2) as [F2 R2]; [lia|]. destruct (fz_ok (10 ^ 9)) as [F9 R9]; [lia|].
    apply idiv_pos_nn; [exact F2|rewrite R2; lra|]. apply fmul_pos_nn; [exact F9|rewrite R9; lra|]. now apply fadd_nn.
  - intros H. assert (i = fz 0) by congruence. subst i. destruct (fz_x 0) as [N X]; [lia|]. split; [exact N|rewrite X; lra].
Qed.

(** The exception of the logarithm never leaves the step. *)
Lemma pass_exc m t Vcc Vd : (forall x, m_expm1 m x <> Err ValueError) -> diode_pass m t Vcc Vd <> Err ValueError.
Proof.
  intros ME. unfold diode_pass. assert (D : forall x y, fdiv x y <> Err ValueError) by (intros x y; unfold fdiv; destruct (feq y (fz 0)); discriminate).
  pose proof (D (fsub Vcc Vd) (fmul (dt_R t) (dt_IS t))) as D1. destruct (fdiv _ _) as [x|e]; cbn [bind]; [|exact (fun H => D1 ltac:(congruence))].
  destruct (m_log m (fadd (fz 1) x)) as [l|e].
  - cbn [bind]. pose proof (D (fsub Vcc (fmul c1 l)) (dt_R t)) as D2. destruct (fdiv _ (dt_R t)) as [ir|e]; cbn [bind]; [|exact (fun H => D2 ltac:(congruence))].
    pose proof (D (fmul c1 l) c1) as D3. destruct (fdiv (fmul c1 l) c1) as [a|e]; cbn [bind]; [|exact (fun H => D3 ltac:(congruence))].
    pose proof (ME a) as M. destruct (m_expm1 m a) as [e|e]; cbn [bind]; [|exact (fun H => M ltac:(congruence))].
    match goal with |- bind ?r _ <> _ => pose proof (D (fmul (dt_R t) (fadd (fmax (fz 0) ir) (fmax (fz 0) (fmul (dt_IS t) e)))) (fz 2)) as D4; destruct r as [h|e']; cbn [bind]; [discriminate|exact (fun H => D4 ltac:(congruence))] end.
  - destruct e; cbn [bind]; try discriminate.
    pose proof (D (fsub Vcc Vd) (dt_R t)) as D2. destruct (fdiv (fsub Vcc Vd) (dt_R t)) as [ir|e]; cbn [bind]; [|exact (fun H => D2 ltac:(congruence))].
    pose proof (D Vd c1) as D3. destruct (fdiv Vd c1) as [a|e]; cbn [bind]; [|exact (fun H => D3 ltac:(congruence))].
    pose proof (ME a) as M. destruct (m_expm1 m a) as [e|e]; cbn [bind]; [|exact (fun H => M ltac:(congruence))].
    match goal with |- bind ?r _ <> _ => pose proof (D (fmul (dt_R t) (fadd (fmax (fz 0) ir) (fmax (fz 0) (fmul (dt_IS t) e)))) (fz 2)) as D4; destruct r as [h|e']; cbn [bind]; [discriminate|exact (fun H => D4 ltac:(congruence))] end.
Qed.
Lemma loop_exc m t n : (forall x, m_expm1 m x <> Err ValueError) -> forall Vcc Vd, diode_loop m t n Vcc Vd <> Err ValueError.
Proof.
  intros ME. induction n as [|n IH]; intros Vcc Vd; cbn [diode_loop]; pose proof (pass_exc m t Vcc Vd ME) as P;
    destruct (diode_pass m t Vcc Vd) as [[[[V a] b] stop]|e]; cbn [bind]; try exact (fun H => P ltac:(congruence)).
  destruct stop; [intros H; discriminate H|apply IH].
Qed.
Theorem diode_exc m t uV pg : (forall x, m_expm1 m x <> Err ValueError) -> diode_step m t uV pg <> Err ValueError.
Proof.
  intros ME. unfold diode_step. destruct (pg || negb (dt_ctrl t)); [|discriminate].
  assert (D : forall x y, fdiv x y <> Err ValueError) by (intros x y; unfold fdiv; destruct (feq y (fz 0)); discriminate).
  unfold py_float. destruct (Z.abs uV <? 2 ^ 1024 - 2 ^ 970); [rewrite bind_ok; cbv beta zeta|discriminate].
  pose proof (D (fmul (fz uV) (fdec 1 6)) (fz 2)) as D1. destruct (fdiv _ _) as [Vd|e]; [rewrite bind_ok|exact (fun H => D1 ltac:(cbn [bind] in H; congruence))].
  pose proof (loop_exc m t 9 ME (fmul (fz uV) (fdec 1 6)) Vd) as L.
  destruct (diode_loop _ _ _ _ _) as [r|e]; [rewrite bind_ok; apply D|exact (fun H => L ltac:(cbn [bind] in H; congruence))].
Qed.

(** ** Resistor, current, power *)
Lemma py_float_ok z : Z.abs z <= 2 ^ 53 -> py_float z = Ok (fz z).
Proof.
  intros H. unfold py_float. destruct (Z.abs z <? 2 ^ 1024 - 2 ^ 970) eqn:E; [reflexivity|]. exfalso.
  apply Z.ltb_ge in E. assert (2 ^ 53 < 2 ^ 1024 - 2 ^ 970) by reflexivity. lia.
Qed.

Lemma two_rel r x q : (0 < r)%R -> (Rabs (q - r) <= r * / 4503599627370496)%R -> (0 <= x)%R ->
  (Rabs (x / q - x / r) <= x / r * / 2251799813685248)%R.
Proof.
  intros Pr H Px. apply Rabs_le_inv in H. assert (Pq : (0 < q)%R) by lra.
  replace (x / q - x / r)%R with (x / r * ((r - q) / q))%R by (field; lra).
  rewrite Rabs_mult. rewrite (Rabs_pos_eq (x / r)) by (apply Rmult_le_pos; [lra|left; now apply Rinv_0_lt_compat]).
  apply Rmult_le_compat_l; [apply Rmult_le_pos; [lra|left; now apply Rinv_0_lt_compat]|].
  assert (I : (0 < / q)%R) by now apply Rinv_0_lt_compat.
  apply Rabs_le. unfold Rdiv. split; apply Rmult_le_reg_r with q; try lra; rewrite ?Ropp_mult_distr_l_reverse, ?Rmult_assoc, Rinv_l by lra; lra.
Qed.

(** Relative error of a rounding far from the underflow. *)
Lemma rnd_rel r : (bpow radix2 (-900) <= Rabs r)%R -> (Rabs (rnd r - r) <= Rabs r * / 4503599627370496)%R.
Proof.
  intros H. eapply Rle_trans; [apply rnd_err|].
  assert (E : (eta64 <= bpow radix2 (-100) * bpow radix2 (-900))%R) by (rewrite <- bpow_plus; apply bpow_le; lia).
  assert (B : (bpow radix2 (-100) <= u64)%R) by (apply bpow_le; lia). pose proof (bpow_gt_0 radix2 (-900)).
  assert (V : (/ 4503599627370496 = 2 * u64)%R) by (rewrite u64_val; lra). rewrite V.
  assert (bpow radix2 (-100) * bpow radix2 (-900) <= u64 * Rabs r)%R by (apply Rmult_le_compat; try apply bpow_ge_0; lra). lra.
Qed.
Lemma tiny_le c : (/ 1267650600228229401496703205376 <= c)%R -> (bpow radix2 (-900) <= c)%R.
Proof.
  intros H. apply Rle_trans with (bpow radix2 (-100)); [apply bpow_le; lia|exact H].
Qed.

Theorem resistor R c t uV pg : fin R = true -> (fR R <= bpow radix2 900)%R -> res_init R c = Ok t -> 0 <= uV <= 2 ^ 53 ->
  exists i, res_step t uV pg = Ok i /\ proper i
    /\ (pg = true \/ c = false ->
          (Rabs (fR i - IZR uV / (fR R / 1000)) <= IZR uV / (fR R / 1000) * bpow radix2 (-49) + bpow radix2 (-1074))%R)
    /\ (pg = false -> c = true -> fR i = 0%R).
Proof.
  intros F HR H HV. destruct dec3 as [F3 D3]. unfold res_init in H.
  destruct (negb (fle R (fdec 1 3))) eqn:G; [|discriminate H]. assert (t = mkR (fmul (fdec 1 3) R) c) by congruence. subst t. clear H.
  apply negb_true_iff, fle_R_false in G; auto.
  assert (B9 : (0 < fR R <= bpow radix2 900)%R) by lra.
  assert (PB : (Rabs (fR (fdec 1 3) * fR R) <= Big)%R).
  { rewrite Rabs_pos_eq by (apply Rmult_le_pos; lra). apply Rle_trans with (1 * bpow radix2 900)%R; [apply Rmult_le_compat; lra|].
    rewrite Rmult_1_l. apply bpow_le. lia. }
  destruct (fmul_Big _ _ F3 F PB) as [M1 M2].
  set (rk := fmul (fdec 1 3) R) in *. set (d := fR (fdec 1 3)) in *.
  assert (Q : (Rabs (fR rk - fR R / 1000) <= fR R / 1000 * / 1125899906842624)%R).
  { assert (K : (bpow radix2 (-900) <= Rabs (d * fR R))%R).
    { rewrite Rabs_pos_eq by (apply Rmult_le_pos; lra). apply tiny_le. nra. }
    apply rnd_rel in K. rewrite <- M2 in K. rewrite (Rabs_pos_eq (d * fR R)) in K by (apply Rmult_le_pos; lra).
    apply Rabs_le_inv in K. apply Rabs_le.
    assert (d * fR R >= / 1000 * fR R)%R by nra.
    assert (d * fR R <= / 1000 * (1 + / 4503599627370496) * fR R)%R by nra. lra. }
  apply Rabs_le_inv in Q. assert (PK : (0 < fR rk)%R) by lra.
  unfold res_step. cbn [rt_ctrl rt_kOhm]. destruct (pg || negb c) eqn:O.
  - destruct (fz_ok uV) as [FV RV]; [lia|]. rewrite py_float_ok by lia. cbn [bind].
    assert (HU : (0 <= IZR uV <= 9007199254740992)%R) by (split; apply IZR_le; lia).
    assert (IK : (/ fR rk <= / / 1000001)%R) by (apply Rinv_le; lra). rewrite Rinv_inv in IK.
    assert (IP : (0 < / fR rk)%R) by now apply Rinv_0_lt_compat.
    assert (DB : (0 <= IZR uV / fR rk <= 9007199254740992 * 1000001)%R) by (unfold Rdiv; split; [apply Rmult_le_pos|apply Rmult_le_compat]; lra).
    destruct (fdiv_Big (fz uV) rk FV M1) as (i & E & Fi & Ri); [lra| |].
    { rewrite RV. rewrite Rabs_pos_eq by lra. apply Rle_trans with (bpow radix2 100); [change (bpow radix2 100) with 1267650600228229401496703205376%R; lra|apply bpow_le; lia]. }
    rewrite RV in Ri. exists i. split; [exact E|]. split; [split; [exact Fi|rewrite Ri; apply rnd_nonneg; lra]|].
    split; [|intros -> ->; discriminate O]. intros _.
    pose proof (rnd_err (IZR uV / fR rk)) as RE. rewrite <- Ri in RE. rewrite (Rabs_pos_eq (IZR uV / fR rk)) in RE by lra. rewrite u64_val in RE.
    assert (RR : (0 < fR R / 1000)%R) by lra.
    assert (T : (Rabs (IZR uV / fR rk - IZR uV / (fR R / 1000)) <= IZR uV / (fR R / 1000) * / 1125899906842623)%R).
    { replace (IZR uV / fR rk - IZR uV / (fR R / 1000))%R with (IZR uV / (fR R / 1000) * ((fR R / 1000 - fR rk) / fR rk))%R by (field; lra).
      assert (N : (0 <= IZR uV / (fR R / 1000))%R) by (apply Rmult_le_pos; [lra|left; now apply Rinv_0_lt_compat]).
      rewrite Rabs_mult, (Rabs_pos_eq _ N). apply Rmult_le_compat_l; [exact N|].
      apply Rabs_le. unfold Rdiv. split; apply Rmult_le_reg_r with (fR rk); try lra; rewrite ?Ropp_mult_distr_l_reverse, ?Rmult_assoc, Rinv_l by lra; lra. }
    assert (EV : (2 * eta64 = bpow radix2 (-1074))%R) by (unfold eta64; change (-1074) with (1 + -1075); rewrite bpow_plus; reflexivity).
    assert (EP : (0 < eta64)%R) by apply eta64_pos. change (bpow radix2 (-49)) with (/ 562949953421312)%R.
    rewrite <- EV. apply Rabs_le_inv in RE, T. apply Rabs_le.
    set (z := (IZR uV / (fR R / 1000))%R) in *. assert (0 <= z)%R by (unfold z; apply Rmult_le_pos; [lra|left; now apply Rinv_0_lt_compat]).
    set (w := (IZR uV / fR rk)%R) in *. lra.
  - destruct fz0 as [F0 R0]. exists (fz 0). apply orb_false_iff in O. destruct O as [-> O]. apply negb_false_iff in O. subst c.
    split; [reflexivity|]. split; [split; [exact F0|rewrite R0; lra]|]. split; [intros [K|K]; discriminate K|intros _ _; exact R0].
Qed.

Lemma scale_ok k x : 0 < k <= 2 ^ 53 -> fin x = true -> (0 <= fR x <= bpow radix2 900)%R ->
  fin (fmul (fz k) x) = true /\ fR (fmul (fz k) x) = rnd (IZR k * fR x) /\ (0 <= IZR k * fR x <= bpow radix2 960)%R.
Proof.
  intros Hk F Hx. destruct (fz_ok k) as [Fk Rk]; [lia|].
  assert (K : (0 < IZR k <= bpow radix2 53)%R).
  { split; [apply IZR_lt; lia|]. change (bpow radix2 53) with (IZR (2 ^ 53)). apply IZR_le. lia. }
  assert (B : (0 <= IZR k * fR x <= bpow radix2 960)%R).
  { split; [apply Rmult_le_pos; lra|]. apply Rle_trans with (bpow radix2 53 * bpow radix2 900)%R; [apply Rmult_le_compat; lra|].
    rewrite <- bpow_plus. apply bpow_le. lia. }
  destruct (fmul_Big (fz k) x Fk F) as [A C].
  - rewrite Rk, Rabs_pos_eq by lra. apply Rle_trans with (bpow radix2 960); [lra|apply bpow_le; lia].
  - rewrite Rk in C. auto.
Qed.

Theorem current a s t uV pg : fin a = true -> fin s = true -> (fR a <= bpow radix2 900)%R -> (fR s <= bpow radix2 900)%R ->
  cur_init a s = Ok t ->
  exists i, cur_step t uV pg = Ok i /\ proper i /\ fR i = rnd (1000000000 * (if pg then fR a else fR s)).
Proof.
  intros Fa Fs Ha Hs H. destruct fz0 as [F0 R0]. unfold cur_init in H.
  destruct (negb (fle a (fz 0) || flt s (fz 0))) eqn:G; [|discriminate]. apply negb_true_iff, orb_false_iff in G. destruct G as [G1 G2].
  apply fle_R_false in G1; auto. apply flt_R_false in G2; auto. rewrite R0 in G1, G2.
  assert (t = mkC (fmul (fz (10 ^ 9)) a) (fmul (fz (10 ^ 9)) s)) by congruence. subst t. unfold cur_step. cbn [ct_active ct_sleep].
  destruct (scale_ok (10 ^ 9) a) as (A1 & A2 & A3); [lia|auto|lra|]. destruct (scale_ok (10 ^ 9) s) as (B1 & B2 & B3); [lia|auto|lra|].
  eexists. split; [reflexivity|]. destruct pg; (split; [split; [assumption|rewrite ?A2, ?B2; apply rnd_nonneg; lra]|assumption]).
Qed.

Theorem power a s t uV pg : fin a = true -> fin s = true -> (fR a <= bpow radix2 900)%R -> (fR s <= bpow radix2 900)%R ->
  pow_init a s = Ok t -> 0 <= uV <= 2 ^ 53 ->
  (1 <= uV -> exists i, pow_step t uV pg = Ok i /\ proper i
     /\ fR i = rnd (rnd (1000000000000000 * (if pg then fR a else fR s)) / IZR uV))
  /\ (uV = 0 -> pow_step t uV pg = Err ZeroDivisionError).
Proof.
  intros Fa Fs Ha Hs H HV. destruct fz0 as [F0 R0]. unfold pow_init in H.
  destruct (negb (fle a (fz 0) || flt s (fz 0))) eqn:G; [|discriminate]. apply negb_true_iff, orb_false_iff in G. destruct G as [G1 G2].
  apply fle_R_false in G1; auto. apply flt_R_false in G2; auto. rewrite R0 in G1, G2.
  assert (t = mkP (fmul (fz (10 ^ 15)) a) (fmul (fz (10 ^ 15)) s)) by congruence. subst t. unfold pow_step. cbn [pt_active pt_sleep].
  destruct (scale_ok (10 ^ 15) a) as (A1 & A2 & A3); [lia|auto|lra|]. destruct (scale_ok (10 ^ 15) s) as (B1 & B2 & B3); [lia|auto|lra|].
  destruct (fz_ok uV) as [FV RV]; [lia|]. rewrite py_float_ok by lia. cbn [bind]. split.
  - intros L. assert (LV : (1 <= IZR uV)%R) by (apply IZR_le; lia).
    set (P := if pg then fmul (fz (10 ^ 15)) a else fmul (fz (10 ^ 15)) s).
    assert (PP : fin P = true /\ fR P = rnd (1000000000000000 * (if pg then fR a else fR s)) /\ (0 <= fR P <= bpow radix2 960)%R).
    { unfold P. destruct pg; (split; [assumption|split; [assumption|]]); rewrite ?A2, ?B2;
        (split; [apply rnd_nonneg; lra|apply rnd_le_fmt; [apply generic_format_bpow; unfold SpecFloat.fexp, SpecFloat.emin; lia|lra]]). }
    destruct PP as (P1 & P2 & P3).
    assert (I : (0 < / IZR uV <= 1)%R) by (split; [apply Rinv_0_lt_compat; lra|rewrite <- Rinv_1; apply Rinv_le; lra]).
    assert (DB : (0 <= fR P / IZR uV <= bpow radix2 960)%R).
    { unfold Rdiv. split; [apply Rmult_le_pos; lra|]. rewrite <- (Rmult_1_r (bpow radix2 960)). apply Rmult_le_compat; lra. }
    destruct (fdiv_Big P (fz uV) P1 FV) as (i & E & Fi & Ri); [lra| |].
    + rewrite RV, Rabs_pos_eq by lra. apply Rle_trans with (bpow radix2 960); [lra|apply bpow_le; lia].
    + rewrite RV in Ri. exists i. split; [exact E|]. split; [split; [exact Fi|rewrite Ri; apply rnd_nonneg; lra]|]. rewrite Ri, P2. reflexivity.
  - intros ->. unfold fdiv. destruct (feq (fz 0) (fz 0)) eqn:E; [reflexivity|]. apply feq_R_false in E; auto. lra.
Qed.
