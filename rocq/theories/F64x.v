(** More lemmas on binary64: comparisons, [min] and [max] on values that may be infinite, and what a finite
    result says about the operands. *)
From Coq Require Import ZArith Bool Reals Lia Lra Psatz.
From Flocq Require Import Core Relative Plus_error Mult_error IEEE754.BinarySingleNaN.
From Verif Require Import PyBase F64.
Open Scope Z_scope.

Notation isnan := (@is_nan 53 1024).

Lemma fin_nan x : fin x = true -> isnan x = false.
Proof. destruct x; simpl; intros; try discriminate; reflexivity. Qed.

Lemma xR_open x : fin x = true -> (- Top < xR x < Top)%R.
Proof. intros F. rewrite xR_fin by exact F. pose proof (fR_lt_Top x) as L. apply Rabs_def2 in L. lra. Qed.

Lemma inf_cases x : fin x = false -> isnan x = false -> x = B754_infinity true \/ x = B754_infinity false.
Proof. destruct x as [|[|]| |]; simpl; intros; try discriminate; auto. Qed.

Lemma xR_ninf : xR (B754_infinity true) = (- Top)%R.
Proof. reflexivity. Qed.
Lemma xR_pinf : xR (B754_infinity false) = Top.
Proof. reflexivity. Qed.

Lemma fin_of_x x : isnan x = false -> (- Top < xR x < Top)%R -> fin x = true.
Proof.
  intros N H. destruct (fin x) eqn:F; [reflexivity|]. exfalso.
  destruct (inf_cases x F N) as [-> | ->]; rewrite ?xR_ninf, ?xR_pinf in H; lra.
Qed.

Lemma flt_inf_l x : fin x = true -> flt (B754_infinity true) x = true /\ flt (B754_infinity false) x = false.
Proof. destruct x as [s|s| |s m e B]; simpl; intros; try discriminate; split; reflexivity. Qed.
Lemma flt_inf_r x : fin x = true -> flt x (B754_infinity true) = false /\ flt x (B754_infinity false) = true.
Proof. destruct x as [s|s| |s m e B]; simpl; intros; try discriminate; split; destruct s; reflexivity. Qed.
Lemma fle_inf_l x : fin x = true -> fle (B754_infinity true) x = true /\ fle (B754_infinity false) x = false.
Proof. destruct x as [s|s| |s m e B]; simpl; intros; try discriminate; split; reflexivity. Qed.
Lemma fle_inf_r x : fin x = true -> fle x (B754_infinity true) = false /\ fle x (B754_infinity false) = true.
Proof. destruct x as [s|s| |s m e B]; simpl; intros; try discriminate; split; destruct s; reflexivity. Qed.

Lemma flt_x a b : isnan a = false -> isnan b = false -> (flt a b = true <-> (xR a < xR b)%R).
Proof.
  intros Na Nb. pose proof Top_pos as HT. destruct (fin a) eqn:Fa, (fin b) eqn:Fb.
  - rewrite !xR_fin by assumption. now apply flt_R.
  - pose proof (xR_open a Fa). destruct (flt_inf_r a Fa) as [E1 E2].
    destruct (inf_cases b Fb Nb) as [-> | ->]; rewrite ?E1, ?E2, ?xR_ninf, ?xR_pinf; split; intros; try discriminate; try reflexivity; lra.
  - pose proof (xR_open b Fb). destruct (flt_inf_l b Fb) as [E1 E2].
    destruct (inf_cases a Fa Na) as [-> | ->]; rewrite ?E1, ?E2, ?xR_ninf, ?xR_pinf; split; intros; try discriminate; try reflexivity; lra.
  - destruct (inf_cases a Fa Na) as [-> | ->], (inf_cases b Fb Nb) as [-> | ->];
      rewrite ?xR_ninf, ?xR_pinf; split; intros H; try discriminate H; try reflexivity; lra.
Qed.
Lemma flt_x_false a b : isnan a = false -> isnan b = false -> (flt a b = false <-> (xR b <= xR a)%R).
Proof.
  intros Na Nb. pose proof (flt_x a b Na Nb) as [H1 H2]. destruct (flt a b); split; intros H; try discriminate; try reflexivity.
  - specialize (H1 eq_refl). lra.
  - destruct (Rle_lt_dec (xR b) (xR a)) as [L|L]; [exact L|]. specialize (H2 L). discriminate.
Qed.
Lemma flt_nan_l a : flt B754_nan a = false.
Proof. destruct a; reflexivity. Qed.
Lemma flt_nan_r a : flt a B754_nan = false.
Proof. destruct a as [|[|]| |[|]]; reflexivity. Qed.

Lemma fmin_x a b : isnan a = false -> isnan b = false -> isnan (fmin a b) = false /\ xR (fmin a b) = Rmin (xR a) (xR b).
Proof.
  intros Na Nb. unfold fmin. destruct (flt b a) eqn:E.
  - apply flt_x in E; auto. split; [auto|]. rewrite Rmin_right; lra.
  - apply flt_x_false in E; auto. split; [auto|]. rewrite Rmin_left; lra.
Qed.
Lemma fmax_x a b : isnan a = false -> isnan b = false -> isnan (fmax a b) = false /\ xR (fmax a b) = Rmax (xR a) (xR b).
Proof.
  intros Na Nb. unfold fmax. destruct (flt a b) eqn:E.
  - apply flt_x in E; auto. split; [auto|]. rewrite Rmax_right; lra.
  - apply flt_x_false in E; auto. split; [auto|]. rewrite Rmax_left; lra.
Qed.

Lemma nan_eq (x : f64) : isnan x = true -> x = B754_nan.
Proof. destruct x; simpl; intros; try discriminate; reflexivity. Qed.

(** [max(k, x)] for an integer [k] turns NaN into [k]. *)
Lemma fmaxk_nan a : fmax a B754_nan = a.
Proof. unfold fmax. now rewrite flt_nan_r. Qed.
Lemma fmin_nan_l b : fmin B754_nan b = B754_nan.
Proof. unfold fmin. now rewrite flt_nan_r. Qed.
Lemma fmax_nan_l b : fmax B754_nan b = B754_nan.
Proof. unfold fmax. now rewrite flt_nan_l. Qed.

(** A finite result comes from finite operands without overflow. *)
Lemma fadd_fin_inv x y : fin (fadd x y) = true ->
  fin x = true /\ fin y = true /\ fR (fadd x y) = rnd (fR x + fR y).
Proof.
  intros F. assert (G : fin x = true /\ fin y = true).
  { destruct x as [sx|sx| |sx mx ex Bx], y as [sy|sy| |sy my ey By]; simpl in F; try discriminate;
      try (split; reflexivity); destruct sx, sy; simpl in F; discriminate. }
  destruct G as [Gx Gy]. split; [exact Gx|]. split; [exact Gy|].
  destruct (rnd_huge_cases (fR x + fR y)) as [H|H].
  - now apply fadd_ok.
  - destruct (fadd_big x y Gx Gy H) as [E _]. rewrite E in F. discriminate.
Qed.
Lemma fsub_fin_inv x y : fin (fsub x y) = true ->
  fin x = true /\ fin y = true /\ fR (fsub x y) = rnd (fR x - fR y).
Proof.
  intros F. assert (G : fin x = true /\ fin y = true).
  { destruct x as [sx|sx| |sx mx ex Bx], y as [sy|sy| |sy my ey By]; simpl in F; try discriminate;
      try (split; reflexivity); destruct sx, sy; simpl in F; discriminate. }
  destruct G as [Gx Gy]. split; [exact Gx|]. split; [exact Gy|].
  destruct (rnd_huge_cases (fR x - fR y)) as [H|H].
  - now apply fsub_ok.
  - destruct (fsub_big x y Gx Gy H) as [E _]. rewrite E in F. discriminate.
Qed.
Lemma fmul_fin_inv x y : fin (fmul x y) = true ->
  fin x = true /\ fin y = true /\ fR (fmul x y) = rnd (fR x * fR y).
Proof.
  intros F. assert (G : fin x = true /\ fin y = true).
  { destruct x as [sx|sx| |sx mx ex Bx], y as [sy|sy| |sy my ey By]; simpl in F; try discriminate;
      split; reflexivity. }
  destruct G as [Gx Gy]. split; [exact Gx|]. split; [exact Gy|].
  destruct (rnd_huge_cases (fR x * fR y)) as [H|H].
  - now apply fmul_ok.
  - rewrite (fmul_big x y H) in F. discriminate.
Qed.

(** Small integers. *)
Lemma fz_x z : Z.abs z <= 2 ^ 53 -> isnan (fz z) = false /\ xR (fz z) = IZR z.
Proof. intros H. destruct (fz_ok z H) as [F V]. split; [now apply fin_nan|]. now rewrite xR_fin. Qed.

Lemma rnd_le_self r (x : f64) : (r <= fR x)%R -> (rnd r <= fR x)%R.
Proof. intros H. rewrite <- (rnd_fR x). apply rnd_le, H. Qed.
Lemma rnd_ge_self r (x : f64) : (fR x <= r)%R -> (fR x <= rnd r)%R.
Proof. intros H. rewrite <- (rnd_fR x). apply rnd_le, H. Qed.

(** Scaling by a power of two is exact unless the result is subnormal; truncation of the quotient therefore
    is the truncation of the real quotient. *)
Lemma scaled_exact x k : fmt x -> 0 <= k -> (bpow radix2 (-1021) <= Rabs (x * bpow radix2 (- k)))%R ->
  rnd (x * bpow radix2 (- k)) = (x * bpow radix2 (- k))%R.
Proof.
  intros Fx Hk H. apply rnd_id.
  change (generic_format radix2 (FLT_exp (-1074) 53) (x * bpow radix2 (- k))).
  apply mult_bpow_exact_FLT; [exact Fx|].
  assert (Hx : x <> 0%R).
  { intros ->. rewrite Rmult_0_l, Rabs_R0 in H. pose proof (bpow_gt_0 radix2 (-1021)). lra. }
  rewrite Rabs_mult, (Rabs_pos_eq (bpow _ _)) in H by apply bpow_ge_0.
  assert (H2 : (bpow radix2 (-1021 + k) <= Rabs x)%R).
  { replace (-1021 + k) with (-1021 - (- k)) by lia. unfold Zminus. rewrite bpow_plus.
    apply (Rmult_le_compat_r (bpow radix2 (- - k))) in H; [|apply bpow_ge_0].
    assert (E : (bpow radix2 (- k) * bpow radix2 (- - k) = 1)%R).
    { rewrite <- bpow_plus. replace (- k + - - k) with 0 by lia. reflexivity. }
    rewrite Rmult_assoc, E, Rmult_1_r in H. exact H. }
  pose proof (mag_ge_bpow radix2 x (-1021 + k + 1)) as M.
  replace (-1021 + k + 1 - 1) with (-1021 + k) in M by lia. specialize (M H2).
  lia.
Qed.

Lemma trunc_scaled x k : fmt x -> (0 <= x)%R -> 0 <= k ->
  Ztrunc (rnd (x * bpow radix2 (- k))) = Zfloor (x * bpow radix2 (- k)).
Proof.
  intros Fx Hx Hk. assert (P : (0 <= x * bpow radix2 (- k))%R) by (apply Rmult_le_pos; [exact Hx|apply bpow_ge_0]).
  destruct (Rle_lt_dec (bpow radix2 (-1021)) (x * bpow radix2 (- k))) as [H|H].
  - rewrite scaled_exact; auto; [|rewrite Rabs_pos_eq by exact P; exact H]. now rewrite Ztrunc_floor.
  - assert (L : (bpow radix2 (-1021) <= / 2)%R) by (change (/ 2)%R with (bpow radix2 (-1)); apply bpow_le; lia).
    assert (E1 : Zfloor (x * bpow radix2 (- k)) = 0).
    { apply Zfloor_imp. change (IZR (0 + 1)) with 1%R. lra. }
    assert (R1 : (0 <= rnd (x * bpow radix2 (- k)) <= bpow radix2 (-1))%R).
    { apply rnd_between; [apply fmt_0| |].
      - apply generic_format_bpow. unfold SpecFloat.fexp, SpecFloat.emin. lia.
      - change (bpow radix2 (-1)) with (/ 2)%R. lra. }
    change (bpow radix2 (-1)) with (/ 2)%R in R1.
    rewrite Ztrunc_floor by lra. rewrite E1. apply Zfloor_imp. change (IZR (0 + 1)) with 1%R. lra.
Qed.
