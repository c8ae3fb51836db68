(** IEEE-754 binary64 numbers as used by a Python [float].

    The type and the operations are those of Flocq (BinarySingleNaN, precision 53, emax 1024); every
    operation rounds to nearest, ties to even, which is what CPython on all supported platforms does.
    One NaN value stands for all NaN payloads.

    The reals only occur in lemmas; all functions compute. *)
From Coq Require Import ZArith Bool Reals Lia Lra Psatz.
From Flocq Require Import Core Relative Plus_error IEEE754.BinarySingleNaN.
From Verif Require Import PyBase.
Open Scope Z_scope.

#[global] Instance f64_prec : Prec_gt_0 53 := eq_refl.
#[global] Instance f64_emax : Prec_lt_emax 53 1024 := eq_refl.

Definition f64 : Type := binary_float 53 1024.

(** Arithmetic of two floats ([+], [-], [*]); never raises in Python. *)
Definition fadd (x y : f64) : f64 := Bplus mode_NE x y.
Definition fsub (x y : f64) : f64 := Bminus mode_NE x y.
Definition fmul (x y : f64) : f64 := Bmult mode_NE x y.
Definition fneg (x : f64) : f64 := Bopp x.
Definition fabs (x : f64) : f64 := Babs x.

(** IEEE division.  Python's [/] raises for a zero divisor, see [fdiv]; numpy uses [idiv]. *)
Definition idiv (x y : f64) : f64 := Bdiv mode_NE x y.

(** Comparisons; all are false if one side is NaN. *)
Definition flt (x y : f64) : bool := Bltb x y.
Definition fle (x y : f64) : bool := Bleb x y.
Definition feq (x y : f64) : bool := Beqb x y.

(** [float(z)] for an integer literal or an integer operand of mixed arithmetic
    (Python converts the integer first, correctly rounded). *)
Definition fz (z : Z) : f64 := binary_normalize 53 1024 eq_refl eq_refl mode_NE z 0 false.

(** The literal [a / 10^k] as the Python parser reads it: the binary64 number nearest to the quotient
    (both [a] and [10^k] are exact for the literals used, so the rounded quotient is that number). *)
Definition fdec (a : Z) (k : Z) : f64 := idiv (fz a) (fz (10 ^ k)).

(** Python's [x / y]. *)
Definition fdiv (x y : f64) : res f64 :=
  if feq y (fz 0) then Err ZeroDivisionError else Ok (idiv x y).

(** [max(a, b)] and [min(a, b)]: the first argument is kept unless the second one compares greater (less). *)
Definition fmax (a b : f64) : f64 := if flt a b then b else a.
Definition fmin (a b : f64) : f64 := if flt b a then b else a.

(** [round(x)] of a finite float (half to even) and [int(x)] (towards zero). *)
Definition fnear (x : f64) : Z := Btrunc (Bnearbyint mode_NE x).
Definition ftrunc (x : f64) : Z := Btrunc x.

(** The same with the exceptions of Python: NaN and infinities have no integer value. *)
Definition fround (x : f64) : res Z :=
  if is_finite x then Ok (fnear x) else Err (if is_nan x then ValueError else OverflowError).
Definition fint (x : f64) : res Z :=
  if is_finite x then Ok (ftrunc x) else Err (if is_nan x then ValueError else OverflowError).

(** Lemmas: real number semantics. *)

Notation fR := (@B2R 53 1024).
Notation fin := (@is_finite 53 1024).
Notation fmt := (generic_format radix2 (SpecFloat.fexp 53 1024)).

Definition rnd (r : R) : R := round radix2 (SpecFloat.fexp 53 1024) ZnearestE r.

#[global] Instance fexp_valid : Valid_exp (SpecFloat.fexp 53 1024) := fexp_correct 53 1024 eq_refl.
#[global] Instance fexp_mono : Monotone_exp (SpecFloat.fexp 53 1024).
Proof. change (Monotone_exp (FLT_exp (-1074) 53)). apply FLT_exp_monotone. Qed.

Lemma rnd_flt r : rnd r = round radix2 (FLT_exp (-1074) 53) ZnearestE r.
Proof. reflexivity. Qed.

Lemma rnd_le a b : (a <= b)%R -> (rnd a <= rnd b)%R.
Proof. intros H. unfold rnd. apply round_le; [exact fexp_valid|apply valid_rnd_N|exact H]. Qed.

Lemma rnd_id x : fmt x -> rnd x = x.
Proof. intros H. unfold rnd. apply round_generic; [apply valid_rnd_N|exact H]. Qed.

Lemma fmt_fR (x : f64) : fmt (fR x).
Proof. apply generic_format_B2R. Qed.

Lemma rnd_fR (x : f64) : rnd (fR x) = fR x.
Proof. apply rnd_id, fmt_fR. Qed.

Lemma rnd_fmt r : fmt (rnd r).
Proof. apply generic_format_round; [exact fexp_valid|apply valid_rnd_N]. Qed.

Lemma fmt_0 : fmt 0%R.
Proof. apply generic_format_0. Qed.

Lemma fmt_opp r : fmt r -> fmt (- r)%R.
Proof. apply generic_format_opp. Qed.

Lemma rnd_0 : rnd 0 = 0%R.
Proof. apply rnd_id, fmt_0. Qed.

Lemma rnd_opp r : rnd (- r) = (- rnd r)%R.
Proof. unfold rnd. apply round_NE_opp. Qed.

Lemma fmt_scaled (m e : Z) : Z.abs m <= 2 ^ 53 -> -1074 <= e -> fmt (IZR m * bpow radix2 e)%R.
Proof.
  intros Hm He.
  destruct (Z.eq_dec (Z.abs m) (2 ^ 53)) as [E|E].
  - assert (D : (IZR m * bpow radix2 e)%R = bpow radix2 (53 + e)
                \/ (IZR m * bpow radix2 e)%R = (- bpow radix2 (53 + e))%R).
    { rewrite bpow_plus.
      assert (B : bpow radix2 53 = IZR (2 ^ 53)) by (rewrite <- IZR_Zpower by lia; reflexivity).
      rewrite B.
      destruct (Z.abs_eq_or_opp m) as [A|A]; rewrite A in E.
      + left. rewrite E. reflexivity.
      + right. replace m with (- 2 ^ 53) by lia. rewrite opp_IZR. ring. }
    assert (P : fmt (bpow radix2 (53 + e))).
    { apply generic_format_bpow. unfold SpecFloat.fexp, SpecFloat.emin. lia. }
    destruct D as [->| ->]; [exact P|apply fmt_opp, P].
  - change (generic_format radix2 (FLT_exp (-1074) 53) (IZR m * bpow radix2 e)).
    apply generic_format_FLT.
    apply (FLT_spec radix2 (-1074) 53 _ (Float radix2 m e)).
    + reflexivity.
    + simpl Fnum. change (Z.abs m < radix2 ^ 53). change (radix_val radix2) with 2. lia.
    + simpl. exact He.
Qed.

Lemma fmt_IZR z : Z.abs z <= 2 ^ 53 -> fmt (IZR z).
Proof.
  intros H. replace (IZR z) with (IZR z * bpow radix2 0)%R by (simpl; ring).
  apply fmt_scaled; lia.
Qed.

Lemma rnd_IZR z : Z.abs z <= 2 ^ 53 -> rnd (IZR z) = IZR z.
Proof. intros H. apply rnd_id, fmt_IZR, H. Qed.

(** Rounding stays within bounds that are numbers of the format. *)
Lemma rnd_between a b r : fmt a -> fmt b -> (a <= r <= b)%R -> (a <= rnd r <= b)%R.
Proof.
  intros Ha Hb [H1 H2]. split.
  - rewrite <- (rnd_id a Ha). apply rnd_le, H1.
  - rewrite <- (rnd_id b Hb). apply rnd_le, H2.
Qed.

Lemma rnd_ge a r : fmt a -> (a <= r)%R -> (a <= rnd r)%R.
Proof. intros Ha H. rewrite <- (rnd_id a Ha). apply rnd_le, H. Qed.

Lemma rnd_le_fmt b r : fmt b -> (r <= b)%R -> (rnd r <= b)%R.
Proof. intros Hb H. rewrite <- (rnd_id b Hb). apply rnd_le, H. Qed.

Lemma rnd_ge_Z z r : Z.abs z <= 2 ^ 53 -> (IZR z <= r)%R -> (IZR z <= rnd r)%R.
Proof. intros Hz. apply rnd_ge, fmt_IZR, Hz. Qed.

Lemma rnd_le_Z z r : Z.abs z <= 2 ^ 53 -> (r <= IZR z)%R -> (rnd r <= IZR z)%R.
Proof. intros Hz. apply rnd_le_fmt, fmt_IZR, Hz. Qed.

Lemma rnd_nonneg r : (0 <= r)%R -> (0 <= rnd r)%R.
Proof. apply rnd_ge, fmt_0. Qed.

(** A bound under which nothing overflows. *)
Definition Big : R := bpow radix2 1023.

Lemma fmt_Big : fmt Big.
Proof. apply generic_format_bpow. unfold SpecFloat.fexp, SpecFloat.emin. lia. Qed.

Lemma rnd_abs_Big r : (Rabs r <= Big)%R -> (Rabs (rnd r) < bpow radix2 1024)%R.
Proof.
  intros H. apply Rle_lt_trans with Big.
  - apply Rabs_le_inv in H. apply Rabs_le. apply rnd_between; auto using fmt_Big, fmt_opp.
  - unfold Big. apply bpow_lt. lia.
Qed.

Lemma IZR_Big z : z <= 2 ^ 1023 -> (IZR z <= Big)%R.
Proof.
  intros H. unfold Big. rewrite <- (IZR_Zpower radix2) by lia. apply IZR_le. exact H.
Qed.

Lemma Big_pos : (0 < Big)%R.
Proof. apply bpow_gt_0. Qed.

Lemma fadd_ok x y : fin x = true -> fin y = true -> (Rabs (rnd (fR x + fR y)) < bpow radix2 1024)%R ->
  fin (fadd x y) = true /\ fR (fadd x y) = rnd (fR x + fR y).
Proof.
  intros Hx Hy H. pose proof (Bplus_correct 53 1024 _ _ mode_NE x y Hx Hy) as C.
  change (round_mode mode_NE) with ZnearestE in C. fold (rnd (fR x + fR y)) in C.
  rewrite Rlt_bool_true in C by exact H. destruct C as [C1 [C2 _]]. split; [exact C2|exact C1].
Qed.

Lemma fsub_ok x y : fin x = true -> fin y = true -> (Rabs (rnd (fR x - fR y)) < bpow radix2 1024)%R ->
  fin (fsub x y) = true /\ fR (fsub x y) = rnd (fR x - fR y).
Proof.
  intros Hx Hy H. pose proof (Bminus_correct 53 1024 _ _ mode_NE x y Hx Hy) as C.
  change (round_mode mode_NE) with ZnearestE in C. fold (rnd (fR x - fR y)) in C.
  rewrite Rlt_bool_true in C by exact H. destruct C as [C1 [C2 _]]. split; [exact C2|exact C1].
Qed.

Lemma fmul_ok x y : fin x = true -> fin y = true -> (Rabs (rnd (fR x * fR y)) < bpow radix2 1024)%R ->
  fin (fmul x y) = true /\ fR (fmul x y) = rnd (fR x * fR y).
Proof.
  intros Hx Hy H. pose proof (Bmult_correct 53 1024 _ _ mode_NE x y) as C.
  change (round_mode mode_NE) with ZnearestE in C. fold (rnd (fR x * fR y)) in C.
  rewrite Rlt_bool_true in C by exact H. destruct C as [C1 [C2 _]].
  rewrite Hx, Hy in C2. split; [exact C2|exact C1].
Qed.

Lemma idiv_ok x y : fin x = true -> fR y <> 0%R -> (Rabs (rnd (fR x / fR y)) < bpow radix2 1024)%R ->
  fin (idiv x y) = true /\ fR (idiv x y) = rnd (fR x / fR y).
Proof.
  intros Hx Hy H. pose proof (Bdiv_correct 53 1024 _ _ mode_NE x y Hy) as C.
  change (round_mode mode_NE) with ZnearestE in C. fold (rnd (fR x / fR y)) in C.
  rewrite Rlt_bool_true in C by exact H. destruct C as [C1 [C2 _]].
  rewrite Hx in C2. split; [exact C2|exact C1].
Qed.

(** Overflow gives an infinity of the right sign. *)
Lemma rnd_huge_cases r : (Rabs (rnd r) < bpow radix2 1024)%R \/ (bpow radix2 1024 <= Rabs (rnd r))%R.
Proof. destruct (Rlt_le_dec (Rabs (rnd r)) (bpow radix2 1024)); auto. Qed.

Lemma B2SF_inf (x : f64) s : B2SF x = SpecFloat.S754_infinity s -> x = B754_infinity s.
Proof. destruct x; simpl; intros H; try discriminate. now injection H as ->. Qed.

Lemma fadd_big x y : fin x = true -> fin y = true -> (bpow radix2 1024 <= Rabs (rnd (fR x + fR y)))%R ->
  fadd x y = B754_infinity (Bsign x) /\ Bsign x = Bsign y.
Proof.
  intros Hx Hy H. pose proof (Bplus_correct 53 1024 _ _ mode_NE x y Hx Hy) as C.
  change (round_mode mode_NE) with ZnearestE in C. fold (rnd (fR x + fR y)) in C.
  rewrite Rlt_bool_false in C by exact H. destruct C as [C1 C2]. split; [|exact C2].
  apply B2SF_inf. exact C1.
Qed.

Lemma fsub_big x y : fin x = true -> fin y = true -> (bpow radix2 1024 <= Rabs (rnd (fR x - fR y)))%R ->
  fsub x y = B754_infinity (Bsign x) /\ Bsign x = negb (Bsign y).
Proof.
  intros Hx Hy H. pose proof (Bminus_correct 53 1024 _ _ mode_NE x y Hx Hy) as C.
  change (round_mode mode_NE) with ZnearestE in C. fold (rnd (fR x - fR y)) in C.
  rewrite Rlt_bool_false in C by exact H. destruct C as [C1 C2]. split; [|exact C2].
  apply B2SF_inf. exact C1.
Qed.

Lemma fmul_big x y : (bpow radix2 1024 <= Rabs (rnd (fR x * fR y)))%R ->
  fmul x y = B754_infinity (xorb (Bsign x) (Bsign y)).
Proof.
  intros H. pose proof (Bmult_correct 53 1024 _ _ mode_NE x y) as C.
  change (round_mode mode_NE) with ZnearestE in C. fold (rnd (fR x * fR y)) in C.
  rewrite Rlt_bool_false in C by exact H. apply B2SF_inf. exact C.
Qed.

Lemma idiv_big x y : fR y <> 0%R -> (bpow radix2 1024 <= Rabs (rnd (fR x / fR y)))%R ->
  idiv x y = B754_infinity (xorb (Bsign x) (Bsign y)).
Proof.
  intros Hy H. pose proof (Bdiv_correct 53 1024 _ _ mode_NE x y Hy) as C.
  change (round_mode mode_NE) with ZnearestE in C. fold (rnd (fR x / fR y)) in C.
  rewrite Rlt_bool_false in C by exact H. apply B2SF_inf. exact C.
Qed.

Lemma fneg_R x : fR (fneg x) = (- fR x)%R.
Proof. apply B2R_Bopp. Qed.
Lemma fneg_fin x : fin (fneg x) = fin x.
Proof. apply is_finite_Bopp. Qed.
Lemma fabs_R x : fR (fabs x) = Rabs (fR x).
Proof. apply B2R_Babs. Qed.
Lemma fabs_fin x : fin (fabs x) = fin x.
Proof. apply is_finite_Babs. Qed.

(** Comparisons of finite numbers. *)
Lemma flt_R x y : fin x = true -> fin y = true -> (flt x y = true <-> (fR x < fR y)%R).
Proof.
  intros Hx Hy. unfold flt. rewrite Bltb_correct by assumption.
  case Rlt_bool_spec; intros H; split; intros G; try easy. exfalso. lra.
Qed.
Lemma flt_R_false x y : fin x = true -> fin y = true -> (flt x y = false <-> (fR y <= fR x)%R).
Proof.
  intros Hx Hy. unfold flt. rewrite Bltb_correct by assumption.
  case Rlt_bool_spec; intros H; split; intros G; try easy. exfalso. lra.
Qed.
Lemma fle_R x y : fin x = true -> fin y = true -> (fle x y = true <-> (fR x <= fR y)%R).
Proof.
  intros Hx Hy. unfold fle. rewrite Bleb_correct by assumption.
  case Rle_bool_spec; intros H; split; intros G; try easy. exfalso. lra.
Qed.
Lemma fle_R_false x y : fin x = true -> fin y = true -> (fle x y = false <-> (fR y < fR x)%R).
Proof.
  intros Hx Hy. unfold fle. rewrite Bleb_correct by assumption.
  case Rle_bool_spec; intros H; split; intros G; try easy. exfalso. lra.
Qed.
Lemma feq_R x y : fin x = true -> fin y = true -> (feq x y = true <-> fR x = fR y).
Proof.
  intros Hx Hy. unfold feq. rewrite Beqb_correct by assumption.
  case Req_bool_spec; intros H; split; intros G; try easy.
Qed.
Lemma feq_R_false x y : fin x = true -> fin y = true -> (feq x y = false <-> fR x <> fR y).
Proof.
  intros Hx Hy. unfold feq. rewrite Beqb_correct by assumption.
  case Req_bool_spec; intros H; split; intros G; try easy.
Qed.

(** Integers. *)
Lemma fz_ok z : Z.abs z <= 2 ^ 53 -> fin (fz z) = true /\ fR (fz z) = IZR z.
Proof.
  intros H. pose proof (binary_normalize_correct 53 1024 eq_refl eq_refl mode_NE z 0 false) as C.
  cbv zeta in C. change (round_mode mode_NE) with ZnearestE in C.
  replace (F2R {| Fnum := z; Fexp := 0 |}) with (IZR z) in C by (unfold F2R; simpl; ring).
  fold (rnd (IZR z)) in C. rewrite rnd_IZR in C by exact H.
  rewrite Rlt_bool_true in C.
  - destruct C as [C1 [C2 _]]. split; [exact C2|exact C1].
  - rewrite <- abs_IZR. rewrite <- (IZR_Zpower radix2) by lia. apply IZR_lt.
    change (radix_val radix2) with 2. assert (2 ^ 53 < 2 ^ 1024) by (apply Z.pow_lt_mono_r; lia). lia.
Qed.
Lemma fz_fin z : Z.abs z <= 2 ^ 53 -> fin (fz z) = true.
Proof. apply fz_ok. Qed.
Lemma fz_R z : Z.abs z <= 2 ^ 53 -> fR (fz z) = IZR z.
Proof. apply fz_ok. Qed.

(** A larger integer is rounded to the nearest float. *)
Lemma fz_rnd z : Z.abs z <= 2 ^ 1023 -> fin (fz z) = true /\ fR (fz z) = rnd (IZR z).
Proof.
  intros H. pose proof (binary_normalize_correct 53 1024 eq_refl eq_refl mode_NE z 0 false) as C.
  cbv zeta in C. change (round_mode mode_NE) with ZnearestE in C.
  replace (F2R {| Fnum := z; Fexp := 0 |}) with (IZR z) in C by (unfold F2R; simpl; ring).
  fold (rnd (IZR z)) in C.
  rewrite Rlt_bool_true in C.
  - destruct C as [C1 [C2 _]]. split; [exact C2|exact C1].
  - apply rnd_abs_Big. rewrite <- abs_IZR. apply IZR_Big. exact H.
Qed.

Lemma ftrunc_R x : ftrunc x = Ztrunc (fR x).
Proof.
  apply eq_IZR. unfold ftrunc. rewrite Btrunc_correct. 2: exact eq_refl.
  unfold round, F2R, scaled_mantissa, cexp, FIX_exp. simpl. rewrite !Rmult_1_r. reflexivity.
Qed.

Lemma fnear_R x : fnear x = ZnearestE (fR x).
Proof.
  unfold fnear. change (Btrunc (Bnearbyint mode_NE x)) with (ftrunc (Bnearbyint mode_NE x)).
  rewrite ftrunc_R.
  pose proof (Bnearbyint_correct 53 1024 _ mode_NE x) as [C _]. rewrite C.
  change (round_mode mode_NE) with ZnearestE.
  unfold round, F2R, scaled_mantissa, cexp, FIX_exp. simpl. rewrite !Rmult_1_r.
  apply Ztrunc_IZR.
Qed.

(** Rounding to an integer. *)
Lemma near_le a b : (a <= b)%R -> ZnearestE a <= ZnearestE b.
Proof. apply Zrnd_le. apply valid_rnd_N. Qed.
Lemma near_IZR z : ZnearestE (IZR z) = z.
Proof. apply Zrnd_IZR. apply valid_rnd_N. Qed.
Lemma near_ge_Z z r : (IZR z <= r)%R -> z <= ZnearestE r.
Proof. intros H. rewrite <- (near_IZR z). apply near_le, H. Qed.
Lemma near_le_Z z r : (r <= IZR z)%R -> ZnearestE r <= z.
Proof. intros H. rewrite <- (near_IZR z). apply near_le, H. Qed.
Lemma near_half r : (Rabs (IZR (ZnearestE r) - r) <= / 2)%R.
Proof. rewrite Rabs_minus_sym. apply Znearest_half. Qed.
Lemma near_unique r z : (Rabs (r - IZR z) < / 2)%R -> ZnearestE r = z.
Proof. apply Znearest_imp. Qed.

Lemma trunc_nonneg r : (0 <= r)%R -> 0 <= Ztrunc r.
Proof. intros H. rewrite <- (Ztrunc_IZR 0). apply Ztrunc_le, H. Qed.
Lemma trunc_bounds r : (0 <= r)%R -> (IZR (Ztrunc r) <= r < IZR (Ztrunc r) + 1)%R.
Proof.
  intros H. rewrite Ztrunc_floor by exact H. split; [apply Zfloor_lb|].
  apply Zfloor_ub.
Qed.
Lemma trunc_ge_Z z r : (IZR z <= r)%R -> z <= Ztrunc r.
Proof. intros H. rewrite <- (Ztrunc_IZR z). apply Ztrunc_le, H. Qed.
Lemma trunc_le_Z z r : (r <= IZR z)%R -> Ztrunc r <= z.
Proof. intros H. rewrite <- (Ztrunc_IZR z). apply Ztrunc_le, H. Qed.

Lemma fround_ok x : fin x = true -> fround x = Ok (ZnearestE (fR x)).
Proof. intros H. unfold fround. rewrite H. now rewrite fnear_R. Qed.
Lemma fint_ok x : fin x = true -> fint x = Ok (Ztrunc (fR x)).
Proof. intros H. unfold fint. rewrite H. now rewrite ftrunc_R. Qed.
Lemma fround_inv x n : fround x = Ok n -> fin x = true /\ n = ZnearestE (fR x).
Proof.
  unfold fround. destruct (fin x) eqn:E; [|destruct (is_nan x); discriminate].
  intros H. injection H as <-. split; [reflexivity|apply fnear_R].
Qed.
Lemma fint_inv x n : fint x = Ok n -> fin x = true /\ n = Ztrunc (fR x).
Proof.
  unfold fint. destruct (fin x) eqn:E; [|destruct (is_nan x); discriminate].
  intros H. injection H as <-. split; [reflexivity|apply ftrunc_R].
Qed.

(** [max] and [min] of finite numbers. *)
Lemma fmax_fin a b : fin a = true -> fin b = true -> fin (fmax a b) = true.
Proof. intros. unfold fmax. destruct (flt a b); assumption. Qed.
Lemma fmin_fin a b : fin a = true -> fin b = true -> fin (fmin a b) = true.
Proof. intros. unfold fmin. destruct (flt b a); assumption. Qed.
Lemma fmax_R a b : fin a = true -> fin b = true -> fR (fmax a b) = Rmax (fR a) (fR b).
Proof.
  intros Ha Hb. unfold fmax. destruct (flt a b) eqn:E.
  - apply flt_R in E; auto. rewrite Rmax_right; lra.
  - apply flt_R_false in E; auto. rewrite Rmax_left; lra.
Qed.
Lemma fmin_R a b : fin a = true -> fin b = true -> fR (fmin a b) = Rmin (fR a) (fR b).
Proof.
  intros Ha Hb. unfold fmin. destruct (flt b a) eqn:E.
  - apply flt_R in E; auto. rewrite Rmin_right; lra.
  - apply flt_R_false in E; auto. rewrite Rmin_left; lra.
Qed.

(** Division in Python. *)
Lemma fdiv_ok x y : fin x = true -> fin y = true -> fR y <> 0%R ->
  (Rabs (rnd (fR x / fR y)) < bpow radix2 1024)%R ->
  exists q, fdiv x y = Ok q /\ fin q = true /\ fR q = rnd (fR x / fR y).
Proof.
  intros Hx Hy Hz H. unfold fdiv.
  assert (E : feq y (fz 0) = false).
  { apply feq_R_false; [exact Hy|apply fz_fin; lia|]. rewrite fz_R by lia. exact Hz. }
  rewrite E. destruct (idiv_ok x y Hx Hz H) as [A B]. eauto.
Qed.
Lemma fdiv_nz x y : fin y = true -> fR y <> 0%R -> fdiv x y = Ok (idiv x y).
Proof.
  intros Hy Hz. unfold fdiv.
  assert (E : feq y (fz 0) = false).
  { apply feq_R_false; [exact Hy|apply fz_fin; lia|]. rewrite fz_R by lia. exact Hz. }
  rewrite E. reflexivity.
Qed.

(** Simple sufficient bounds against overflow. *)
Lemma fadd_Big x y : fin x = true -> fin y = true -> (Rabs (fR x + fR y) <= Big)%R ->
  fin (fadd x y) = true /\ fR (fadd x y) = rnd (fR x + fR y).
Proof. intros. apply fadd_ok; auto. apply rnd_abs_Big; auto. Qed.
Lemma fsub_Big x y : fin x = true -> fin y = true -> (Rabs (fR x - fR y) <= Big)%R ->
  fin (fsub x y) = true /\ fR (fsub x y) = rnd (fR x - fR y).
Proof. intros. apply fsub_ok; auto. apply rnd_abs_Big; auto. Qed.
Lemma fmul_Big x y : fin x = true -> fin y = true -> (Rabs (fR x * fR y) <= Big)%R ->
  fin (fmul x y) = true /\ fR (fmul x y) = rnd (fR x * fR y).
Proof. intros. apply fmul_ok; auto. apply rnd_abs_Big; auto. Qed.
Lemma idiv_Big x y : fin x = true -> fR y <> 0%R -> (Rabs (fR x / fR y) <= Big)%R ->
  fin (idiv x y) = true /\ fR (idiv x y) = rnd (fR x / fR y).
Proof. intros. apply idiv_ok; auto. apply rnd_abs_Big; auto. Qed.
Lemma fdiv_Big x y : fin x = true -> fin y = true -> fR y <> 0%R -> (Rabs (fR x / fR y) <= Big)%R ->
  exists q, fdiv x y = Ok q /\ fin q = true /\ fR q = rnd (fR x / fR y).
Proof. intros. apply fdiv_ok; auto. apply rnd_abs_Big; auto. Qed.

(** Rounding errors.  [u64] is the unit roundoff, [eta64] half the smallest positive number. *)
Definition u64 : R := bpow radix2 (-53).
Definition eta64 : R := bpow radix2 (-1075).

Lemma rnd_err r : (Rabs (rnd r - r) <= u64 * Rabs r + eta64)%R.
Proof.
  destruct (error_N_FLT radix2 (-1074) 53 eq_refl (fun x => negb (Z.even x)) r)
    as (eps & eta & H1 & H2 & _ & H4).
  unfold rnd. change (round radix2 (SpecFloat.fexp 53 1024) ZnearestE r)
    with (round radix2 (FLT_exp (-1074) 53) (Znearest (fun x => negb (Z.even x))) r).
  rewrite H4. replace (r * (1 + eps) + eta - r)%R with (eps * r + eta)%R by ring.
  eapply Rle_trans; [apply Rabs_triang|].
  rewrite Rabs_mult.
  assert (E1 : (/ 2 * bpow radix2 (- (53) + 1))%R = u64).
  { unfold u64. change (/ 2)%R with (bpow radix2 (-1)). rewrite <- bpow_plus. reflexivity. }
  assert (E2 : (/ 2 * bpow radix2 (-1074))%R = eta64).
  { unfold eta64. change (/ 2)%R with (bpow radix2 (-1)). rewrite <- bpow_plus. reflexivity. }
  rewrite E1 in H1. rewrite E2 in H2.
  pose proof (Rabs_pos r). pose proof (Rmult_le_compat_r (Rabs r) _ _ H H1). lra.
Qed.

(** Sums have no absolute error term. *)
Lemma rnd_add_err x y : fmt x -> fmt y -> (Rabs (rnd (x + y) - (x + y)) <= u64 * Rabs (x + y))%R.
Proof.
  intros Hx Hy.
  destruct (FLT_plus_error_N_ex radix2 (-1074) 53 (fun x => negb (Z.even x)) x y Hx Hy) as (eps & H1 & H2).
  unfold rnd. change (round radix2 (SpecFloat.fexp 53 1024) ZnearestE (x + y))
    with (round radix2 (FLT_exp (-1074) 53) (Znearest (fun x => negb (Z.even x))) (x + y)).
  rewrite H2. replace ((x + y) * (1 + eps) - (x + y))%R with (eps * (x + y))%R by ring.
  rewrite Rabs_mult. apply Rmult_le_compat_r; [apply Rabs_pos|].
  eapply Rle_trans; [exact H1|].
  assert (E1 : u_ro radix2 53 = u64).
  { unfold u_ro, u64. change (/ 2)%R with (bpow radix2 (-1)). rewrite <- bpow_plus. reflexivity. }
  rewrite E1. assert (0 < u64)%R by apply bpow_gt_0.
  assert (H3 : (u64 / (1 + u64) <= u64 / 1)%R).
  { unfold Rdiv. apply Rmult_le_compat_l; [lra|]. apply Rinv_le; lra. }
  lra.
Qed.
Lemma rnd_sub_err x y : fmt x -> fmt y -> (Rabs (rnd (x - y) - (x - y)) <= u64 * Rabs (x - y))%R.
Proof. intros Hx Hy. unfold Rminus at 2 3 4. apply rnd_add_err; auto. now apply fmt_opp. Qed.

Lemma u64_val : u64 = (/ 9007199254740992)%R.
Proof. reflexivity. Qed.
Lemma eta64_pos : (0 < eta64)%R.
Proof. apply bpow_gt_0. Qed.

(** Extended values: infinities are placed at the ends of the range. *)
Definition Top : R := bpow radix2 1024.

Definition xR (x : f64) : R :=
  match x with
  | B754_infinity s => if s then (- Top)%R else Top
  | _ => fR x
  end.

Definition clampR (r : R) : R := Rmax (- Top) (Rmin Top r).

Lemma Top_pos : (0 < Top)%R.
Proof. apply bpow_gt_0. Qed.

Lemma xR_fin x : fin x = true -> xR x = fR x.
Proof. destruct x; simpl; intros H; try discriminate; reflexivity. Qed.

Lemma fR_lt_Top x : (Rabs (fR x) < Top)%R.
Proof. apply abs_B2R_lt_emax. Qed.

Lemma clampR_le a b : (a <= b)%R -> (clampR a <= clampR b)%R.
Proof.
  intros H. pose proof Top_pos. unfold clampR, Rmax, Rmin.
  destruct (Rle_dec Top a), (Rle_dec Top b); repeat destruct (Rle_dec _ _); lra.
Qed.
Lemma clampR_in r : (Rabs r < Top)%R -> clampR r = r.
Proof.
  intros H. apply Rabs_def2 in H. unfold clampR, Rmax, Rmin.
  repeat destruct (Rle_dec _ _); lra.
Qed.
Lemma clampR_hi r : (Top <= r)%R -> clampR r = Top.
Proof. intros H. pose proof Top_pos. unfold clampR, Rmax, Rmin. repeat destruct (Rle_dec _ _); lra. Qed.
Lemma clampR_lo r : (r <= - Top)%R -> clampR r = (- Top)%R.
Proof. intros H. pose proof Top_pos. unfold clampR, Rmax, Rmin. repeat destruct (Rle_dec _ _); lra. Qed.

Lemma sign_le x : fin x = true -> Bsign x = true -> (fR x <= 0)%R.
Proof.
  destruct x as [s| | |s m e B]; simpl; intros H1 H2; try discriminate; [lra|].
  subst s. now apply F2R_le_0.
Qed.
Lemma sign_ge x : fin x = true -> Bsign x = false -> (0 <= fR x)%R.
Proof.
  destruct x as [s| | |s m e B]; simpl; intros H1 H2; try discriminate; [lra|].
  subst s. now apply F2R_ge_0.
Qed.

Lemma rnd_Top_sign r : (Top <= Rabs (rnd r))%R -> (r <= 0)%R -> (rnd r <= - Top)%R.
Proof.
  intros H Hr. assert (rnd r <= 0)%R by (apply rnd_le_fmt; auto using fmt_0).
  rewrite Rabs_left1 in H by lra. lra.
Qed.
Lemma rnd_Top_sign_pos r : (Top <= Rabs (rnd r))%R -> (0 <= r)%R -> (Top <= rnd r)%R.
Proof.
  intros H Hr. assert (0 <= rnd r)%R by (apply rnd_nonneg; auto).
  rewrite Rabs_pos_eq in H by lra. lra.
Qed.

Lemma fsub_x x y : fin x = true -> fin y = true ->
  is_nan (fsub x y) = false /\ xR (fsub x y) = clampR (rnd (fR x - fR y)).
Proof.
  intros Hx Hy. destruct (rnd_huge_cases (fR x - fR y)) as [H|H].
  - destruct (fsub_ok x y Hx Hy H) as [A B]. split.
    + destruct (fsub x y); try reflexivity. discriminate.
    + rewrite xR_fin by exact A. rewrite B, clampR_in; auto.
  - destruct (fsub_big x y Hx Hy H) as [A B]. rewrite A. split; [reflexivity|].
    cbn [xR]. destruct (Bsign x) eqn:Sx.
    + rewrite clampR_lo; [reflexivity|]. apply rnd_Top_sign; [exact H|].
      pose proof (sign_le x Hx Sx). pose proof (sign_ge y Hy). destruct (Bsign y); [discriminate|].
      specialize (H1 eq_refl). lra.
    + rewrite clampR_hi; [reflexivity|]. apply rnd_Top_sign_pos; [exact H|].
      pose proof (sign_ge x Hx Sx). pose proof (sign_le y Hy). destruct (Bsign y); [|discriminate].
      specialize (H1 eq_refl). lra.
Qed.

Lemma fadd_x x y : fin x = true -> fin y = true ->
  is_nan (fadd x y) = false /\ xR (fadd x y) = clampR (rnd (fR x + fR y)).
Proof.
  intros Hx Hy. destruct (rnd_huge_cases (fR x + fR y)) as [H|H].
  - destruct (fadd_ok x y Hx Hy H) as [A B]. split.
    + destruct (fadd x y); try reflexivity. discriminate.
    + rewrite xR_fin by exact A. rewrite B, clampR_in; auto.
  - destruct (fadd_big x y Hx Hy H) as [A B]. rewrite A. split; [reflexivity|].
    cbn [xR]. destruct (Bsign x) eqn:Sx.
    + rewrite clampR_lo; [reflexivity|]. apply rnd_Top_sign; [exact H|].
      pose proof (sign_le x Hx Sx). pose proof (sign_le y Hy (eq_sym B)). lra.
    + rewrite clampR_hi; [reflexivity|]. apply rnd_Top_sign_pos; [exact H|].
      pose proof (sign_ge x Hx Sx). pose proof (sign_ge y Hy (eq_sym B)). lra.
Qed.

Lemma fmul_x x y : fin x = true -> fin y = true ->
  is_nan (fmul x y) = false /\ xR (fmul x y) = clampR (rnd (fR x * fR y)).
Proof.
  intros Hx Hy. destruct (rnd_huge_cases (fR x * fR y)) as [H|H].
  - destruct (fmul_ok x y Hx Hy H) as [A B]. split.
    + destruct (fmul x y); try reflexivity. discriminate.
    + rewrite xR_fin by exact A. rewrite B, clampR_in; auto.
  - rewrite (fmul_big x y H). split; [reflexivity|]. cbn [xR].
    pose proof (sign_le x Hx). pose proof (sign_ge x Hx). pose proof (sign_le y Hy). pose proof (sign_ge y Hy).
    destruct (Bsign x), (Bsign y); cbn [xorb];
      repeat match goal with H : (?a = ?a -> _) |- _ => specialize (H eq_refl) end.
    + rewrite clampR_hi; [reflexivity|]. apply rnd_Top_sign_pos; [exact H|]. nra.
    + rewrite clampR_lo; [reflexivity|]. apply rnd_Top_sign; [exact H|]. nra.
    + rewrite clampR_lo; [reflexivity|]. apply rnd_Top_sign; [exact H|]. nra.
    + rewrite clampR_hi; [reflexivity|]. apply rnd_Top_sign_pos; [exact H|]. nra.
Qed.

Lemma idiv_x x y : fin x = true -> fin y = true -> (0 < fR y)%R ->
  is_nan (idiv x y) = false /\ xR (idiv x y) = clampR (rnd (fR x / fR y)).
Proof.
  intros Hx Hy Hp. destruct (rnd_huge_cases (fR x / fR y)) as [H|H].
  - destruct (idiv_ok x y Hx ltac:(lra) H) as [A B]. split.
    + destruct (idiv x y); try reflexivity. discriminate.
    + rewrite xR_fin by exact A. rewrite B, clampR_in; auto.
  - rewrite (idiv_big x y ltac:(lra) H). split; [reflexivity|]. cbn [xR].
    pose proof (sign_le x Hx). pose proof (sign_ge x Hx). pose proof (sign_le y Hy).
    assert (Sy : Bsign y = false) by (destruct (Bsign y); [specialize (H2 eq_refl); lra|reflexivity]).
    rewrite Sy. assert (0 < / fR y)%R by (apply Rinv_0_lt_compat; lra). unfold Rdiv in *.
    destruct (Bsign x); cbn [xorb];
      repeat match goal with H : (?a = ?a -> _) |- _ => specialize (H eq_refl) end.
    + rewrite clampR_lo; [reflexivity|]. apply rnd_Top_sign; [exact H|]. nra.
    + rewrite clampR_hi; [reflexivity|]. apply rnd_Top_sign_pos; [exact H|]. nra.
Qed.

Lemma xR_range x : (- Top <= xR x <= Top)%R.
Proof.
  pose proof Top_pos. destruct x as [s|s| |s m e B]; try (simpl; lra).
  - destruct s; simpl; lra.
  - pose proof (fR_lt_Top (B754_finite s m e B)) as H1. apply Rabs_def2 in H1. cbn [xR]. lra.
Qed.

Lemma xR_inf x : is_nan x = false -> fin x = false -> xR x = Top \/ xR x = (- Top)%R.
Proof. destruct x as [|[|]| |]; simpl; intros; try discriminate; auto. Qed.

(** Division by a positive number is monotone, infinities included. *)
Lemma idiv_mono a b y : is_nan a = false -> is_nan b = false -> fin y = true -> (0 < fR y)%R ->
  (xR a <= xR b)%R ->
  is_nan (idiv a y) = false /\ is_nan (idiv b y) = false /\ (xR (idiv a y) <= xR (idiv b y))%R.
Proof.
  intros Na Nb Hy Hp H.
  assert (I : forall s, idiv (B754_infinity s) y = B754_infinity s).
  { intros s. destruct y as [sy|sy| |sy my ey By]; simpl in Hy; try discriminate; simpl in Hp; [lra|].
    simpl. destruct sy; [|destruct s; reflexivity].
    exfalso. assert (fR (B754_finite true my ey By) <= 0)%R by (apply sign_le; reflexivity). simpl in *. lra. }
  pose proof Top_pos as HT.
  destruct (fin a) eqn:Fa, (fin b) eqn:Fb.
  - destruct (idiv_x a y Fa Hy Hp) as [A1 A2]. destruct (idiv_x b y Fb Hy Hp) as [B1 B2].
    split; [exact A1|]. split; [exact B1|]. rewrite A2, B2. apply clampR_le, rnd_le.
    rewrite !xR_fin in H by assumption. unfold Rdiv. apply Rmult_le_compat_r; [|exact H].
    apply Rlt_le, Rinv_0_lt_compat, Hp.
  - destruct (idiv_x a y Fa Hy Hp) as [A1 _]. split; [exact A1|].
    destruct b as [|s| |]; simpl in Nb, Fb; try discriminate. rewrite I.
    split; [reflexivity|]. destruct s.
    + rewrite xR_fin in H by exact Fa. pose proof (fR_lt_Top a) as L. apply Rabs_def2 in L. simpl in H. lra.
    + simpl. apply xR_range.
  - destruct (idiv_x b y Fb Hy Hp) as [B1 _].
    destruct a as [|s| |]; simpl in Na, Fa; try discriminate. rewrite I.
    split; [reflexivity|]. split; [exact B1|]. destruct s.
    + simpl. apply xR_range.
    + rewrite (xR_fin b) in H by exact Fb. pose proof (fR_lt_Top b) as L. apply Rabs_def2 in L. simpl in H. lra.
  - destruct a as [|s| |], b as [|s'| |]; simpl in *; try discriminate. rewrite !I.
    auto.
Qed.

(** [round(max(q, 0.0))] for a value that is not NaN: fails only for plus infinity. *)
Lemma round_max0 q : is_nan q = false ->
  (xR q = Top /\ fround (fmax q (fz 0)) = Err OverflowError)
  \/ ((xR q < Top)%R /\ fround (fmax q (fz 0)) = Ok (ZnearestE (Rmax (xR q) 0))).
Proof.
  intros N. pose proof Top_pos as HT. destruct (fin q) eqn:F.
  - right. pose proof (fR_lt_Top q) as L. apply Rabs_def2 in L. rewrite xR_fin by exact F.
    split; [lra|]. assert (F0 : fin (fz 0) = true) by (apply fz_fin; lia).
    rewrite fround_ok by (apply fmax_fin; auto). rewrite fmax_R by auto. now rewrite fz_R by lia.
  - destruct q as [|s| |]; simpl in N, F; try discriminate. destruct s.
    + right. split; [simpl; lra|]. cbn [xR]. rewrite Rmax_right by lra.
      change (fmax (B754_infinity true) (fz 0)) with (fz 0).
      rewrite fround_ok by (apply fz_fin; lia). rewrite fz_R by lia. reflexivity.
    + left. split; reflexivity.
Qed.

(** Value of a constant given by its encoding (checked by computation). *)
Lemma cst (x : f64) m e : B2SF x = SpecFloat.S754_finite false m e ->
  fin x = true /\ fR x = (IZR (Zpos m) * bpow radix2 e)%R.
Proof.
  intros H. split.
  - rewrite <- is_finite_SF_B2SF, H. reflexivity.
  - rewrite <- SF2R_B2SF, H. reflexivity.
Qed.
