(** The assumptions about [math.log] and [math.expm1] hold for the correctly rounded functions. *)
From Coq Require Import ZArith Bool Reals Lia Lra Psatz List.
From Flocq Require Import Core IEEE754.BinarySingleNaN.
From Verif Require Import PyBase F64 F64x TgtModel TgtSpec TgtProofs TgtDiodeProofs.
Import ListNotations.
Open Scope Z_scope.

(** The float nearest to a real number. *)
Definition of_real (r : R) : f64 :=
  binary_normalize 53 1024 eq_refl eq_refl mode_NE
    (ZnearestE (scaled_mantissa radix2 (SpecFloat.fexp 53 1024) r)) (cexp radix2 (SpecFloat.fexp 53 1024) r) false.

Lemma of_real_ok r : (Rabs r <= Big)%R -> fin (of_real r) = true /\ fR (of_real r) = rnd r.
Proof.
  intros H. unfold of_real.
  pose proof (binary_normalize_correct 53 1024 eq_refl eq_refl mode_NE (ZnearestE (scaled_mantissa radix2 (SpecFloat.fexp 53 1024) r))
    (cexp radix2 (SpecFloat.fexp 53 1024) r) false) as K. cbv zeta in K.
  change (F2R (Float radix2 (ZnearestE (scaled_mantissa radix2 (SpecFloat.fexp 53 1024) r)) (cexp radix2 (SpecFloat.fexp 53 1024) r)))
    with (rnd r) in K.
  change (round radix2 (SpecFloat.fexp 53 1024) (round_mode mode_NE) (rnd r)) with (rnd (rnd r)) in K.
  rewrite (rnd_id (rnd r)) in K by apply rnd_fmt. rewrite Rlt_bool_true in K by (apply rnd_abs_Big; exact H).
  destruct K as (A & B & _). split; [exact B|exact A].
Qed.

Definition real_math : pymath :=
  mkMath (fun x => if flt (fz 0) x then Ok (of_real (ln (fR x))) else Err ValueError)
         (fun x => if fle x (fz 600) then Ok (of_real (exp (fR x) - 1)) else Err OverflowError).

Lemma real_log : log_ok real_math.
Proof.
  intros y F H. destruct fz0 as [F0 R0]. cbn [m_log real_math].
  assert (G : flt (fz 0) y = true) by (apply flt_R; auto; rewrite R0; lra). rewrite G.
  assert (HB : (fR y <= bpow radix2 1024)%R) by (pose proof (fR_lt_Top y) as K; apply Rabs_lt_inv in K; change Top with (bpow radix2 1024) in K; lra).
  assert (L0 : (0 <= ln (fR y))%R) by now apply ln_nonneg.
  assert (L1 : (ln (fR y) <= 1024)%R) by (eapply Rle_trans; [apply ln_mono; [lra|exact HB]|apply (ln_bpow 1024); lia]).
  destruct (of_real_ok (ln (fR y))) as [A B]; [apply (le_Big _ 10); [lia|change (bpow radix2 10) with 1024%R; lra]|].
  exists (of_real (ln (fR y))). split; [reflexivity|]. split; [exact A|]. rewrite B. clear A B.
  destruct (Req_dec (fR y) 1) as [E|N]; [rewrite E, ln_1, rnd_0, Rminus_0_r, Rabs_R0; lra|].
  (* the next number above 1 *)
  assert (Y : (1 + bpow radix2 (-60) <= fR y)%R).
  { apply Rnot_lt_le. intros C. assert (P60 : (0 < bpow radix2 (-60))%R) by apply bpow_gt_0.
    assert (R1 : rnd (1 + bpow radix2 (-60)) = 1%R).
    { replace (1 + bpow radix2 (-60))%R with (F2R (Float radix2 (2 ^ 60 + 1) (-60))).
        2:{ unfold F2R. cbn [Fnum Fexp]. rewrite plus_IZR, Rmult_plus_distr_r. change (bpow radix2 (-60)) with (/ 1152921504606846976)%R.
            change (IZR (2 ^ 60)) with 1152921504606846976%R. field. }
        pose proof (binary_normalize_correct 53 1024 eq_refl eq_refl mode_NE (2 ^ 60 + 1) (-60) false) as K. cbv zeta in K.
        rewrite Rlt_bool_true in K.
        + destruct K as (K & _ & _). change (round radix2 (SpecFloat.fexp 53 1024) (round_mode mode_NE) (F2R (Float radix2 (2 ^ 60 + 1) (-60)))) with (rnd (F2R (Float radix2 (2 ^ 60 + 1) (-60)))) in K.
          rewrite <- K. destruct (cst (binary_normalize 53 1024 eq_refl eq_refl mode_NE (2 ^ 60 + 1) (-60) false) 4503599627370496 (-52)) as [_ W]; [vm_compute; reflexivity|].
          change (fR (binary_normalize 53 1024 eq_refl eq_refl mode_NE (2 ^ 60 + 1) (-60) false) = 1%R). rewrite W. change (bpow radix2 (-52)) with (/ 4503599627370496)%R. lra.
        + apply rnd_abs_Big. unfold F2R. cbn [Fnum Fexp]. change (bpow radix2 (-60)) with (/ 1152921504606846976)%R.
          apply (le_Big _ 2); [lia|]. change (bpow radix2 2) with 4%R. change (IZR (2 ^ 60 + 1)) with 1152921504606846977%R. lra.
      }
    assert (fR y <= 1)%R; [|lra]. rewrite <- R1, <- (rnd_fR y). apply rnd_le. lra. }
  assert (LL : (bpow radix2 (-61) <= ln (fR y))%R).
  { apply Rle_trans with (ln (1 + bpow radix2 (-60))); [|apply ln_mono; [pose proof (bpow_gt_0 radix2 (-60)); lra|exact Y]].
    rewrite <- (ln_exp (bpow radix2 (-61))) at 1. apply ln_mono; [apply exp_pos|].
    change (bpow radix2 (-61)) with (/ 2305843009213693952)%R. change (bpow radix2 (-60)) with (/ 1152921504606846976)%R.
    eapply Rle_trans; [apply exp_small; lra|]. apply Rmult_le_reg_l with (1 - / 2305843009213693952)%R; [lra|]. rewrite Rinv_r by lra. lra. }
  assert (K : (bpow radix2 (-900) <= Rabs (ln (fR y)))%R) by (rewrite Rabs_pos_eq by lra; eapply Rle_trans; [apply (bpow_le radix2 (-900) (-61)); lia|exact LL]).
  apply rnd_rel in K. rewrite (Rabs_pos_eq (ln (fR y))) in K by lra. change (bpow radix2 (-30)) with (/ 1073741824)%R. lra.
Qed.

Lemma real_expm1 : expm1_ok real_math.
Proof.
  intros x F H. destruct (fz_ok 600) as [F6 R6]; [lia|]. cbn [m_expm1 real_math].
  assert (G : fle x (fz 600) = true) by (apply fle_R; auto; rewrite R6; lra). rewrite G.
  assert (L : (fR x <= exp (fR x) - 1)%R).
  { destruct (Req_dec (fR x) 0) as [->|N]; [rewrite exp_0; lra|]. assert (1 + fR x < exp (fR x))%R by (apply exp_ineq1; exact N). lra. }
  assert (U : (exp (fR x) <= bpow radix2 960)%R).
  { apply Rle_trans with (exp (INR 600)); [apply exp_mono; rewrite INR_IZR_INZ; apply H|]. eapply Rle_trans; [apply exp_nat|].
    rewrite pow_IZR, (bpow_Z 960 (2 ^ 960)) by (reflexivity || lia). apply IZR_le, Z.leb_le. vm_compute. reflexivity. }
  destruct (of_real_ok (exp (fR x) - 1)) as [A B]; [apply (le_Big _ 960); [lia|lra]|].
  exists (of_real (exp (fR x) - 1)). split; [reflexivity|]. split; [exact A|]. rewrite B. clear A B.
  destruct (Rle_lt_dec (bpow radix2 (-500)) (fR x)) as [C|C].
  - assert (K : (bpow radix2 (-900) <= Rabs (exp (fR x) - 1))%R) by (rewrite Rabs_pos_eq by lra; eapply Rle_trans; [apply (bpow_le radix2 (-900) (-500)); lia|lra]).
    apply rnd_rel in K. rewrite (Rabs_pos_eq (exp (fR x) - 1)) in K by lra. change (bpow radix2 (-30)) with (/ 1073741824)%R. lra.
  - (* for tiny arguments the argument itself is nearest *)
    destruct (round_N_pt radix2 (SpecFloat.fexp 53 1024) (fun x => negb (Z.even x)) (exp (fR x) - 1)) as [_ N].
    specialize (N (fR x) (fmt_fR x)). change (round radix2 (SpecFloat.fexp 53 1024) ZnearestE (exp (fR x) - 1)) with (rnd (exp (fR x) - 1)) in N.
    eapply Rle_trans; [exact N|].
    assert (P500 : (bpow radix2 (-500) <= / 1099511627776)%R) by (change (/ 1099511627776)%R with (bpow radix2 (-40)); apply bpow_le; lia).
    assert (X : (exp (fR x) - 1 <= fR x + 2 * fR x * fR x)%R).
    { assert (exp (fR x) <= / (1 - fR x))%R by (apply exp_small; lra).
      assert (/ (1 - fR x) <= 1 + fR x + 2 * fR x * fR x)%R; [|lra].
      apply Rmult_le_reg_l with (1 - fR x)%R; [lra|]. rewrite Rinv_r by lra.
      set (z := fR x) in *. clear - H C P500. assert (0 <= z * z)%R by nra. assert (0 <= z * z * (1 - 2 * z))%R by (apply Rmult_le_pos; lra). lra. }
    rewrite Rabs_left1 by lra. change (bpow radix2 (-30)) with (/ 1073741824)%R.
    assert (2 * fR x * fR x <= fR x * / 1073741824)%R; [|lra]. rewrite (Rmult_comm 2), Rmult_assoc. apply Rmult_le_compat_l; lra.
Qed.
