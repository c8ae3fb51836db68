(** How far the current of the diode target is from that of the circuit. *)
From Coq Require Import ZArith Bool Reals Lia Lra Psatz List.
From Flocq Require Import Core IEEE754.BinarySingleNaN.
From Verif Require Import PyBase F64 F64x CfgModel CfgHrvProofs CfgSrcProofs TgtModel TgtSpec TgtProofs TgtDiodeProofs.
Import ListNotations.
Open Scope Z_scope.

Lemma thermal_c1 : (Rabs (fR c1 - thermal) <= / 1000000000000000)%R /\ (0.0643 <= thermal <= 0.06432)%R.
Proof.
  destruct (cst c1 4634107423369880 (-56)) as [A B]; [vm_compute; reflexivity|]. rewrite B.
  change (bpow radix2 (-56)) with (/ 72057594037927936)%R. unfold thermal. split; [apply Rabs_le|]; lra.
Qed.

(** ** Logarithms *)
Lemma ln_diff a b : (0 < a)%R -> (a <= b)%R -> (0 <= ln b - ln a <= (b - a) / a)%R.
Proof.
  intros P H. assert (E : (ln b - ln a = ln (b / a))%R) by (unfold Rdiv; rewrite ln_mult by (try apply Rinv_0_lt_compat; lra); rewrite ln_Rinv by lra; ring).
  split; [pose proof (ln_mono a b P H); lra|]. rewrite E. replace ((b - a) / a)%R with (b / a - 1)%R by (field; lra).
  assert (Q : (1 <= b / a)%R) by (apply Rmult_le_reg_r with a; [exact P|]; unfold Rdiv; rewrite Rmult_assoc, Rinv_l by lra; lra).
  rewrite <- (ln_exp (b / a - 1)). apply ln_mono; [lra|].
  destruct (Req_dec (b / a - 1) 0) as [Z|N]; [rewrite Z, exp_0; lra|]. assert (1 + (b / a - 1) < exp (b / a - 1))%R by (apply exp_ineq1; exact N). lra.
Qed.
Lemma ln_rel y z k : (0 < z)%R -> (0 <= k <= / 4)%R -> (z * (1 - k) <= y <= z * (1 + k))%R -> (Rabs (ln y - ln z) <= 2 * k)%R.
Proof.
  intros P K [A B]. assert (Py : (0 < y)%R) by nra. apply Rabs_le. destruct (Rle_lt_dec z y) as [C|C].
  - pose proof (ln_diff z y P C) as L. assert ((y - z) / z <= k)%R; [|lra].
    apply Rmult_le_reg_r with z; [exact P|]. unfold Rdiv. rewrite Rmult_assoc, Rinv_l by lra. lra.
  - pose proof (ln_diff y z Py ltac:(lra)) as L. assert ((z - y) / y <= 2 * k)%R; [|lra].
    apply Rmult_le_reg_r with y; [exact Py|]. unfold Rdiv. rewrite Rmult_assoc, Rinv_l by lra.
    assert (K2 : (z * k * 2 * (1 - k) <= 2 * k * y)%R) by nra. assert (z * k <= z * k * 2 * (1 - k))%R by nra. lra.
Qed.
Lemma exp_low y a : (1 <= y)%R -> (ln y <= 600)%R -> (ln y * (1 - / 536870912) - / 1000000000 <= a)%R -> (y * (1 - / 262144) <= exp a)%R.
Proof.
  intros Hy HL H. pose proof (ln_nonneg y Hy) as P. assert (T : (ln y + - / 500000 <= a)%R) by nra.
  apply Rle_trans with (exp (ln y + - / 500000)); [|now apply exp_mono]. rewrite exp_plus, exp_ln by lra.
  apply Rmult_le_compat_l; [lra|]. assert (1 + - / 500000 < exp (- / 500000))%R by (apply exp_ineq1; lra). lra.
Qed.

Lemma rnd_dn r : (0 <= r)%R -> (r * (1 - / 9007199254740992) - eta64 <= rnd r)%R.
Proof. intros H. pose proof (rnd_err r) as E. rewrite (Rabs_pos_eq r H), u64_val in E. apply Rabs_le_inv in E. lra. Qed.

(** The loop ends when both currents agree to one millionth. *)
Definition agree (IR ID : f64) : bool :=
  match fdiv IR ID with Ok q => flt (fabs (fsub q (fz 1))) (fdec 1 6) | Err _ => false end.
Lemma agree_ok IR ID : fin IR = true -> fin ID = true -> (0 <= fR ID)%R -> agree IR ID = true -> (Rabs (fR IR - fR ID) <= / 900000 * fR ID)%R.
Proof.
  intros FI FJ HJ. unfold agree, fdiv. destruct fz0 as [F0 R0]. destruct (feq ID (fz 0)) eqn:Z; [discriminate|].
  apply feq_R_false in Z; auto. rewrite R0 in Z. assert (PJ : (0 < fR ID)%R) by lra. intros C.
  destruct dec6 as [F6 D6]. destruct (fz_ok 1) as [F1 R1]; [lia|]. set (q := idiv IR ID) in *.
  assert (FS : fin (fsub q (fz 1)) = true).
  { set (x := fsub q (fz 1)) in *. clearbody x. destruct x as [s|s| |s mx ex B]; try reflexivity; exfalso.
    - change (flt (B754_infinity false) (fdec 1 6) = true) in C. destruct (flt_inf_l _ F6) as [_ K]. congruence.
    - change (flt B754_nan (fdec 1 6) = true) in C. rewrite flt_nan_l in C. discriminate C. }
  destruct (fsub_fin_inv _ _ FS) as (FQ & _ & RS). rewrite R1 in RS.
  apply flt_R in C; [|now rewrite fabs_fin|exact F6]. rewrite fabs_R, RS in C.
  assert (RQ : fR q = rnd (fR IR / fR ID)).
  { unfold q in *. destruct (rnd_huge_cases (fR IR / fR ID)) as [H|H]; [apply idiv_ok; auto|]. rewrite (idiv_big _ _ Z H) in FQ. discriminate. }
  pose proof (rnd_sub_err (fR q) 1 (fmt_fR _) (fmt_IZR 1 ltac:(lia))) as K1. rewrite u64_val in K1.
  pose proof (rnd_err (fR IR / fR ID)) as K2. rewrite <- RQ, u64_val in K2.
  pose proof (eta_bpow 0 ltac:(lia)) as E0. change (bpow radix2 0) with 1%R in E0.
  assert (Q1 : (Rabs (fR q - 1) <= / 990000)%R).
  { set (z := (fR q - 1)%R) in *. assert (Rabs z <= Rabs (rnd z) + Rabs (rnd z - z))%R.
    { replace z with (rnd z - (rnd z - z))%R at 1 by ring. eapply Rle_trans; [apply Rabs_triang|]. rewrite Rabs_Ropp. lra. } lra. }
  assert (Q2 : (Rabs (fR IR / fR ID - 1) <= / 900000)%R).
  { set (z := (fR IR / fR ID)%R) in *. apply Rabs_le_inv in Q1.
    assert (ZB : (Rabs z <= 3)%R).
    { assert (Rabs z <= Rabs (fR q) + Rabs (fR q - z))%R.
      { replace z with (fR q - (fR q - z))%R at 1 by ring. eapply Rle_trans; [apply Rabs_triang|]. rewrite Rabs_Ropp. lra. }
      assert (Rabs (fR q) <= 2)%R by (apply Rabs_le; lra). lra. }
    assert (K3 : (Rabs (fR q - z) <= / 100000000)%R) by lra. apply Rabs_le_inv in K3. apply Rabs_le. lra. }
  replace (fR IR - fR ID)%R with ((fR IR / fR ID - 1) * fR ID)%R by (field; lra).
  rewrite Rabs_mult, (Rabs_pos_eq (fR ID)) by lra. apply Rmult_le_compat_r; lra.
Qed.

(** ** One pass *)
Section Est.
Variable m : pymath.
Hypothesis ML : log_ok m.
Hypothesis ME : expm1_ok m.
Variable t : dtarget.
Hypothesis T : dt_ok t.
Variable Vcc : f64.
Hypothesis FV : fin Vcc = true.
Hypothesis HV : (0 <= fR Vcc <= 10000)%R.
(** The exact scale current and the exact voltage. *)
Variable S0 : Rdefinitions.R.
Hypothesis HS0 : (S0 * (1 - / 1000000) <= fR (dt_IS t) <= S0 * (1 + / 1000000))%R.
Variable V0 : Rdefinitions.R.
Hypothesis HV0 : (Rabs (fR Vcc - V0) <= / 100000000)%R.

Let R := fR (dt_R t).
Let S := fR (dt_IS t).
(** What a pass computes: the voltage at the resistor that follows from the diode. *)
Definition psi (D : Rdefinitions.R) : Rdefinitions.R := (V0 - thermal * ln (1 + D / (R * S0)))%R.
Definition phi (D : Rdefinitions.R) : Rdefinitions.R := ((Rmax 0 (psi D) + D) / 2)%R.

Lemma pass_est Vd : vd_ok t Vcc Vd -> exists Vd' IR ID b, diode_pass m t Vcc Vd = Ok (Vd', IR, ID, b) /\ vd_ok t Vcc Vd'
  /\ proper IR /\ proper ID /\ (fR IR + fR ID <= 4 * (fR Vcc / R + S))%R
  /\ (let D := (fR Vcc - fR Vd)%R in
      Rabs (R * fR IR - Rmax 0 (psi D)) <= / 500000
      /\ Rabs (R * fR ID - D) <= (D + R * S) * / 32768
      /\ Rabs (fR Vcc - fR Vd' - (R * fR IR + R * fR ID) / 2) <= (fR Vcc + R * S) * / 1000000 + / 1000000000)%R
  /\ (b = true -> Rabs (fR IR - fR ID) <= / 900000 * fR ID)%R.
Proof.
  intros VD. destruct (pass_ok m ML ME t T Vcc FV HV Vd VD) as (Vd' & IR & ID & b & E & VD' & PIR & PID & BND).
  exists Vd', IR, ID, b. split; [exact E|]. split; [exact VD'|]. split; [exact PIR|]. split; [exact PID|]. split; [exact BND|].
  revert E. unfold diode_pass.
  destruct VD as [FD HD]. fold R S in HD.
  destruct T as (FS & HS & FR & HR). fold S in HS, HS0. fold R in HR. destruct c1_ok as [FC HC]. destruct fz0 as [F0 R0].
  destruct thermal_c1 as [TC TB].
  destruct (fz_ok 1) as [F1 R1]; [lia|]. destruct (fz_ok 2) as [F2 R2]; [lia|].
  pose proof (bpow_gt_0 radix2 (-536)) as P536. assert (PS : (0 < S)%R) by lra. assert (PR : (0 < R)%R) by lra.
  assert (PS0 : (0 < S0)%R) by lra.
  set (D := (fR Vcc - fR Vd)%R) in *.
  assert (PRS : (0 < R * S)%R) by now apply Rmult_lt_0_compat.
  assert (PRS0 : (0 < R * S0)%R) by now apply Rmult_lt_0_compat.
  assert (RSu : (R * S <= 512000000000)%R) by (apply Rle_trans with (1000000000 * 512)%R; [apply Rmult_le_compat; lra|lra]).
  assert (RSl : (bpow radix2 (-546) <= R * S)%R).
  { change (-546) with (-10 + -536). rewrite bpow_plus. apply Rmult_le_compat; try apply bpow_ge_0; [|lra]. change (bpow radix2 (-10)) with (/ 1024)%R. lra. }
  pose proof eta64_pos as EP.
  assert (ES : (eta64 <= S * / 1000000000)%R) by (pose proof (eta_bpow (-536) ltac:(lia)); lra).
  assert (ERS : (eta64 <= R * S * / 1000000000)%R) by (pose proof (eta_bpow (-546) ltac:(lia)); lra).
  assert (E1 : (eta64 <= / 1000000000)%R) by (pose proof (eta_bpow 0 ltac:(lia)) as K; change (bpow radix2 0) with 1%R in K; lra).
  assert (E2 : (eta64 <= / 1000000000 * / 1000000000)%R).
  { pose proof (eta_bpow (-40) ltac:(lia)) as K. change (bpow radix2 (-40)) with (/ 1099511627776)%R in K. lra. }
  assert (HDu : (D <= 600000000000)%R) by (unfold D in *; lra).
  (* difference of the voltages *)
  destruct (fsub_Big Vcc Vd FV FD) as [D1 D2]; [fold D; apply (le_Big _ 60); [lia|change (bpow radix2 60) with 1152921504606846976%R; lra]|]. fold D in D2.
  assert (Hd : (D * (1 - / 9007199254740992) <= fR (fsub Vcc Vd) <= D * (1 + / 9007199254740992))%R).
  { rewrite D2. pose proof (rnd_sub_err (fR Vcc) (fR Vd) (fmt_fR _) (fmt_fR _)) as K. fold D in K.
    rewrite (Rabs_pos_eq D), u64_val in K by lra. apply Rabs_le_inv in K. lra. }
  set (d := fsub Vcc Vd) in *. clearbody d. clear D2.
  (* R * I_S *)
  destruct (fmul_Big (dt_R t) (dt_IS t) FR FS) as [I1 I2]; [fold R S; apply (le_Big _ 60); [lia|change (bpow radix2 60) with 1152921504606846976%R; lra]|].
  fold R S in I2. set (ri := fmul (dt_R t) (dt_IS t)) in *. clearbody ri.
  assert (HI : (R * S * (1 - / 4503599627370496) <= fR ri <= R * S * (1 + / 4503599627370496))%R).
  { assert (K : (bpow radix2 (-900) <= Rabs (R * S))%R) by (rewrite Rabs_pos_eq by lra; eapply Rle_trans; [apply (bpow_le radix2 (-900) (-546)); lia|exact RSl]).
    apply rnd_rel in K. rewrite <- I2, (Rabs_pos_eq (R * S)) in K by lra. apply Rabs_le_inv in K. lra. }
  assert (HIl : (bpow radix2 (-546) <= fR ri)%R) by (rewrite I2; apply rnd_ge_bpow; [lia|exact RSl]).
  pose proof (bpow_gt_0 radix2 (-546)) as P546. assert (PI : (0 < fR ri)%R) by lra.
  assert (QX : (0 <= fR d / fR ri <= bpow radix2 590)%R).
  { pose proof (Rinv_le _ _ P546 HIl) as K. rewrite <- bpow_opp in K. change (- -546) with 546 in K.
    assert (0 < / fR ri)%R by now apply Rinv_0_lt_compat. unfold Rdiv. split; [apply Rmult_le_pos; lra|].
    change 590 with (44 + 546). rewrite bpow_plus. apply Rmult_le_compat; [lra|lra| |exact K].
    change (bpow radix2 44) with 17592186044416%R. lra. }
  destruct (fdiv_Big d ri D1 I1) as (x & EX & FX & RX); [lra|apply (le_Big _ 590); [lia|exact QX]|]. rewrite EX. cbn [bind].
  set (w := (D / (R * S))%R).
  assert (Hw : (w * (R * S) = D)%R) by (unfold w; field; lra).
  assert (Hw0 : (0 <= w)%R) by (unfold w; apply Rmult_le_pos; [lra|left; now apply Rinv_0_lt_compat]).
  set (w0 := (D / (R * S0))%R).
  assert (Hw00 : (0 <= w0)%R) by (unfold w0; apply Rmult_le_pos; [lra|left; now apply Rinv_0_lt_compat]).
  assert (HX0 : (0 <= fR x)%R) by (rewrite RX; apply rnd_nonneg; lra).
  assert (HXb : (fR x <= bpow radix2 590)%R) by (rewrite RX; apply rnd_le_bpow; [lia|lra]).
  assert (QW : (w * (1 - / 1000000000000000) <= fR d / fR ri <= w * (1 + / 1000000000000000))%R).
  { split; apply Rmult_le_reg_r with (fR ri); try exact PI; replace (fR d / fR ri * fR ri)%R with (fR d) by (field; lra).
    - apply Rle_trans with (w * (1 - / 1000000000000000) * (R * S * (1 + / 4503599627370496)))%R; [apply Rmult_le_compat_l; [nra|lra]|].
      replace (w * (1 - / 1000000000000000) * (R * S * (1 + / 4503599627370496)))%R with (D * ((1 - / 1000000000000000) * (1 + / 4503599627370496)))%R by (rewrite <- Hw; ring).
      apply Rle_trans with (D * (1 - / 9007199254740992))%R; [apply Rmult_le_compat_l; lra|lra].
    - apply Rle_trans with (w * (1 + / 1000000000000000) * (R * S * (1 - / 4503599627370496)))%R; [|apply Rmult_le_compat_l; [nra|lra]].
      replace (w * (1 + / 1000000000000000) * (R * S * (1 - / 4503599627370496)))%R with (D * ((1 + / 1000000000000000) * (1 - / 4503599627370496)))%R by (rewrite <- Hw; ring).
      apply Rle_trans with (D * (1 + / 9007199254740992))%R; [lra|apply Rmult_le_compat_l; lra]. }
  assert (HX : (w * (1 - / 100000000000000) - eta64 <= fR x <= w * (1 + / 100000000000000) + eta64)%R).
  { pose proof (rnd_up _ (proj1 QX)) as KU. pose proof (rnd_dn _ (proj1 QX)) as KD. rewrite <- RX in KU, KD. clear - KU KD QW Hw0. lra. }
  assert (WW : (w0 * (1 - / 900000) <= w <= w0 * (1 + / 900000))%R).
  { assert (SR : (w * S = w0 * S0)%R) by (unfold w, w0; field; lra).
    split; apply Rmult_le_reg_r with S; try exact PS; rewrite SR.
    - apply Rle_trans with (w0 * (1 - / 900000) * (S0 * (1 + / 1000000)))%R; [apply Rmult_le_compat_l; [nra|lra]|].
      replace (w0 * (1 - / 900000) * (S0 * (1 + / 1000000)))%R with (w0 * S0 * ((1 - / 900000) * (1 + / 1000000)))%R by ring.
      rewrite <- (Rmult_1_r (w0 * S0)) at 2. apply Rmult_le_compat_l; [nra|lra].
    - apply Rle_trans with (w0 * (1 + / 900000) * (S0 * (1 - / 1000000)))%R; [|apply Rmult_le_compat_l; [nra|lra]].
      replace (w0 * (1 + / 900000) * (S0 * (1 - / 1000000)))%R with (w0 * S0 * ((1 + / 900000) * (1 - / 1000000)))%R by ring.
      rewrite <- (Rmult_1_r (w0 * S0)) at 1. apply Rmult_le_compat_l; [nra|lra]. }
  clear EX RX QX QW.
  (* the logarithm *)
  assert (B590 : (1 + bpow radix2 590 <= bpow radix2 591)%R).
  { change 591 with (1 + 590). rewrite bpow_plus. change (bpow radix2 1) with 2%R.
    pose proof (bpow_le radix2 0 590 ltac:(lia)) as K. change (bpow radix2 0) with 1%R in K. lra. }
  destruct (fadd_Big (fz 1) x F1 FX) as [Y1 Y2]; [rewrite R1; apply (le_Big _ 591); [lia|lra]|]. rewrite R1 in Y2.
  assert (HY1 : (1 <= fR (fadd (fz 1) x))%R) by (rewrite Y2; apply (rnd_ge_Z 1); [lia|lra]).
  assert (HYb : (fR (fadd (fz 1) x) <= bpow radix2 591)%R) by (rewrite Y2; apply rnd_le_bpow; [lia|lra]).
  assert (HY : ((1 + fR x) * (1 - / 9007199254740992) <= fR (fadd (fz 1) x) <= (1 + fR x) * (1 + / 9007199254740992))%R).
  { rewrite Y2. pose proof (rnd_add_err 1 (fR x) (fmt_IZR 1 ltac:(lia)) (fmt_fR x)) as K. rewrite (Rabs_pos_eq (1 + fR x)), u64_val in K by lra.
    apply Rabs_le_inv in K. lra. }
  set (y := fadd (fz 1) x) in *. clearbody y. clear Y2.
  destruct (ML y Y1 HY1) as (l & EL & FL & HL). rewrite EL. cbn [bind]. clear EL.
  pose proof (ln_nonneg _ HY1) as LN. assert (LU : (ln (fR y) <= 591)%R).
  { eapply Rle_trans; [apply ln_mono; [lra|exact HYb]|]. apply (ln_bpow 591). lia. }
  change (bpow radix2 (-30)) with (/ 1073741824)%R in HL. apply Rabs_le_inv in HL.
  assert (LW : (Rabs (ln (fR y) - ln (1 + w0)) <= 2 * / 800000)%R).
  { apply ln_rel; [lra|lra|]. clear - HY HX WW Hw00 E1. lra. }
  apply Rabs_le_inv in LW.
  set (ly := ln (fR y)) in *.
  assert (HL0 : (0 <= fR l <= 592)%R) by lra.
  (* the diode voltage *)
  assert (CL0 : (0 <= fR c1 * fR l <= 592)%R) by (split; [apply Rmult_le_pos; lra|]; apply Rle_trans with (1 * 592)%R; [apply Rmult_le_compat; lra|lra]).
  destruct (fmul_Big c1 l FC FL) as [V1 V2]; [apply (le_Big _ 20); [lia|change (bpow radix2 20) with 1048576%R; lra]|].
  assert (HV1 : (0 <= fR (fmul c1 l) <= 592)%R) by (rewrite V2; split; [apply rnd_nonneg; lra|apply (rnd_le_Z 592); [lia|lra]]).
  assert (HVu : (fR c1 * fR l * (1 - / 9007199254740992) - eta64 <= fR (fmul c1 l) <= fR c1 * fR l * (1 + / 9007199254740992) + eta64)%R).
  { rewrite V2. split; [apply rnd_dn; lra|apply rnd_up; lra]. }
  set (vd := fmul c1 l) in *. clearbody vd. clear V2.
  assert (VT : (Rabs (fR vd - thermal * ln (1 + w0)) <= / 2000000)%R).
  { apply Rabs_le_inv in TC.
    assert (TL : (- / 2200000 <= thermal * (fR l - ln (1 + w0)) <= / 2200000)%R).
    { assert (LL : (- / 300000 <= fR l - ln (1 + w0) <= / 300000)%R) by (clear - HL LW LU LN; lra). clear - TB LL. split; nra. }
    assert (CT : (- / 1000000000000 <= (fR c1 - thermal) * fR l <= / 1000000000000)%R) by (clear - TC HL0; split; nra).
    replace (fR vd - thermal * ln (1 + w0))%R with ((fR vd - fR c1 * fR l) + (fR c1 - thermal) * fR l + thermal * (fR l - ln (1 + w0)))%R by ring.
    apply Rabs_le. clear - HVu TL CT CL0 E1. lra. }
  (* current through the resistor *)
  destruct (fsub_Big Vcc vd FV V1) as [S1 S2].
  { apply Rle_trans with (bpow radix2 20); [apply Rabs_le; change (bpow radix2 20) with 1048576%R; lra|apply bpow_le; lia]. }
  assert (S3 : (Rabs (fR (fsub Vcc vd) - (fR Vcc - fR vd)) <= / 100000000)%R).
  { rewrite S2. pose proof (rnd_sub_err (fR Vcc) (fR vd) (fmt_fR _) (fmt_fR _)) as K. rewrite u64_val in K.
    assert (K2 : (Rabs (fR Vcc - fR vd) <= 10592)%R) by (apply Rabs_le; lra). clear - K K2. lra. }
  assert (S4 : (-592 <= fR (fsub Vcc vd) <= 10000)%R).
  { rewrite S2. split; [apply (rnd_ge_Z (-592)); [lia|lra]|apply (rnd_le_Z 10000); [lia|lra]]. }
  set (s := fsub Vcc vd) in *. clearbody s. clear S2.
  assert (IRi : (0 < / R <= 1024)%R).
  { split; [now apply Rinv_0_lt_compat|]. replace 1024%R with (/ / 1024)%R by lra. apply Rinv_le; lra. }
  set (A := (fR s / R)%R). assert (HA : (R * A = fR s)%R) by (unfold A; field; lra).
  assert (HAb : (- 1000000 <= A <= 20000000)%R).
  { unfold A, Rdiv. split.
    - apply Rle_trans with (-592 * 1024)%R; [lra|]. apply Rle_trans with (-592 * / R)%R; [lra|apply Rmult_le_compat_r; lra].
    - apply Rle_trans with (10000 * / R)%R; [apply Rmult_le_compat_r; lra|lra]. }
  destruct (fdiv_Big s (dt_R t) S1 FR) as (ir & EIR & FIR & RIR); [fold R; lra| |].
  { fold R. fold A. apply Rle_trans with (bpow radix2 60); [apply Rabs_le; change (bpow radix2 60) with 1152921504606846976%R; lra|apply bpow_le; lia]. }
  fold R in RIR. fold A in RIR. rewrite EIR. cbn [bind]. clear EIR.
  assert (HIR : (Rabs (R * fR ir - fR s) <= / 10000000)%R).
  { pose proof (rnd_err A) as K. rewrite <- RIR, u64_val in K.
    replace (R * fR ir - fR s)%R with (R * (fR ir - A))%R by (rewrite <- HA; ring). rewrite Rabs_mult, (Rabs_pos_eq R) by lra.
    apply Rle_trans with (R * (/ 9007199254740992 * Rabs A + eta64))%R; [apply Rmult_le_compat_l; lra|].
    replace (R * (/ 9007199254740992 * Rabs A + eta64))%R with (/ 9007199254740992 * (R * Rabs A) + R * eta64)%R by ring.
    assert (K2 : (R * Rabs A <= 10000)%R) by (rewrite <- (Rabs_pos_eq R) by lra; rewrite <- Rabs_mult, HA; apply Rabs_le; lra).
    assert (K3 : (R * eta64 <= / 1000000000)%R) by (apply Rle_trans with (1000000000 * (/ 1000000000 * / 1000000000))%R; [apply Rmult_le_compat; lra|lra]).
    clear - K2 K3. lra. }
  set (IR0 := fmax (fz 0) ir) in *.
  assert (EIR0 : (R * fR IR0 = Rmax 0 (R * fR ir))%R).
  { unfold IR0. rewrite fmax_R by assumption. rewrite R0, <- RmaxRmult by lra. now rewrite Rmult_0_r. }
  assert (C1 : (Rabs (R * fR IR0 - Rmax 0 (psi D)) <= / 500000)%R).
  { rewrite EIR0. unfold psi. fold w0. apply Rabs_le_inv in HIR, S3, VT. pose proof (Rabs_le_inv _ _ HV0) as HV0'.
    assert (K : (- / 500000 <= R * fR ir - (V0 - thermal * ln (1 + w0)) <= / 500000)%R) by (clear - HIR S3 VT HV0'; lra).
    set (p := (R * fR ir)%R) in *. set (q := (V0 - thermal * ln (1 + w0))%R) in *. clear - K. clearbody p q. apply Rabs_le. unfold Rmax. destruct (Rle_dec 0 p), (Rle_dec 0 q); lra. }
  assert (FI0 : fin IR0 = true) by (now apply fmax_fin).
  assert (FI0p : (0 <= fR IR0)%R) by (unfold IR0; rewrite fmax_R by assumption; rewrite R0; apply Rmax_l).
  assert (FIb : (R * fR IR0 <= fR Vcc + / 1000000)%R).
  { rewrite EIR0. apply Rmax_lub; [lra|]. apply Rabs_le_inv in HIR, S3. clear - HIR S3 HV1. lra. }
  clearbody IR0. clear RIR HIR EIR0.
  (* current through the diode *)
  assert (CI : (15 <= / fR c1 <= 16)%R).
  { split; [replace 15%R with (/ / 15)%R by lra|replace 16%R with (/ / 16)%R by lra]; apply Rinv_le; lra. }
  assert (DV : (fR l * (1 - / 9007199254740992) - 16 * eta64 <= fR vd / fR c1 <= fR l * (1 + / 9007199254740992) + 16 * eta64)%R /\ (0 <= fR vd / fR c1)%R).
  { unfold Rdiv. split; [split|apply Rmult_le_pos; lra].
    - apply Rle_trans with ((fR c1 * fR l * (1 - / 9007199254740992) - eta64) * / fR c1)%R; [|apply Rmult_le_compat_r; lra].
      replace ((fR c1 * fR l * (1 - / 9007199254740992) - eta64) * / fR c1)%R with (fR l * (1 - / 9007199254740992) - eta64 * / fR c1)%R by (field; lra).
      assert (eta64 * / fR c1 <= eta64 * 16)%R by (apply Rmult_le_compat_l; lra). lra.
    - apply Rle_trans with ((fR c1 * fR l * (1 + / 9007199254740992) + eta64) * / fR c1)%R; [apply Rmult_le_compat_r; lra|].
      replace ((fR c1 * fR l * (1 + / 9007199254740992) + eta64) * / fR c1)%R with (fR l * (1 + / 9007199254740992) + eta64 * / fR c1)%R by (field; lra).
      assert (eta64 * / fR c1 <= eta64 * 16)%R by (apply Rmult_le_compat_l; lra). lra. }
  destruct DV as [DV DV0].
  destruct (fdiv_Big vd c1 V1 FC) as (a & EA & FA & RA); [lra|apply (le_Big _ 20); [lia|change (bpow radix2 20) with 1048576%R; lra]|].
  rewrite EA. cbn [bind]. clear EA.
  assert (HA1 : (0 <= fR a)%R) by (rewrite RA; apply rnd_nonneg; lra).
  assert (HA2 : (ly * (1 - / 536870912) - / 1000000000 <= fR a <= ly * (1 + / 536870912) + / 1000000000)%R).
  { pose proof (rnd_up _ DV0) as KU. pose proof (rnd_dn _ DV0) as KD. rewrite <- RA in KU, KD. clear - DV HL E2 LN EP KU KD. lra. }
  assert (HA3 : (fR a <= 600)%R) by (clear - HA2 LU LN; lra).
  destruct (ME a FA) as (e & EE & FE & HE); [lra|]. rewrite EE. cbn [bind]. clear EE.
  change (bpow radix2 (-30)) with (/ 1073741824)%R in HE. apply Rabs_le_inv in HE.
  assert (HX1 : (1 <= exp (fR a))%R) by (rewrite <- exp_0; now apply exp_mono).
  assert (HX2 : (exp (fR a) <= fR y * (1 + / 262144))%R) by (apply exp_near; [lra|fold ly; lra|exact HA1|apply HA2]).
  assert (HX3 : (fR y * (1 - / 262144) <= exp (fR a))%R) by (apply exp_low; [lra|fold ly; lra|apply HA2]).
  set (X := exp (fR a)) in *. clearbody X ly. clear RA DV.
  assert (HE0 : (0 <= fR e)%R) by lra.
  assert (HEu : (w * (1 - / 65536) - / 65536 <= fR e <= w * (1 + / 65536) + / 65536)%R) by (clear - HE HX1 HX2 HX3 HY HX E1 Hw0 HX0; lra).
  set (G := (D / R)%R). assert (HG : (R * G = D)%R) by (unfold G; field; lra).
  assert (HSw : (S * w = G)%R).
  { apply Rmult_eq_reg_l with R; [|lra]. rewrite HG, <- Hw. ring. }
  assert (HG0 : (0 <= G)%R) by (rewrite <- HSw; apply Rmult_le_pos; lra).
  assert (HG1 : (G <= 1000000000000000)%R) by (unfold G, Rdiv; apply Rle_trans with (600000000000 * 1024)%R; [apply Rmult_le_compat; lra|lra]).
  assert (SE0 : (0 <= S * fR e)%R) by (apply Rmult_le_pos; lra).
  assert (SE : (G * (1 - / 65536) - S * / 65536 <= S * fR e <= G * (1 + / 65536) + S * / 65536)%R).
  { split.
    - apply Rle_trans with (S * (w * (1 - / 65536) - / 65536))%R; [rewrite <- HSw; right; ring|apply Rmult_le_compat_l; lra].
    - apply Rle_trans with (S * (w * (1 + / 65536) + / 65536))%R; [apply Rmult_le_compat_l; lra|rewrite <- HSw; right; ring]. }
  destruct (fmul_Big (dt_IS t) e FS FE) as [M1 M2].
  { fold S. apply (le_Big _ 60); [lia|]. change (bpow radix2 60) with 1152921504606846976%R. clear - SE SE0 HG1 HG0 HS. lra. }
  fold S in M2.
  assert (M0 : (0 <= fR (fmul (dt_IS t) e))%R) by (rewrite M2; apply rnd_nonneg; exact SE0).
  assert (HID : (G * (1 - / 33000) - S * / 33000 <= fR (fmul (dt_IS t) e) <= G * (1 + / 33000) + S * / 33000)%R).
  { pose proof (rnd_up _ SE0) as KU. pose proof (rnd_dn _ SE0) as KD. rewrite <- M2 in KU, KD. clear - KU KD SE SE0 ES HG0 PS. lra. }
  set (ID0 := fmax (fz 0) (fmul (dt_IS t) e)) in *.
  assert (EID0 : fR ID0 = fR (fmul (dt_IS t) e)).
  { unfold ID0. rewrite fmax_R by assumption. rewrite R0. apply Rmax_right. exact M0. }
  assert (FJ0 : fin ID0 = true) by (now apply fmax_fin).
  rewrite <- EID0 in HID, M0. clearbody ID0. clear EID0 M1 M2.
  assert (C2 : (Rabs (R * fR ID0 - D) <= (D + R * S) * / 33000)%R).
  { apply Rabs_le. rewrite <- HG.
    split; [apply Rle_trans with (R * (G * (1 - / 33000) - S * / 33000) - R * G)%R; [right; field|]|apply Rle_trans with (R * (G * (1 + / 33000) + S * / 33000) - R * G)%R; [|right; field]];
      apply Rplus_le_compat_r, Rmult_le_compat_l; lra. }
  (* the mean *)
  pose proof (Rabs_le_inv _ _ C2) as C2'.
  assert (RD0 : (0 <= R * fR ID0)%R) by (apply Rmult_le_pos; lra). assert (RI0 : (0 <= R * fR IR0)%R) by (apply Rmult_le_pos; lra).
  assert (IRb : (fR IR0 <= 20000000)%R).
  { apply Rmult_le_reg_l with R; [lra|]. clear - FIb HV HR. nra. }
  assert (SUM : (0 <= fR IR0 + fR ID0 <= 1152921504606846976)%R) by (clear - IRb FI0p M0 HID HG1 HG0 HS; lra).
  destruct (fadd_Big IR0 ID0 FI0 FJ0) as [Q1 Q2]; [apply (le_Big _ 60); [lia|exact SUM]|].
  assert (HQ : ((fR IR0 + fR ID0) * (1 - / 9007199254740992) <= fR (fadd IR0 ID0) <= (fR IR0 + fR ID0) * (1 + / 9007199254740992))%R).
  { rewrite Q2. pose proof (rnd_add_err (fR IR0) (fR ID0) (fmt_fR _) (fmt_fR _)) as K.
    rewrite (Rabs_pos_eq (fR IR0 + fR ID0)), u64_val in K by lra. apply Rabs_le_inv in K. clear - K. lra. }
  set (q := fadd IR0 ID0) in *. clearbody q. clear Q2.
  set (W := (R * fR IR0 + R * fR ID0)%R) in *.
  assert (HW0 : (0 <= W)%R) by (unfold W; lra).
  assert (RQ : (W * (1 - / 9007199254740992) <= R * fR q <= W * (1 + / 9007199254740992))%R).
  { unfold W. rewrite <- Rmult_plus_distr_l. split.
    - rewrite Rmult_assoc. apply Rmult_le_compat_l; lra.
    - rewrite Rmult_assoc. apply Rmult_le_compat_l; lra. }
  assert (WB : (W <= 4 * fR Vcc + 2 * (R * S) + / 1000000)%R) by (unfold W; clear - C2' FIb HD PRS HV; lra).
  assert (WB2 : (W <= 1200000000000)%R) by (clear - WB HV RSu; lra).
  destruct (fmul_Big (dt_R t) q FR Q1) as [N1 N2].
  { fold R. apply (le_Big _ 60); [lia|]. change (bpow radix2 60) with 1152921504606846976%R. clear - RQ HW0 WB2. lra. }
  fold R in N2.
  assert (RQ0 : (0 <= R * fR q)%R) by (clear - RQ HW0; lra).
  assert (HN : (R * fR q * (1 - / 9007199254740992) - eta64 <= fR (fmul (dt_R t) q) <= R * fR q * (1 + / 9007199254740992) + eta64)%R).
  { rewrite N2. split; [apply rnd_dn|apply rnd_up]; exact RQ0. }
  assert (HN0 : (0 <= fR (fmul (dt_R t) q))%R) by (rewrite N2; apply rnd_nonneg; lra).
  set (p := fmul (dt_R t) q) in *. clearbody p. clear N2.
  destruct (fdiv_Big p (fz 2) N1 F2) as (h & EH & FH & RH).
  { rewrite R2. lra. }
  { rewrite R2. apply (le_Big _ 60); [lia|]. change (bpow radix2 60) with 1152921504606846976%R. clear - HN HN0 RQ RQ0 WB2 HW0 E1. lra. }
  rewrite R2 in RH. rewrite EH. cbn [bind]. clear EH.
  assert (P2 : (0 <= fR p / 2)%R) by (clear - HN0; lra).
  assert (HH : (Rabs (fR h - W / 2) <= W * / 1000000000000 + 2 * eta64)%R).
  { pose proof (rnd_up _ P2) as KU. pose proof (rnd_dn _ P2) as KD. rewrite <- RH in KU, KD. apply Rabs_le. clear - KU KD HN RQ HW0 EP. lra. }
  assert (HH0 : (0 <= fR h)%R) by (rewrite RH; now apply rnd_nonneg).
  clear RH.
  apply Rabs_le_inv in HH.
  destruct (fsub_Big Vcc h FV FH) as [W1 W2].
  { apply Rle_trans with (bpow radix2 60); [apply Rabs_le; change (bpow radix2 60) with 1152921504606846976%R; clear - HH HH0 HV WB2 E1; lra|apply bpow_le; lia]. }
  pose proof (rnd_sub_err (fR Vcc) (fR h) (fmt_fR _) (fmt_fR _)) as K. rewrite <- W2, u64_val in K.
  assert (K2 : (Rabs (fR Vcc - fR h) <= fR Vcc + fR h)%R) by (apply Rabs_le; lra).
  apply Rabs_le_inv in K.
  fold (agree IR0 ID0).
  intros E. assert (EQ : Vd' = fsub Vcc h /\ IR = IR0 /\ ID = ID0 /\ b = agree IR0 ID0) by (repeat split; congruence).
  clear E. destruct EQ as (-> & -> & -> & ->). split.
  - split; [exact C1|]. split; [apply Rle_trans with ((D + R * S) * / 33000)%R; [exact C2|apply Rmult_le_compat_l; lra]|].
    fold W. apply Rabs_le. clear - K K2 HH HH0 HW0 WB HV PRS ERS E1. lra.
  - now apply agree_ok.
Qed.
End Est.
