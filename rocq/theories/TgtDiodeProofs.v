(** The diode target stays within bounds. *)
From Coq Require Import ZArith Bool Reals Lia Lra Psatz List.
From Flocq Require Import Core IEEE754.BinarySingleNaN.
From Verif Require Import PyBase F64 F64x CfgModel CfgHrvProofs CfgSrcProofs TgtModel TgtSpec TgtProofs.
Import ListNotations.
Open Scope Z_scope.

(** ** Reals *)
Lemma bpow_Z k z : 0 <= k -> 2 ^ k = z -> bpow radix2 k = IZR z.
Proof. intros H <-. symmetry. now apply (IZR_Zpower radix2). Qed.

Lemma exp_nat (n : nat) : (exp (INR n) <= 3 ^ n)%R.
Proof.
  induction n as [|n IH]; [simpl; rewrite exp_0; lra|]. rewrite S_INR, exp_plus, Rmult_comm. simpl pow.
  apply Rmult_le_compat; [left; apply exp_pos|left; apply exp_pos|apply exp_le_3|exact IH].
Qed.
Lemma exp_312 x : (x <= 312)%R -> (exp x <= bpow radix2 495)%R.
Proof.
  intros H. apply Rle_trans with (exp (INR 312)).
  - destruct (Rle_lt_or_eq_dec x 312 H) as [L| ->]; [left; apply exp_increasing; rewrite INR_IZR_INZ; exact L|right; now rewrite INR_IZR_INZ].
  - eapply Rle_trans; [apply exp_nat|]. rewrite pow_IZR. rewrite (bpow_Z 495 (2 ^ 495)) by (reflexivity || lia).
    apply IZR_le. apply Z.leb_le. vm_compute. reflexivity.
Qed.
Lemma ln_bpow k : 0 <= k -> (ln (bpow radix2 k) <= IZR k)%R.
Proof.
  intros H. rewrite <- (ln_exp (IZR k)).
  assert (E : (bpow radix2 k <= exp (IZR k))%R).
  { rewrite <- (Z2Nat.id k H). generalize (Z.to_nat k). intros n. induction n as [|n IH]; [change (1 <= exp 0)%R; rewrite exp_0; lra|].
    rewrite Nat2Z.inj_succ. unfold Z.succ. rewrite bpow_plus, plus_IZR, exp_plus.
    apply Rmult_le_compat; [apply bpow_ge_0|apply bpow_ge_0|exact IH|]. change (bpow radix2 1) with 2%R.
    assert (1 + 1 < exp 1)%R by (apply exp_ineq1; lra). lra. }
  destruct (Rle_lt_or_eq_dec _ _ E) as [L| ->]; [left; apply ln_increasing; [apply bpow_gt_0|exact L]|right; reflexivity].
Qed.
Lemma ln_mono x y : (0 < x)%R -> (x <= y)%R -> (ln x <= ln y)%R.
Proof. intros P H. destruct (Rle_lt_or_eq_dec x y H) as [L| ->]; [left; now apply ln_increasing|right; reflexivity]. Qed.
Lemma ln_nonneg y : (1 <= y)%R -> (0 <= ln y)%R.
Proof. intros H. rewrite <- ln_1. apply ln_mono; lra. Qed.
Lemma exp_mono x y : (x <= y)%R -> (exp x <= exp y)%R.
Proof. intros H. destruct (Rle_lt_or_eq_dec x y H) as [L| ->]; [left; now apply exp_increasing|right; reflexivity]. Qed.
(** [exp t <= 1 / (1 - t)]. *)
Lemma exp_small t : (0 <= t)%R -> (t < 1)%R -> (exp t <= / (1 - t))%R.
Proof.
  intros H L. assert (E : (1 - t <= exp (- t))%R).
  { destruct (Req_dec t 0) as [->|N]; [rewrite Ropp_0, exp_0; lra|]. left. replace (1 - t)%R with (1 + - t)%R by lra. apply exp_ineq1. lra. }
  rewrite <- (Ropp_involutive t) at 1. rewrite exp_Ropp. apply Rinv_le; lra.
Qed.
(** The exponential of a logarithm with a relative error. *)
Lemma exp_near y a : (1 <= y)%R -> (ln y <= 600)%R -> (0 <= a)%R -> (a <= ln y * (1 + / 536870912) + / 1000000000)%R ->
  (exp a <= y * (1 + / 262144))%R.
Proof.
  intros Hy HL Ha H. pose proof (ln_nonneg y Hy) as P.
  assert (T : (a <= ln y + / 500000)%R) by nra.
  apply Rle_trans with (exp (ln y + / 500000)); [now apply exp_mono|]. rewrite exp_plus, exp_ln by lra.
  apply Rmult_le_compat_l; [lra|]. eapply Rle_trans; [apply exp_small; lra|].
  apply Rmult_le_reg_l with (1 - / 500000)%R; [lra|]. rewrite Rinv_r by lra. lra.
Qed.

(** ** The thermal voltage *)
Lemma c1_ok : fin c1 = true /\ (/ 16 <= fR c1 <= / 15)%R.
Proof.
  destruct (cst c1 4634107423369880 (-56)) as [A B]; [vm_compute; reflexivity|]. split; [exact A|]. rewrite B.
  change (bpow radix2 (-56)) with (/ 72057594037927936)%R. lra.
Qed.
Lemma dec6 : fin (fdec 1 6) = true /\ (/ 1000001 <= fR (fdec 1 6) <= / 999999)%R.
Proof.
  assert (H : exists m e, B2SF (fdec 1 6) = SpecFloat.S754_finite false m e /\ (/ 1000001 <= IZR (Zpos m) * bpow radix2 e <= / 999999)%R).
  { exists 4722366482869645%positive, (-72). split; [vm_compute; reflexivity|].
    change (bpow radix2 (-72)) with (/ 4722366482869645213696)%R. lra. }
  destruct H as (m & e & H & B). destruct (cst _ m e H) as [A C]. split; [exact A|]. now rewrite C.
Qed.

Lemma rnd_up r : (0 <= r)%R -> (rnd r <= r * (1 + / 9007199254740992) + eta64)%R.
Proof. intros H. pose proof (rnd_err r) as E. rewrite (Rabs_pos_eq r H), u64_val in E. apply Rabs_le_inv in E. lra. Qed.
Lemma eta_bpow k : -900 <= k -> (eta64 <= bpow radix2 k * / 1000000000)%R.
Proof.
  intros H. apply Rle_trans with (bpow radix2 k * bpow radix2 (-100))%R.
  - unfold eta64. rewrite <- bpow_plus. apply bpow_le. lia.
  - apply Rmult_le_compat_l; [apply bpow_ge_0|]. change (bpow radix2 (-100)) with (/ 1267650600228229401496703205376)%R. lra.
Qed.
Lemma le_Big r k : k <= 1023 -> (0 <= r <= bpow radix2 k)%R -> (Rabs r <= Big)%R.
Proof. intros H [A B]. rewrite Rabs_pos_eq by exact A. eapply Rle_trans; [exact B|]. apply bpow_le. exact H. Qed.
Lemma rnd_le_bpow r k : -1000 <= k <= 1023 -> (r <= bpow radix2 k)%R -> (rnd r <= bpow radix2 k)%R.
Proof. intros H. apply rnd_le_fmt. apply generic_format_bpow. unfold SpecFloat.fexp, SpecFloat.emin. lia. Qed.
Lemma rnd_ge_bpow r k : -1000 <= k <= 1023 -> (bpow radix2 k <= r)%R -> (bpow radix2 k <= rnd r)%R.
Proof. intros H. apply rnd_ge. apply generic_format_bpow. unfold SpecFloat.fexp, SpecFloat.emin. lia. Qed.

(** ** A diode of usual size *)
Definition dt_ok (t : dtarget) : Prop :=
  fin (dt_IS t) = true /\ (bpow radix2 (-536) <= fR (dt_IS t) <= 512)%R
  /\ fin (dt_R t) = true /\ (/ 1024 <= fR (dt_R t) <= 1000000000)%R.

Lemma div_bounds a b lo hi : (0 <= a)%R -> (0 < lo)%R -> (lo <= b <= hi)%R -> (a / hi <= a / b <= a / lo)%R.
Proof. intros H L B. unfold Rdiv. split; apply Rmult_le_compat_l; try exact H; apply Rinv_le; lra. Qed.

Lemma diode_built m Vf If R c : expm1_ok m -> usual_diode Vf If R ->
  fle R (fdec 1 3) = false -> fle Vf (fdec 2 1) = false ->
  exists t, diode_init m Vf If R c = Ok t /\ dt_ok t /\ dt_R t = R /\ dt_ctrl t = c.
Proof.
  intros M ((FV & HV) & (FI & HI) & (FR & HR)) GR GV. destruct fz0 as [F0 R0]. destruct dec3 as [F3 D3]. destruct c1_ok as [FC HC].
  assert (D2 : fin (fdec 2 1) = true /\ (/ 5 <= fR (fdec 2 1))%R).
  { destruct (cst (fdec 2 1) 7205759403792794 (-55)) as [A B]; [vm_compute; reflexivity|]. split; [exact A|]. rewrite B.
    change (bpow radix2 (-55)) with (/ 36028797018963968)%R. lra. }
  destruct D2 as [F2 D2].
  assert (GI : fle If (fz 0) = false) by (apply fle_R_false; auto; rewrite R0; lra).
  unfold diode_init. rewrite GR, GV, GI. cbn [negb bind]. apply fle_R_false in GR, GV; auto.
  pose proof (div_bounds (fR Vf) (fR c1) (/ 16) (/ 15) ltac:(lra) ltac:(lra) HC) as DB.
  unfold Rdiv in DB at 1 3. rewrite !Rinv_inv in DB.
  destruct (fdiv_Big Vf c1 FV FC) as (a & EA & FA & RA); [lra| |].
  { apply (le_Big _ 10); [lia|]. change (bpow radix2 10) with 1024%R. lra. }
  assert (HA : (2 <= fR a <= 320)%R).
  { rewrite RA. split; [apply (rnd_ge_Z 2); [lia|lra]|apply (rnd_le_Z 320); [lia|lra]]. }
  assert (HA2 : (fR a <= 312)%R).
  { rewrite RA. apply (rnd_le_Z 312); [lia|]. destruct (cst c1 4634107423369880 (-56)) as [_ B]; [vm_compute; reflexivity|].
    assert (CL : (/ 15.6 <= fR c1)%R) by (rewrite B; change (bpow radix2 (-56)) with (/ 72057594037927936)%R; lra).
    apply Rle_trans with (20 * 15.6)%R; [|lra]. unfold Rdiv. apply Rmult_le_compat; [lra|left; apply Rinv_0_lt_compat; lra|lra|].
    replace 15.6%R with (/ / 15.6)%R by (rewrite Rinv_inv; lra). apply Rinv_le; lra. }
  rewrite EA. cbn [bind]. destruct (M a FA) as (e & EE & FE & HE); [lra|]. rewrite EE. cbn [bind].
  assert (XL : (3 <= exp (fR a))%R) by (assert (1 + fR a < exp (fR a))%R by (apply exp_ineq1; lra); lra).
  assert (XU : (exp (fR a) <= bpow radix2 495)%R) by now apply exp_312.
  assert (B30 : bpow radix2 (-30) = (/ 1073741824)%R) by reflexivity. rewrite B30 in HE. apply Rabs_le_inv in HE.
  assert (EB : (1 <= fR e <= bpow radix2 496)%R).
  { split; [lra|]. change 496 with (1 + 495). rewrite bpow_plus. change (bpow radix2 1) with 2%R. lra. }
  assert (P496 : (0 < bpow radix2 496)%R) by apply bpow_gt_0.
  assert (DI : (0 <= fR If)%R) by lra.
  pose proof (div_bounds (fR If) (fR e) 1 (bpow radix2 496) DI ltac:(lra) EB) as QB.
  assert (E1 : (/ bpow radix2 496 = bpow radix2 (-496))%R) by (symmetry; apply (bpow_opp radix2 496)).
  assert (LB : (bpow radix2 (-536) <= fR If / fR e)%R).
  { eapply Rle_trans; [|apply QB]. unfold Rdiv. rewrite E1. change (-536) with (-40 + -496). rewrite bpow_plus.
    apply Rmult_le_compat_r; [apply bpow_ge_0|]. change (bpow radix2 (-40)) with (/ 1099511627776)%R. lra. }
  assert (UB : (fR If / fR e <= 512)%R).
  { apply Rmult_le_reg_r with (fR e); [lra|]. unfold Rdiv. rewrite Rmult_assoc, Rinv_l by lra. lra. }
  pose proof (bpow_gt_0 radix2 (-536)) as P536.
  destruct (fdiv_Big If e FI FE) as (IS & EI & FIS & RIS); [lra| |].
  { apply (le_Big _ 9); [lia|]. change (bpow radix2 9) with 512%R. lra. }
  rewrite EI. cbn [bind]. eexists. split; [reflexivity|]. split; [|split; reflexivity].
  unfold dt_ok. cbn [dt_IS dt_R]. split; [exact FIS|]. split; [|split; [exact FR|lra]].
  rewrite RIS. split; [apply rnd_ge_bpow; [lia|exact LB]|]. apply (rnd_le_Z 512); [lia|exact UB].
Qed.

(** ** One pass: real-number estimates *)
Lemma est_x d D w RS RI x E : (0 <= D)%R -> (0 < RS)%R -> (RS * (1 - / 4503599627370496) <= RI)%R -> (w * RS = D)%R ->
  (0 <= d <= D * (1 + / 9007199254740992))%R -> (x <= d / RI * (1 + / 9007199254740992) + E)%R ->
  (x <= w * (1 + / 1000000000000000) + E)%R.
Proof.
  intros HD HR HI HW Hd Hx. assert (P : (0 < RI)%R) by lra. assert (HW0 : (0 <= w)%R) by nra.
  assert (Q : (d / RI <= w * (1 + / 2000000000000000))%R).
  { apply Rmult_le_reg_r with RI; [lra|]. unfold Rdiv. rewrite Rmult_assoc, Rinv_l, Rmult_1_r by lra.
    apply Rle_trans with (w * (1 + / 2000000000000000) * (RS * (1 - / 4503599627370496)))%R; [|apply Rmult_le_compat_l; [nra|lra]].
    replace (w * (1 + / 2000000000000000) * (RS * (1 - / 4503599627370496)))%R with (w * RS * ((1 + / 2000000000000000) * (1 - / 4503599627370496)))%R by ring.
    rewrite HW. apply Rle_trans with (D * (1 + / 9007199254740992))%R; [lra|]. apply Rmult_le_compat_l; lra. }
  clear - Hx Q HW0. lra.
Qed.

Lemma est_e w x y X e E : (0 <= w)%R -> (0 <= E <= / 1000000000)%R -> (x <= w * (1 + / 1000000000000000) + E)%R ->
  (y <= (1 + x) * (1 + / 9007199254740992))%R -> (1 <= X <= y * (1 + / 262144))%R -> (e <= (X - 1) * (1 + / 1073741824))%R ->
  (e <= w * (1 + / 65536) + / 65536)%R.
Proof. intros. lra. Qed.

Lemma est_id S w G R e i E : (0 < S)%R -> (0 < R)%R -> (0 <= w)%R -> (S * w = G)%R -> (0 <= E <= S * / 1000000000)%R ->
  (e <= w * (1 + / 65536) + / 65536)%R -> (i <= S * e * (1 + / 9007199254740992) + E)%R ->
  (i <= G * (1 + / 32768) + S * / 32768)%R.
Proof.
  intros HS HR Hw HG HE He Hi. assert (K : (S * e <= G * (1 + / 65536) + S * / 65536)%R).
  { apply Rle_trans with (S * (w * (1 + / 65536) + / 65536))%R; [apply Rmult_le_compat_l; lra|]. rewrite <- HG. lra. }
  assert (0 <= G)%R by (rewrite <- HG; nra). clear - K Hi HE H HS. lra.
Qed.

Lemma est_h V D RS A G R S s p h E : (0 <= V)%R -> (0 <= D)%R -> (0 < R)%R -> (0 < S)%R -> (R * A = V)%R -> (R * G = D)%R -> (R * S = RS)%R ->
  (0 <= E <= S * / 1000000000)%R -> (E <= RS * / 1000000000)%R ->
  (s <= (A + G) * (1 + / 16384) + S * / 16384)%R -> (p <= R * s * (1 + / 9007199254740992) + E)%R -> (h <= p / 2 * (1 + / 9007199254740992) + E)%R ->
  (h <= ((V + D) * (1 + / 8192) + RS * / 8192) / 2)%R.
Proof.
  intros HV HD HR HS HA HG HRS HE1 HE2 Hs Hp Hh.
  assert (K : (R * s <= (V + D) * (1 + / 16384) + RS * / 16384)%R).
  { apply Rle_trans with (R * ((A + G) * (1 + / 16384) + S * / 16384))%R; [apply Rmult_le_compat_l; lra|]. rewrite <- HA, <- HG, <- HRS. lra. }
  assert (0 < RS)%R by (rewrite <- HRS; nra). clear - K Hp Hh HE1 HE2 HV HD H. lra.
Qed.

(** ** One pass *)
Section Pass.
Variable m : pymath.
Hypothesis ML : log_ok m.
Hypothesis ME : expm1_ok m.
Variable t : dtarget.
Hypothesis T : dt_ok t.
Variable Vcc : f64.
Hypothesis FV : fin Vcc = true.
Hypothesis HV : (0 <= fR Vcc <= 10000)%R.

Let R := fR (dt_R t).
Let S := fR (dt_IS t).
Definition vd_ok (Vd : f64) : Prop := fin Vd = true /\ (0 <= fR Vcc - fR Vd <= 2 * fR Vcc + R * S)%R.

Lemma pass_ok Vd : vd_ok Vd -> exists Vd' IR ID b, diode_pass m t Vcc Vd = Ok (Vd', IR, ID, b) /\ vd_ok Vd'
  /\ proper IR /\ proper ID /\ (fR IR + fR ID <= 4 * (fR Vcc / R + S))%R.
Proof.
  intros [FD HD]. destruct T as (FS & HS & FR & HR). fold S in HS. fold R in HR. destruct c1_ok as [FC HC]. destruct fz0 as [F0 R0].
  destruct (fz_ok 1) as [F1 R1]; [lia|]. destruct (fz_ok 2) as [F2 R2]; [lia|].
  pose proof (bpow_gt_0 radix2 (-536)) as P536. assert (PS : (0 < S)%R) by lra. assert (PR : (0 < R)%R) by lra.
  set (D := (fR Vcc - fR Vd)%R) in *.
  assert (PRS : (0 < R * S)%R) by now apply Rmult_lt_0_compat.
  assert (RSu : (R * S <= 512000000000)%R) by (apply Rle_trans with (1000000000 * 512)%R; [apply Rmult_le_compat; lra|lra]).
  assert (RSl : (bpow radix2 (-546) <= R * S)%R).
  { change (-546) with (-10 + -536). rewrite bpow_plus. apply Rmult_le_compat; try apply bpow_ge_0; [|lra]. change (bpow radix2 (-10)) with (/ 1024)%R. lra. }
  pose proof eta64_pos as EP.
  assert (ES : (eta64 <= S * / 1000000000)%R) by (pose proof (eta_bpow (-536) ltac:(lia)); lra).
  assert (ERS : (eta64 <= R * S * / 1000000000)%R) by (pose proof (eta_bpow (-546) ltac:(lia)); lra).
  assert (E1 : (eta64 <= / 1000000000)%R) by (pose proof (eta_bpow 0 ltac:(lia)) as K; change (bpow radix2 0) with 1%R in K; lra).
  assert (HDu : (D <= 600000000000)%R) by (unfold D in *; lra).
  unfold diode_pass.
  (* difference of the voltages *)
  destruct (fsub_Big Vcc Vd FV FD) as [D1 D2]; [fold D; apply (le_Big _ 60); [lia|change (bpow radix2 60) with 1152921504606846976%R; lra]|]. fold D in D2.
  assert (Hd : (0 <= fR (fsub Vcc Vd) <= D * (1 + / 9007199254740992))%R).
  { rewrite D2. split; [apply rnd_nonneg; lra|]. pose proof (rnd_sub_err (fR Vcc) (fR Vd) (fmt_fR _) (fmt_fR _)) as K. fold D in K.
    rewrite (Rabs_pos_eq D), u64_val in K by lra. apply Rabs_le_inv in K. lra. }
  set (d := fsub Vcc Vd) in *. clearbody d.
  (* R * I_S *)
  destruct (fmul_Big (dt_R t) (dt_IS t) FR FS) as [I1 I2]; [fold R S; apply (le_Big _ 60); [lia|change (bpow radix2 60) with 1152921504606846976%R; lra]|].
  fold R S in I2. set (ri := fmul (dt_R t) (dt_IS t)) in *. clearbody ri.
  assert (HI : (R * S * (1 - / 4503599627370496) <= fR ri)%R).
  { assert (K : (bpow radix2 (-900) <= Rabs (R * S))%R) by (rewrite Rabs_pos_eq by lra; eapply Rle_trans; [apply (bpow_le radix2 (-900) (-546)); lia|exact RSl]).
    apply rnd_rel in K. rewrite <- I2, (Rabs_pos_eq (R * S)) in K by lra. apply Rabs_le_inv in K. lra. }
  assert (HIl : (bpow radix2 (-546) <= fR ri)%R) by (rewrite I2; apply rnd_ge_bpow; [lia|exact RSl]).
  pose proof (bpow_gt_0 radix2 (-546)) as P546. assert (PI : (0 < fR ri)%R) by lra.
  assert (QX : (0 <= fR d / fR ri <= bpow radix2 590)%R).
  { pose proof (Rinv_le _ _ P546 HIl) as K. rewrite <- bpow_opp in K. change (- -546) with 546 in K.
    assert (0 < / fR ri)%R by now apply Rinv_0_lt_compat. unfold Rdiv. split; [apply Rmult_le_pos; lra|].
    change 590 with (44 + 546). rewrite bpow_plus. apply Rmult_le_compat; [lra|lra| |exact K].
    change (bpow radix2 44) with 17592186044416%R. lra. }
  destruct (fdiv_Big d ri D1 I1) as (x & EX & FX & RX); [lra|apply (le_Big _ 590); [lia|exact QX]|]. rewrite EX. cbn [bind].
  set (w := (D / (R * S))%R).
  assert (Hw : (w * (R * S) = D)%R) by (unfold w; field; lra).
  assert (Hw0 : (0 <= w)%R) by (unfold w; apply Rmult_le_pos; [lra|left; now apply Rinv_0_lt_compat]).
  assert (HX0 : (0 <= fR x)%R) by (rewrite RX; apply rnd_nonneg; lra).
  assert (HXb : (fR x <= bpow radix2 590)%R) by (rewrite RX; apply rnd_le_bpow; [lia|lra]).
  assert (HX : (fR x <= w * (1 + / 1000000000000000) + eta64)%R).
  { apply (est_x (fR d) D w (R * S) (fR ri)); try assumption; try lra. rewrite RX. apply rnd_up. exact (proj1 QX). }
  clearbody w. clear EX RX QX.
  (* the logarithm *)
  assert (B590 : (1 + bpow radix2 590 <= bpow radix2 591)%R).
  { change 591 with (1 + 590). rewrite bpow_plus. change (bpow radix2 1) with 2%R.
    pose proof (bpow_le radix2 0 590 ltac:(lia)) as K. change (bpow radix2 0) with 1%R in K. lra. }
  destruct (fadd_Big (fz 1) x F1 FX) as [Y1 Y2]; [rewrite R1; apply (le_Big _ 591); [lia|lra]|]. rewrite R1 in Y2.
  assert (HY1 : (1 <= fR (fadd (fz 1) x))%R) by (rewrite Y2; apply (rnd_ge_Z 1); [lia|lra]).
  assert (HYb : (fR (fadd (fz 1) x) <= bpow radix2 591)%R) by (rewrite Y2; apply rnd_le_bpow; [lia|lra]).
  assert (HY : (fR (fadd (fz 1) x) <= (1 + fR x) * (1 + / 9007199254740992))%R).
  { rewrite Y2. pose proof (rnd_add_err 1 (fR x) (fmt_IZR 1 ltac:(lia)) (fmt_fR x)) as K. rewrite (Rabs_pos_eq (1 + fR x)), u64_val in K by lra.
    apply Rabs_le_inv in K. lra. }
  set (y := fadd (fz 1) x) in *. clearbody y. clear Y2.
  destruct (ML y Y1 HY1) as (l & EL & FL & HL). rewrite EL. cbn [bind]. clear EL.
  pose proof (ln_nonneg _ HY1) as LN. assert (LU : (ln (fR y) <= 591)%R).
  { eapply Rle_trans; [apply ln_mono; [lra|exact HYb]|]. apply (ln_bpow 591). lia. }
  change (bpow radix2 (-30)) with (/ 1073741824)%R in HL. apply Rabs_le_inv in HL.
  set (ly := ln (fR y)) in *.
  assert (HL0 : (0 <= fR l <= 592)%R) by lra.
  (* the diode voltage *)
  assert (CL0 : (0 <= fR c1 * fR l <= 592)%R) by (split; [apply Rmult_le_pos; lra|]; apply Rle_trans with (1 * 592)%R; [apply Rmult_le_compat; lra|lra]).
  destruct (fmul_Big c1 l FC FL) as [V1 V2]; [apply (le_Big _ 20); [lia|change (bpow radix2 20) with 1048576%R; lra]|].
  assert (HV1 : (0 <= fR (fmul c1 l) <= 592)%R) by (rewrite V2; split; [apply rnd_nonneg; lra|apply (rnd_le_Z 592); [lia|lra]]).
  assert (HVu : (fR (fmul c1 l) <= fR c1 * fR l * (1 + / 9007199254740992) + eta64)%R) by (rewrite V2; apply rnd_up; lra).
  set (vd := fmul c1 l) in *. clearbody vd. clear V2.
  (* current through the resistor *)
  destruct (fsub_Big Vcc vd FV V1) as [S1 S2].
  { apply Rle_trans with (bpow radix2 20); [apply Rabs_le; change (bpow radix2 20) with 1048576%R; lra|apply bpow_le; lia]. }
  assert (S3 : (fR (fsub Vcc vd) <= fR Vcc)%R) by (rewrite S2; apply rnd_le_self; lra).
  assert (S4 : (-592 <= fR (fsub Vcc vd))%R) by (rewrite S2; apply (rnd_ge_Z (-592)); [lia|lra]).
  set (s := fsub Vcc vd) in *. clearbody s. clear S2.
  assert (IRi : (0 < / R <= 1024)%R).
  { split; [now apply Rinv_0_lt_compat|]. replace 1024%R with (/ / 1024)%R by lra. apply Rinv_le; lra. }
  set (A := (fR Vcc / R)%R). assert (HA : (R * A = fR Vcc)%R) by (unfold A; field; lra).
  assert (HA0 : (0 <= A <= 20000000)%R) by (unfold A, Rdiv; split; [apply Rmult_le_pos; lra|]; apply Rle_trans with (10000 * 1024)%R; [apply Rmult_le_compat; lra|lra]).
  assert (SA : (fR s / R <= A)%R) by (unfold A, Rdiv; apply Rmult_le_compat_r; lra).
  assert (SB : (- 1000000 <= fR s / R)%R).
  { unfold Rdiv. apply Rle_trans with (-592 * 1024)%R; [lra|]. apply Rle_trans with (-592 * / R)%R; [lra|apply Rmult_le_compat_r; lra]. }
  destruct (fdiv_Big s (dt_R t) S1 FR) as (ir & EIR & FIR & RIR); [fold R; lra| |].
  { fold R. apply Rle_trans with (bpow radix2 60); [apply Rabs_le; change (bpow radix2 60) with 1152921504606846976%R; lra|apply bpow_le; lia]. }
  fold R in RIR. rewrite EIR. cbn [bind]. clear EIR.
  assert (HIR : (fR ir <= A * (1 + / 9007199254740992) + eta64)%R).
  { rewrite RIR. eapply Rle_trans; [apply rnd_le; exact SA|]. apply rnd_up. lra. }
  assert (PIR : proper (fmax (fz 0) ir)) by (split; [now apply fmax_fin|rewrite fmax_R by assumption; rewrite R0; apply Rmax_l]).
  assert (UIR : (fR (fmax (fz 0) ir) <= A * (1 + / 9007199254740992) + eta64)%R).
  { rewrite fmax_R by assumption. rewrite R0. apply Rmax_lub; [|exact HIR]. clear - HA0 EP. lra. }
  set (IR := fmax (fz 0) ir) in *. clearbody IR. clear RIR HIR.
  (* current through the diode *)
  assert (CI : (15 <= / fR c1 <= 16)%R).
  { split; [replace 15%R with (/ / 15)%R by lra|replace 16%R with (/ / 16)%R by lra]; apply Rinv_le; lra. }
  assert (DV : (0 <= fR vd / fR c1 <= fR l * (1 + / 9007199254740992) + 16 * eta64)%R).
  { unfold Rdiv. split; [apply Rmult_le_pos; lra|].
    apply Rle_trans with ((fR c1 * fR l * (1 + / 9007199254740992) + eta64) * / fR c1)%R; [apply Rmult_le_compat_r; lra|].
    rewrite Rmult_plus_distr_r. apply Rplus_le_compat; [right; field; lra|]. rewrite Rmult_comm. apply Rmult_le_compat_r; lra. }
  destruct (fdiv_Big vd c1 V1 FC) as (a & EA & FA & RA); [lra|apply (le_Big _ 20); [lia|change (bpow radix2 20) with 1048576%R; lra]|].
  rewrite EA. cbn [bind]. clear EA.
  assert (HA1 : (0 <= fR a)%R) by (rewrite RA; apply rnd_nonneg; lra).
  assert (HA2 : (fR a <= ly * (1 + / 536870912) + / 1000000000)%R).
  { rewrite RA. eapply Rle_trans; [apply rnd_up; lra|].
    assert (E2 : (eta64 <= / 1000000000 * / 1000000000)%R).
    { pose proof (eta_bpow (-40) ltac:(lia)) as K. change (bpow radix2 (-40)) with (/ 1099511627776)%R in K. lra. }
    clear - DV HL E2 LN EP. lra. }
  assert (HA3 : (fR a <= 600)%R) by (clear - HA2 LU LN; lra).
  destruct (ME a FA) as (e & EE & FE & HE); [lra|]. rewrite EE. cbn [bind]. clear EE.
  change (bpow radix2 (-30)) with (/ 1073741824)%R in HE. apply Rabs_le_inv in HE.
  assert (HX1 : (1 <= exp (fR a))%R) by (rewrite <- exp_0; now apply exp_mono).
  assert (HX2 : (exp (fR a) <= fR y * (1 + / 262144))%R) by (apply exp_near; [lra|fold ly; lra|exact HA1|exact HA2]).
  set (X := exp (fR a)) in *. clearbody X ly. clear RA DV.
  assert (HE0 : (0 <= fR e)%R) by lra.
  assert (HEu : (fR e <= w * (1 + / 65536) + / 65536)%R).
  { apply (est_e w (fR x) (fR y) X (fR e) eta64); try lra. }
  set (G := (D / R)%R). assert (HG : (R * G = D)%R) by (unfold G; field; lra).
  assert (HSw : (S * w = G)%R).
  { apply Rmult_eq_reg_l with R; [|lra]. rewrite HG, <- Hw. ring. }
  assert (HG0 : (0 <= G)%R) by (rewrite <- HSw; apply Rmult_le_pos; lra).
  assert (HG1 : (G <= 1000000000000000)%R) by (unfold G, Rdiv; apply Rle_trans with (600000000000 * 1024)%R; [apply Rmult_le_compat; lra|lra]).
  assert (SE0 : (0 <= S * fR e)%R) by (apply Rmult_le_pos; lra).
  assert (SE : (S * fR e <= G * (1 + / 65536) + S * / 65536)%R).
  { apply Rle_trans with (S * (w * (1 + / 65536) + / 65536))%R; [apply Rmult_le_compat_l; lra|]. rewrite <- HSw. right. ring. }
  destruct (fmul_Big (dt_IS t) e FS FE) as [M1 M2].
  { fold S. apply (le_Big _ 60); [lia|]. change (bpow radix2 60) with 1152921504606846976%R. clear - SE SE0 HG1 HG0 HS. lra. }
  fold S in M2.
  assert (HID : (fR (fmul (dt_IS t) e) <= G * (1 + / 32768) + S * / 32768)%R).
  { apply (est_id S w G R (fR e) _ eta64); try assumption; try lra. rewrite M2. apply rnd_up. exact SE0. }
  assert (PID : proper (fmax (fz 0) (fmul (dt_IS t) e))) by (split; [now apply fmax_fin|rewrite fmax_R by assumption; rewrite R0; apply Rmax_l]).
  assert (UID : (fR (fmax (fz 0) (fmul (dt_IS t) e)) <= G * (1 + / 32768) + S * / 32768)%R).
  { rewrite fmax_R by assumption. rewrite R0. apply Rmax_lub; [|exact HID]. clear - HG0 PS. lra. }
  set (ID := fmax (fz 0) (fmul (dt_IS t) e)) in *. clearbody ID. clear M1 M2 HID.
  (* the mean *)
  destruct PIR as [IR1 IR2]. destruct PID as [ID1 ID2].
  assert (SUM : (0 <= fR IR + fR ID <= 1152921504606846976)%R) by (clear - IR2 ID2 UIR UID HA0 HG1 HG0 HS E1; lra).
  destruct (fadd_Big IR ID IR1 ID1) as [Q1 Q2]; [apply (le_Big _ 60); [lia|exact SUM]|].
  assert (HQ0 : (0 <= fR (fadd IR ID))%R) by (rewrite Q2; apply rnd_nonneg; lra).
  assert (HQ : (fR (fadd IR ID) <= (A + G) * (1 + / 16384) + S * / 16384)%R).
  { rewrite Q2. pose proof (rnd_add_err (fR IR) (fR ID) (fmt_fR _) (fmt_fR _)) as K.
    rewrite (Rabs_pos_eq (fR IR + fR ID)), u64_val in K by lra. apply Rabs_le_inv in K. clear - K UIR UID HA0 HG0 PS ES. lra. }
  set (q := fadd IR ID) in *. clearbody q. clear Q2.
  assert (RQ0 : (0 <= R * fR q)%R) by (apply Rmult_le_pos; lra).
  assert (RQ : (R * fR q <= (fR Vcc + D) * (1 + / 16384) + R * S * / 16384)%R).
  { apply Rle_trans with (R * ((A + G) * (1 + / 16384) + S * / 16384))%R; [apply Rmult_le_compat_l; lra|]. rewrite <- HA, <- HG. right. ring. }
  destruct (fmul_Big (dt_R t) q FR Q1) as [N1 N2].
  { fold R. apply (le_Big _ 60); [lia|]. change (bpow radix2 60) with 1152921504606846976%R. clear - RQ RQ0 HV HDu RSu HD. lra. }
  fold R in N2.
  assert (HN0 : (0 <= fR (fmul (dt_R t) q))%R) by (rewrite N2; apply rnd_nonneg; lra).
  assert (HN : (fR (fmul (dt_R t) q) <= R * fR q * (1 + / 9007199254740992) + eta64)%R) by (rewrite N2; apply rnd_up; lra).
  set (p := fmul (dt_R t) q) in *. clearbody p. clear N2.
  destruct (fdiv_Big p (fz 2) N1 F2) as (h & EH & FH & RH).
  { rewrite R2. lra. }
  { rewrite R2. apply (le_Big _ 60); [lia|]. change (bpow radix2 60) with 1152921504606846976%R. clear - HN HN0 RQ RQ0 HV HDu RSu HD E1. lra. }
  rewrite R2 in RH. rewrite EH. cbn [bind]. clear EH.
  assert (HH0 : (0 <= fR h)%R) by (rewrite RH; apply rnd_nonneg; lra).
  assert (HH : (fR h <= ((fR Vcc + D) * (1 + / 8192) + R * S * / 8192) / 2)%R).
  { apply (est_h (fR Vcc) D (R * S) A G R S (fR q) (fR p) (fR h) eta64); try assumption; try reflexivity; try lra. rewrite RH. apply rnd_up. lra. }
  clear RH.
  destruct (fsub_Big Vcc h FV FH) as [W1 W2].
  { apply Rle_trans with (bpow radix2 60); [apply Rabs_le; change (bpow radix2 60) with 1152921504606846976%R; clear - HH HH0 HV HDu RSu; lra|apply bpow_le; lia]. }
  pose proof (rnd_sub_err (fR Vcc) (fR h) (fmt_fR _) (fmt_fR _)) as K. rewrite <- W2, u64_val in K.
  assert (K2 : (Rabs (fR Vcc - fR h) <= fR Vcc + fR h)%R) by (apply Rabs_le; lra).
  assert (K3 : (fR (fsub Vcc h) <= fR Vcc)%R) by (rewrite W2; apply rnd_le_self; lra).
  apply Rabs_le_inv in K. do 4 eexists. split; [reflexivity|]. split; [|split; [split; assumption|split; [split; assumption|]]].
  - split; [exact W1|]. split; [lra|]. clear - K K2 HH HH0 HV HD PRS. unfold D in *. clearbody R S. set (RS := (R * S)%R) in *. clearbody RS. lra.
  - clear - UIR UID HA HG HD HA0 HG0 PS PR ES PRS. unfold D in *. fold A.
    assert (GB : (G <= 2 * A + S)%R).
    { apply Rmult_le_reg_l with R; [exact PR|]. rewrite HG. replace (R * (2 * A + S))%R with (2 * (R * A) + R * S)%R by ring. rewrite HA. lra. }
    clearbody A G R S. lra.
Qed.
End Pass.

Lemma loop_ok m t Vcc n : log_ok m -> expm1_ok m -> dt_ok t -> fin Vcc = true -> (0 <= fR Vcc <= 10000)%R ->
  forall Vd, vd_ok t Vcc Vd -> exists IR ID, diode_loop m t n Vcc Vd = Ok (IR, ID)
    /\ proper IR /\ proper ID /\ (fR IR + fR ID <= 4 * (fR Vcc / fR (dt_R t) + fR (dt_IS t)))%R.
Proof.
  intros ML ME T FV HV. induction n as [|n IH]; intros Vd HD;
    destruct (pass_ok m ML ME t T Vcc FV HV Vd HD) as (V & IR & ID & b & E & H1 & H2 & H3 & H4);
    cbn [diode_loop]; rewrite E; cbn [bind].
  - exists IR, ID. auto.
  - destruct b; [exists IR, ID; auto|]. now apply IH.
Qed.

Theorem diode_bounded m t uV pg : log_ok m -> expm1_ok m -> dt_ok t -> 0 <= uV < 2 ^ 32 ->
  exists i, diode_step m t uV pg = Ok i /\ proper i
    /\ (fR i <= 3000000000 * (IZR uV / 1000000 / fR (dt_R t) + fR (dt_IS t)))%R
    /\ (pg = false -> dt_ctrl t = true -> fR i = 0%R).
Proof.
  intros ML ME T HU. pose proof T as (FS & HS & FR & HR). destruct fz0 as [F0 R0]. destruct dec6 as [F6 D6].
  destruct (fz_ok 2) as [F2 R2]; [lia|]. destruct (fz_ok (10 ^ 9)) as [F9 R9]; [lia|]. change (IZR (10 ^ 9)) with 1000000000%R in R9.
  destruct (fz_ok uV) as [FU RU]; [lia|]. assert (HU2 : (0 <= IZR uV <= 4294967296)%R) by (split; apply IZR_le; lia).
  pose proof (bpow_gt_0 radix2 (-536)) as P536. assert (PS : (0 < fR (dt_IS t))%R) by lra.
  assert (PRi : (0 < / fR (dt_R t) <= 1024)%R).
  { split; [apply Rinv_0_lt_compat; lra|]. replace 1024%R with (/ / 1024)%R by lra. apply Rinv_le; lra. }
  unfold diode_step. destruct (pg || negb (dt_ctrl t)) eqn:O.
  - rewrite py_float_ok by lia. rewrite bind_ok. cbv beta zeta.
    assert (VB : (0 <= IZR uV * fR (fdec 1 6) <= 4296)%R) by (split; [apply Rmult_le_pos; lra|]; apply Rle_trans with (4294967296 * / 999999)%R; [apply Rmult_le_compat; lra|lra]).
    assert (VB2 : (IZR uV * fR (fdec 1 6) <= IZR uV / 1000000 * (1 + / 999999))%R).
    { apply Rle_trans with (IZR uV * / 999999)%R; [apply Rmult_le_compat_l; lra|lra]. }
    destruct (fmul_Big (fz uV) (fdec 1 6) FU F6) as [V1 V2]; [rewrite RU; apply (le_Big _ 20); [lia|change (bpow radix2 20) with 1048576%R; lra]|].
    rewrite RU in V2. set (Vcc := fmul (fz uV) (fdec 1 6)) in *. clearbody Vcc.
    assert (HV : (0 <= fR Vcc <= 10000)%R) by (rewrite V2; split; [apply rnd_nonneg; lra|apply (rnd_le_Z 10000); [lia|lra]]).
    assert (HV2 : (fR Vcc <= IZR uV / 1000000 * (1 + / 900000) + eta64)%R).
    { rewrite V2. eapply Rle_trans; [apply rnd_up; lra|]. lra. }
    destruct (fdiv_Big Vcc (fz 2) V1 F2) as (Vd & ED & FD & RD); [rewrite R2; lra|rewrite R2; apply (le_Big _ 20); [lia|change (bpow radix2 20) with 1048576%R; lra]|].
    rewrite R2 in RD. rewrite ED, bind_ok.
    assert (VD : vd_ok t Vcc Vd).
    { split; [exact FD|]. assert (0 <= fR Vd)%R by (rewrite RD; apply rnd_nonneg; lra).
      assert (fR Vd <= fR Vcc)%R by (rewrite RD; apply rnd_le_self; lra).
      assert (0 <= fR (dt_R t) * fR (dt_IS t))%R by (apply Rmult_le_pos; lra). lra. }
    destruct (loop_ok m t Vcc 9 ML ME T V1 HV Vd VD) as (IR & ID & EL & [I1 I2] & [J1 J2] & B). rewrite EL, bind_ok. cbn [fst snd].
    assert (QB : (fR Vcc / fR (dt_R t) <= IZR uV / 1000000 / fR (dt_R t) * (1 + / 900000) + 1024 * eta64)%R).
    { unfold Rdiv at 1. apply Rle_trans with ((IZR uV / 1000000 * (1 + / 900000) + eta64) * / fR (dt_R t))%R; [apply Rmult_le_compat_r; lra|].
      rewrite Rmult_plus_distr_r. apply Rplus_le_compat; [right; unfold Rdiv; ring|]. rewrite Rmult_comm. apply Rmult_le_compat_r; [left; apply eta64_pos|lra]. }
    assert (QB2 : (0 <= IZR uV / 1000000 / fR (dt_R t) <= 5000000)%R).
    { unfold Rdiv. split; [apply Rmult_le_pos; lra|]. apply Rle_trans with (4294967296 * / 1000000 * 1024)%R; [apply Rmult_le_compat; lra|lra]. }
    set (q := (IZR uV / 1000000 / fR (dt_R t))%R) in *. set (S := fR (dt_IS t)) in *.
    assert (ES : (eta64 <= S * / 1000000000)%R) by (pose proof (eta_bpow (-536) ltac:(lia)); lra).
    pose proof eta64_pos as EP.
    assert (B2 : (fR IR + fR ID <= 5 * (q + S))%R) by lra. clear B QB V2 VB VB2 RD ED EL.
    destruct (fadd_Big IR ID I1 J1) as [A1 A2]; [apply (le_Big _ 40); [lia|change (bpow radix2 40) with 1099511627776%R; lra]|].
    assert (HA : (0 <= fR (fadd IR ID) <= 5.1 * (q + S))%R).
    { rewrite A2. split; [apply rnd_nonneg; lra|]. eapply Rle_trans; [apply rnd_up; lra|]. lra. }
    set (a := fadd IR ID) in *. clearbody a.
    destruct (fmul_Big (fz (10 ^ 9)) a F9 A1) as [M1 M2]; [rewrite R9; apply (le_Big _ 60); [lia|change (bpow radix2 60) with 1152921504606846976%R; lra]|].
    rewrite R9 in M2.
    assert (HM : (0 <= fR (fmul (fz (10 ^ 9)) a) <= 5200000000 * (q + S))%R).
    { rewrite M2. split; [apply rnd_nonneg; lra|]. eapply Rle_trans; [apply rnd_up; lra|]. lra. }
    set (p := fmul (fz (10 ^ 9)) a) in *. clearbody p.
    destruct (fdiv_Big p (fz 2) M1 F2) as (i & EI & FI & RI); [rewrite R2; lra|rewrite R2; apply (le_Big _ 60); [lia|change (bpow radix2 60) with 1152921504606846976%R; lra]|].
    rewrite R2 in RI. exists i. split; [exact EI|]. split; [split; [exact FI|rewrite RI; apply rnd_nonneg; lra]|]. split.
    + rewrite RI. eapply Rle_trans; [apply rnd_up; lra|]. lra.
    + intros -> C. rewrite C in O. discriminate O.
  - exists (fz 0). split; [reflexivity|]. split; [split; [exact F0|rewrite R0; lra]|]. split; [|intros _ _; exact R0]. rewrite R0.
    apply Rmult_le_pos; [lra|]. apply Rplus_le_le_0_compat; [|lra]. unfold Rdiv. repeat apply Rmult_le_pos; lra.
Qed.
