(** Convergence of the diode target, and where it fails. *)
From Coq Require Import ZArith Bool Reals Lia Lra Psatz List.
From Flocq Require Import Core IEEE754.BinarySingleNaN.
From Verif Require Import PyBase F64 F64x CfgModel CfgHrvProofs CfgSrcProofs TgtModel TgtSpec TgtProofs TgtDiodeProofs TgtSolveProofs.
Import ListNotations.
Open Scope Z_scope.

(** ** The iteration over the reals *)
Lemma contract t S0 V0 Ds D : (0 < fR (dt_R t) * S0)%R -> psi t S0 V0 Ds = Ds -> (thermal <= Ds)%R -> (thermal / 2 <= D)%R ->
  (Rabs (phi t S0 V0 D - Ds) <= Rabs (D - Ds) / 2 /\ 3 / 4 * thermal <= phi t S0 V0 D
   /\ Rabs (phi t S0 V0 D - Ds) <= Rabs (Rmax 0 (psi t S0 V0 D) - D) / 2)%R.
Proof.
  intros PS E H1 H2. destruct thermal_c1 as [_ TB]. unfold phi. set (rs := (fR (dt_R t) * S0)%R) in *.
  assert (LD : forall a b, (0 <= a)%R -> (a <= b)%R -> (0 <= psi t S0 V0 a - psi t S0 V0 b <= thermal * ((b - a) / (rs + a)))%R).
  { intros a b Ha Hab. unfold psi. fold rs.
    assert (A1 : (0 <= a / rs)%R) by (apply Rmult_le_pos; [exact Ha|left; now apply Rinv_0_lt_compat]).
    assert (A2 : (a / rs <= b / rs)%R) by (apply Rmult_le_compat_r; [left; now apply Rinv_0_lt_compat|exact Hab]).
    pose proof (ln_diff (1 + a / rs) (1 + b / rs) ltac:(lra) ltac:(lra)) as L.
    replace ((1 + b / rs - (1 + a / rs)) / (1 + a / rs))%R with ((b - a) / (rs + a))%R in L by (field; lra).
    set (p := ln (1 + a / rs)) in *. set (q := ln (1 + b / rs)) in *. set (z := ((b - a) / (rs + a))%R) in *. clearbody p q z.
    clear - L TB. split; nra. }
  assert (DV : forall x y k, (0 <= x)%R -> (0 < k)%R -> (k <= y)%R -> (x / y <= x / k)%R).
  { intros x y k Hx Hk Hy. apply Rmult_le_compat_l; [exact Hx|]. apply Rinv_le; lra. }
  destruct (Rle_lt_dec D Ds) as [C|C].
  - destruct (LD D Ds ltac:(lra) C) as [L1 L2]. rewrite E in L1, L2.
    assert (L3 : (thermal * ((Ds - D) / (rs + D)) <= 2 * (Ds - D))%R).
    { apply Rle_trans with (thermal * ((Ds - D) / (thermal / 2)))%R.
      - apply Rmult_le_compat_l; [lra|]. apply DV; lra.
      - right. field. lra. }
    set (p := psi t S0 V0 D) in *. clearbody p. rewrite (Rmax_right 0 p) by lra.
    rewrite (Rabs_left1 (D - Ds)) by lra. rewrite (Rabs_pos_eq (p - D)) by lra.
    split; [apply Rabs_le; lra|]. split; [lra|apply Rabs_le; lra].
  - destruct (LD Ds D ltac:(lra) ltac:(lra)) as [L1 L2]. rewrite E in L1, L2.
    assert (L3 : (thermal * ((D - Ds) / (rs + Ds)) <= D - Ds)%R).
    { apply Rle_trans with (thermal * ((D - Ds) / thermal))%R.
      - apply Rmult_le_compat_l; [lra|]. apply DV; lra.
      - right. field. lra. }
    set (p := psi t S0 V0 D) in *. clearbody p. assert (M : (p <= Rmax 0 p <= Ds)%R) by (split; [apply Rmax_r|apply Rmax_lub; lra]).
    set (q := Rmax 0 p) in *. clearbody q. rewrite (Rabs_pos_eq (D - Ds)) by lra. rewrite (Rabs_left1 (q - D)) by lra.
    split; [apply Rabs_le; lra|]. split; [lra|apply Rabs_le; lra].
Qed.

Section Loop.
Variable m : pymath.
Hypothesis ML : log_ok m.
Hypothesis ME : expm1_ok m.
Variable t : dtarget.
Hypothesis T : dt_ok t.
Variable Vcc : f64.
Hypothesis FV : fin Vcc = true.
Hypothesis HV : (0 <= fR Vcc <= 50)%R.
Variable S0 : R.
Hypothesis HS0 : (S0 * (1 - / 1000000) <= fR (dt_IS t) <= S0 * (1 + / 1000000))%R.
Variable V0 : R.
Hypothesis HV0 : (Rabs (fR Vcc - V0) <= / 100000000)%R.
Let R := fR (dt_R t).
Let S := fR (dt_IS t).
Hypothesis HRS : (R * S <= 50)%R.
Let delta := (/ 500000 + (fR Vcc + R * S) * / 30000)%R.

Lemma pos_RS : (0 < R)%R /\ (0 < S)%R /\ (0 < S0)%R /\ (0 < R * S)%R /\ (0 < R * S0)%R.
Proof.
  destruct T as (FS & HS & FR & HR). fold S in HS, HS0. fold R in HR. pose proof (bpow_gt_0 radix2 (-536)) as P536.
  assert (PS : (0 < S)%R) by lra. assert (PR : (0 < R)%R) by lra. assert (PS0 : (0 < S0)%R) by lra.
  repeat split; try assumption; now apply Rmult_lt_0_compat.
Qed.

(** A pass, in short. *)
Lemma pass_short Vd : vd_ok t Vcc Vd -> exists Vd' IR ID b, diode_pass m t Vcc Vd = Ok (Vd', IR, ID, b) /\ vd_ok t Vcc Vd'
  /\ proper IR /\ proper ID
  /\ (let D := (fR Vcc - fR Vd)%R in
      Rabs (R * fR IR - Rmax 0 (psi t S0 V0 D)) <= / 500000
      /\ Rabs (R * fR ID - D) <= (D + R * S) * / 32768
      /\ Rabs (fR Vcc - fR Vd' - phi t S0 V0 D) <= delta
      /\ Rabs ((R * fR IR + R * fR ID) / 2 - phi t S0 V0 D) <= delta)%R
  /\ (b = true -> Rabs (R * fR IR - R * fR ID) <= / 900000 * (R * fR ID))%R.
Proof.
  intros VD. destruct (pass_est m ML ME t T Vcc FV ltac:(lra) S0 HS0 V0 HV0 Vd VD) as (Vd' & IR & ID & b & E & VD' & PIR & PID & _ & (A & B & C) & F).
  fold R S in A, B, C. destruct pos_RS as (PR & _ & _ & PRS & _).
  exists Vd', IR, ID, b. split; [exact E|]. split; [exact VD'|]. split; [exact PIR|]. split; [exact PID|].
  destruct VD as [_ HD]. fold R S in HD. cbv zeta. set (D := (fR Vcc - fR Vd)%R) in *. split.
  - split; [exact A|]. split; [exact B|]. unfold phi.
    set (P := Rmax 0 (psi t S0 V0 D)) in *. clearbody P. apply Rabs_le_inv in A, B, C. unfold delta.
    set (p := (R * fR IR)%R) in *. set (q := (R * fR ID)%R) in *. set (rs := (R * S)%R) in *. clearbody p q rs. clear - A B C HD HV PRS.
    split; apply Rabs_le; lra.
  - intros Hb. specialize (F Hb). replace (R * fR IR - R * fR ID)%R with (R * (fR IR - fR ID))%R by ring.
    rewrite Rabs_mult, (Rabs_pos_eq R) by lra. rewrite <- Rmult_assoc, (Rmult_comm (/ 900000)), Rmult_assoc. apply Rmult_le_compat_l; lra.
Qed.

(** Ten passes halve the error each, if the resistor sees the thermal voltage or more. *)
Lemma loop_conv Ds n : psi t S0 V0 Ds = Ds -> (thermal <= Ds)%R ->
  forall Vd, vd_ok t Vcc Vd -> (thermal / 2 <= fR Vcc - fR Vd)%R -> exists IR ID, diode_loop m t n Vcc Vd = Ok (IR, ID) /\ proper IR /\ proper ID
    /\ (Rabs ((R * fR IR + R * fR ID) / 2 - Ds) <= Rabs (fR Vcc - fR Vd - Ds) * / 2 ^ (n + 1) + (3 - / 2 ^ n) * delta)%R.
Proof.
  intros EDs HDs. destruct pos_RS as (PR & _ & _ & PRS & PRS0). destruct thermal_c1 as [_ TB].
  assert (PD : (0 < delta)%R) by (unfold delta; lra).
  assert (DS : (delta <= / 4 * thermal)%R) by (unfold delta; lra).
  assert (STEP : forall Vd, vd_ok t Vcc Vd -> (thermal / 2 <= fR Vcc - fR Vd)%R -> exists Vd' IR ID b, diode_pass m t Vcc Vd = Ok (Vd', IR, ID, b) /\ vd_ok t Vcc Vd'
    /\ proper IR /\ proper ID /\ (thermal / 2 <= fR Vcc - fR Vd')%R /\ (Rabs (fR Vcc - fR Vd' - Ds) <= Rabs (fR Vcc - fR Vd - Ds) / 2 + delta)%R
    /\ (Rabs ((R * fR IR + R * fR ID) / 2 - Ds) <= Rabs (fR Vcc - fR Vd - Ds) / 2 + delta)%R
    /\ (b = true -> Rabs ((R * fR IR + R * fR ID) / 2 - Ds) <= 2 * delta)%R).
  { intros Vd VD HD. destruct (pass_short Vd VD) as (Vd' & IR & ID & b & E & VD' & PIR & PID & (A & B & C & F) & G).
    destruct (contract t S0 V0 Ds (fR Vcc - fR Vd) PRS0 EDs HDs HD) as (K1 & K2 & K3).
    exists Vd', IR, ID, b. split; [exact E|]. split; [exact VD'|]. split; [exact PIR|]. split; [exact PID|].
    destruct VD as [_ HD2]. fold R S in HD2.
    set (D := (fR Vcc - fR Vd)%R) in *. set (D' := (fR Vcc - fR Vd')%R) in *. set (f := phi t S0 V0 D) in *. set (P := Rmax 0 (psi t S0 V0 D)) in *.
    set (p := (R * fR IR)%R) in *. set (q := (R * fR ID)%R) in *.
    apply Rabs_le_inv in A, B, C, F.
    assert (TR : forall x, (Rabs (x - Ds) <= Rabs (x - f) + Rabs (f - Ds))%R).
    { intros x. replace (x - Ds)%R with ((x - f) + (f - Ds))%R by ring. apply Rabs_triang. }
    split; [lra|]. split; [eapply Rle_trans; [apply TR|]; assert (Rabs (D' - f) <= delta)%R by (apply Rabs_le; lra); lra|].
    split; [eapply Rle_trans; [apply TR|]; assert (Rabs ((p + q) / 2 - f) <= delta)%R by (apply Rabs_le; lra); lra|].
    intros Hb. specialize (G Hb). apply Rabs_le_inv in G.
    assert (PQ : (Rabs (P - D) <= 2 * delta)%R).
    { apply Rabs_le. unfold delta. set (rs := (R * S)%R) in *. clearbody P p q rs D. clear - A B G HD2 HV PRS. lra. }
    eapply Rle_trans; [apply TR|]. assert (Rabs ((p + q) / 2 - f) <= delta)%R by (apply Rabs_le; lra). lra. }
  induction n as [|n IH]; intros Vd VD HD; destruct (STEP Vd VD HD) as (Vd' & IR & ID & b & E & VD' & PIR & PID & H1 & H2 & H3 & H4);
    cbn [diode_loop]; rewrite E; cbn [bind].
  - exists IR, ID. split; [reflexivity|]. split; [exact PIR|]. split; [exact PID|]. simpl. lra.
  - assert (P0 : (0 < / 2 ^ n)%R) by (apply Rinv_0_lt_compat, pow_lt; lra).
    assert (P1 : (/ 2 ^ n <= 1)%R) by (rewrite <- Rinv_1; apply Rinv_le; [lra|apply pow_R1_Rle; lra]).
    assert (Q1 : (/ 2 ^ (n + 1) = / 2 ^ n * / 2)%R) by (rewrite pow_add, pow_1, Rinv_mult; reflexivity).
    assert (Q2 : (/ 2 ^ (Datatypes.S n) = / 2 ^ n * / 2)%R) by (rewrite <- Q1; f_equal; f_equal; lia).
    assert (Q3 : (/ 2 ^ (Datatypes.S n + 1) = / 2 ^ n * / 4)%R).
    { replace (Datatypes.S n + 1)%nat with (n + 2)%nat by lia. rewrite pow_add, Rinv_mult. f_equal. simpl. lra. }
    rewrite Q2, Q3. set (z := (/ 2 ^ n)%R) in *. pose proof (Rabs_pos (fR Vcc - fR Vd - Ds)) as PA.
    destruct b.
    + exists IR, ID. split; [reflexivity|]. split; [exact PIR|]. split; [exact PID|]. specialize (H4 eq_refl).
      assert (0 <= Rabs (fR Vcc - fR Vd - Ds) * (z * / 4))%R by (apply Rmult_le_pos; lra).
      assert (2 * delta <= (3 - z * / 2) * delta)%R by (apply Rmult_le_compat_r; lra). lra.
    + destruct (IH Vd' VD' H1) as (IR' & ID' & E' & PIR' & PID' & B'). exists IR', ID'. split; [exact E'|]. split; [exact PIR'|]. split; [exact PID'|].
      rewrite Q1 in B'. fold z in B'. eapply Rle_trans; [exact B'|].
      set (X := Rabs (fR Vcc - fR Vd' - Ds)) in *. set (Y := Rabs (fR Vcc - fR Vd - Ds)) in *.
      assert (M : (X * (z * / 2) <= (Y / 2 + delta) * (z * / 2))%R) by (apply Rmult_le_compat_r; lra).
      assert (M2 : ((Y / 2 + delta) * (z * / 2) = Y * (z * / 4) + delta * z * / 2)%R) by field.
      assert (M3 : ((3 - z) * delta + delta * z * / 2 = (3 - z * / 2) * delta)%R) by field. lra.
Qed.

(** As long as the diode claims the whole voltage, a pass merely halves the voltage at the resistor. *)
Lemma loop_halve Dmin n : (/ 100000 <= Dmin)%R -> (R * S <= Dmin)%R -> (forall D, Dmin <= D -> psi t S0 V0 D <= 0)%R ->
  forall Vd, vd_ok t Vcc Vd -> (Dmin * 2 ^ n + 2 * delta * (2 ^ n - 1) <= fR Vcc - fR Vd)%R ->
  exists IR ID, diode_loop m t n Vcc Vd = Ok (IR, ID) /\ proper IR /\ proper ID
    /\ (Rabs ((R * fR IR + R * fR ID) / 2 - (fR Vcc - fR Vd) * / 2 ^ (n + 1)) <= (2 - / 2 ^ n) * delta)%R.
Proof.
  intros HM HR2 HP. destruct pos_RS as (PR & _ & _ & PRS & PRS0).
  assert (PD : (0 < delta)%R) by (unfold delta; lra).
  assert (STEP : forall Vd, vd_ok t Vcc Vd -> (Dmin <= fR Vcc - fR Vd)%R -> exists Vd' IR ID, diode_pass m t Vcc Vd = Ok (Vd', IR, ID, false) /\ vd_ok t Vcc Vd'
    /\ proper IR /\ proper ID /\ (Rabs (fR Vcc - fR Vd' - (fR Vcc - fR Vd) / 2) <= delta)%R
    /\ (Rabs ((R * fR IR + R * fR ID) / 2 - (fR Vcc - fR Vd) / 2) <= delta)%R).
  { intros Vd VD HD. destruct (pass_short Vd VD) as (Vd' & IR & ID & b & E & VD' & PIR & PID & (A & B & C & F) & G).
    set (D := (fR Vcc - fR Vd)%R) in *. assert (EP : phi t S0 V0 D = (D / 2)%R) by (unfold phi; rewrite Rmax_left by (apply HP; exact HD); lra).
    rewrite EP in C, F. rewrite Rmax_left in A by (apply HP; exact HD).
    assert (b = false) as ->.
    { destruct b; [exfalso|reflexivity]. specialize (G eq_refl). apply Rabs_le_inv in A, B, G.
      set (p := (R * fR IR)%R) in *. set (q := (R * fR ID)%R) in *. set (rs := (R * S)%R) in *. clearbody p q rs D. clear - A B G HD HM HR2 PRS. lra. }
    exists Vd', IR, ID. auto 10. }
  induction n as [|n IH]; intros Vd VD HD.
  - simpl in HD. destruct (STEP Vd VD ltac:(lra)) as (Vd' & IR & ID & E & VD' & PIR & PID & H2 & H3); cbn [diode_loop]; rewrite E; cbn [bind].
    exists IR, ID. split; [reflexivity|]. split; [exact PIR|]. split; [exact PID|]. simpl.
    replace (/ (2 * 1))%R with (/ 2)%R by lra. replace ((2 - / 1) * delta)%R with delta by lra. exact H3.
  - assert (P0 : (0 < / 2 ^ n)%R) by (apply Rinv_0_lt_compat, pow_lt; lra).
    assert (P1 : (1 <= 2 ^ n)%R) by (apply pow_R1_Rle; lra).
    assert (Q1 : (/ 2 ^ (n + 1) = / 2 ^ n * / 2)%R) by (rewrite pow_add, pow_1, Rinv_mult; reflexivity).
    assert (Q2 : (/ 2 ^ (Datatypes.S n) = / 2 ^ n * / 2)%R) by (rewrite <- Q1; f_equal; f_equal; lia).
    assert (Q3 : (/ 2 ^ (Datatypes.S n + 1) = / 2 ^ n * / 4)%R).
    { replace (Datatypes.S n + 1)%nat with (n + 2)%nat by lia. rewrite pow_add, Rinv_mult. f_equal. simpl. lra. }
    change (2 ^ (Datatypes.S n))%R with (2 * 2 ^ n)%R in HD.
    assert (X1 : (Dmin <= Dmin * (2 * 2 ^ n))%R) by (rewrite <- (Rmult_1_r Dmin) at 1; apply Rmult_le_compat_l; lra).
    assert (X2 : (0 <= 2 * delta * (2 * 2 ^ n - 1))%R) by (apply Rmult_le_pos; lra).
    destruct (STEP Vd VD ltac:(lra)) as (Vd' & IR & ID & E & VD' & PIR & PID & H2 & H3); cbn [diode_loop]; rewrite E; cbn [bind].
    assert (HD' : (Dmin * 2 ^ n + 2 * delta * (2 ^ n - 1) <= fR Vcc - fR Vd')%R) by (apply Rabs_le_inv in H2; lra).
    destruct (IH Vd' VD' HD') as (IR' & ID' & E' & PIR' & PID' & B'). exists IR', ID'. split; [exact E'|]. split; [exact PIR'|]. split; [exact PID'|].
    rewrite Q1 in B'. rewrite Q2, Q3. set (z := (/ 2 ^ n)%R) in *.
    set (mean := ((R * fR IR' + R * fR ID') / 2)%R) in *. set (D' := (fR Vcc - fR Vd')%R) in *. set (D := (fR Vcc - fR Vd)%R) in *.
    replace (mean - D * (z * / 4))%R with ((mean - D' * (z * / 2)) + (D' - D / 2) * (z * / 2))%R by field.
    eapply Rle_trans; [apply Rabs_triang|].
    assert (M : (Rabs ((D' - D / 2) * (z * / 2)) <= delta * (z * / 2))%R).
    { rewrite Rabs_mult, (Rabs_pos_eq (z * / 2)) by lra. apply Rmult_le_compat_r; lra. }
    assert (M3 : ((2 - z) * delta + delta * (z * / 2) = (2 - z * / 2) * delta)%R) by field. lra.
Qed.
End Loop.

(** ** The scale current *)
Lemma scale_close m Vf If R c t : expm1_ok m -> usual_diode Vf If R -> diode_init m Vf If R c = Ok t ->
  (scale_current (fR Vf) (fR If) * (1 - / 1000000) <= fR (dt_IS t) <= scale_current (fR Vf) (fR If) * (1 + / 1000000))%R
  /\ dt_ok t /\ dt_R t = R /\ dt_ctrl t = c.
Proof.
  intros M U H. assert (G : fle R (fdec 1 3) = false /\ fle Vf (fdec 2 1) = false).
  { unfold diode_init in H. destruct (fle R (fdec 1 3)); [discriminate|]. destruct (fle Vf (fdec 2 1)); [discriminate|]. auto. }
  destruct G as [GR GV]. destruct (diode_built m Vf If R c M U GR GV) as (t' & E & T & E2 & E3).
  assert (t' = t) by congruence. subst t'. clear E. split; [|auto].
  revert H. unfold diode_init. destruct U as ((FV & HV) & (FI & HI) & (FR & HR)). destruct fz0 as [F0 R0]. destruct c1_ok as [FC HC].
  destruct thermal_c1 as [TC TB]. apply Rabs_le_inv in TC.
  destruct (cst (fdec 2 1) 7205759403792794 (-55)) as [F2 B2]; [vm_compute; reflexivity|].
  change (bpow radix2 (-55)) with (/ 36028797018963968)%R in B2.
  assert (GI : fle If (fz 0) = false) by (apply fle_R_false; auto; rewrite R0; lra).
  rewrite GR, GV, GI. cbn [negb bind]. apply fle_R_false in GV; auto. rewrite B2 in GV.
  set (v := fR Vf) in *. set (i := fR If) in *.
  assert (QT : (Rabs (v / fR c1 - v / thermal) <= / 100000000000)%R).
  { replace (v / fR c1 - v / thermal)%R with (v * / fR c1 * / thermal * (thermal - fR c1))%R by (field; lra).
    assert (I1 : (0 < / fR c1 <= 16)%R) by (split; [apply Rinv_0_lt_compat; lra|]; replace 16%R with (/ / 16)%R by lra; apply Rinv_le; lra).
    assert (I2 : (0 < / thermal <= 16)%R) by (split; [apply Rinv_0_lt_compat; lra|]; replace 16%R with (/ / 16)%R by lra; apply Rinv_le; lra).
    assert (P : (0 <= v * / fR c1 * / thermal <= 20 * 16 * 16)%R).
    { split; [repeat apply Rmult_le_pos; lra|]. apply Rmult_le_compat; [apply Rmult_le_pos; lra|lra|apply Rmult_le_compat; lra|lra]. }
    rewrite Rabs_mult, (Rabs_pos_eq (v * / fR c1 * / thermal)) by lra.
    apply Rle_trans with (20 * 16 * 16 * / 1000000000000000)%R; [apply Rmult_le_compat; [lra|apply Rabs_pos|lra|apply Rabs_le; lra]|lra]. }
  pose proof (div_bounds v (fR c1) (/ 16) (/ 15) ltac:(lra) ltac:(lra) HC) as DB.
  unfold Rdiv in DB at 1 3. rewrite !Rinv_inv in DB.
  destruct (fdiv_Big Vf c1 FV FC) as (a & EA & FA & RA); [lra| |].
  { fold v. apply (le_Big _ 10); [lia|]. change (bpow radix2 10) with 1024%R. lra. }
  fold v in RA. rewrite EA. cbn [bind]. clear EA.
  assert (HA : (2 <= fR a <= 320)%R) by (rewrite RA; split; [apply (rnd_ge_Z 2); [lia|lra]|apply (rnd_le_Z 320); [lia|lra]]).
  assert (AT : (Rabs (fR a - v / thermal) <= / 1000000000)%R).
  { pose proof (rnd_err (v / fR c1)) as K. rewrite <- RA, (Rabs_pos_eq (v / fR c1)), u64_val in K by lra.
    pose proof (eta_bpow (-10) ltac:(lia)) as E0. change (bpow radix2 (-10)) with (/ 1024)%R in E0.
    apply Rabs_le_inv in K, QT. apply Rabs_le. lra. }
  apply Rabs_le_inv in AT.
  destruct (M a FA) as (e & EE & FE & HE); [lra|]. rewrite EE. cbn [bind]. clear EE.
  change (bpow radix2 (-30)) with (/ 1073741824)%R in HE. apply Rabs_le_inv in HE.
  set (z := (v / thermal)%R) in *.
  assert (XL : (3 <= exp (fR a))%R) by (assert (1 + fR a < exp (fR a))%R by (apply exp_ineq1; lra); lra).
  assert (XZ : (exp (fR a) * (1 - / 100000000) <= exp z <= exp (fR a) * (1 + / 100000000))%R).
  { split.
    - replace z with (fR a + (z - fR a))%R by ring. rewrite exp_plus. apply Rmult_le_compat_l; [lra|].
      destruct (Req_dec (z - fR a) 0) as [Z|N]; [rewrite Z, exp_0; lra|]. assert (1 + (z - fR a) < exp (z - fR a))%R by (apply exp_ineq1; exact N). lra.
    - apply Rle_trans with (exp (fR a + / 1000000000)); [apply exp_mono; lra|]. rewrite exp_plus. apply Rmult_le_compat_l; [lra|].
      eapply Rle_trans; [apply exp_small; lra|]. apply Rmult_le_reg_l with (1 - / 1000000000)%R; [lra|]. rewrite Rinv_r by lra. lra. }
  set (X := exp (fR a)) in *. unfold scale_current. fold z. set (Z := exp z) in *. clearbody X Z.
  assert (EZ : ((Z - 1) * (1 - / 10000000) <= fR e <= (Z - 1) * (1 + / 10000000))%R) by lra.
  assert (ZP : (0 < Z - 1)%R) by lra. set (N := (Z - 1)%R) in *. clearbody N. assert (EP : (0 < fR e)%R) by lra.
  assert (QI : (i / N * (1 - / 5000000) <= i / fR e <= i / N * (1 + / 5000000))%R).
  { assert (PN : (0 <= i / N)%R) by (apply Rmult_le_pos; [lra|left; now apply Rinv_0_lt_compat]).
    assert (EI : (i / N * N = i)%R) by (field; lra).
    split; apply Rmult_le_reg_r with (fR e); try exact EP; replace (i / fR e * fR e)%R with i by (field; lra).
    - apply Rle_trans with (i / N * (1 - / 5000000) * (N * (1 + / 10000000)))%R; [apply Rmult_le_compat_l; [apply Rmult_le_pos; lra|lra]|].
      replace (i / N * (1 - / 5000000) * (N * (1 + / 10000000)))%R with (i / N * N * ((1 - / 5000000) * (1 + / 10000000)))%R by ring. rewrite EI. lra.
    - apply Rle_trans with (i / N * (1 + / 5000000) * (N * (1 - / 10000000)))%R; [|apply Rmult_le_compat_l; [apply Rmult_le_pos; lra|lra]].
      replace (i / N * (1 + / 5000000) * (N * (1 - / 10000000)))%R with (i / N * N * ((1 + / 5000000) * (1 - / 10000000)))%R by ring. rewrite EI. lra. }
  destruct (fdiv If e) as [IS|] eqn:EI; [|discriminate]. cbn [bind]. intros H.
  assert (EI2 : dt_IS t = IS) by (injection H as <-; reflexivity). rewrite EI2.
  destruct T as (FS & HS & _ & _). rewrite EI2 in FS, HS.
  assert (FQ : fR IS = rnd (i / fR e)).
  { apply fdiv_inv in EI. subst IS. destruct (rnd_huge_cases (fR If / fR e)) as [HB|HB]; [apply idiv_ok; auto; lra|].
    rewrite idiv_big in FS by (auto; lra). discriminate FS. }
  pose proof (bpow_gt_0 radix2 (-536)) as P536. set (q := (i / fR e)%R) in *.
  assert (Pq : (0 < q)%R) by (unfold q; apply Rmult_lt_0_compat; [lra|now apply Rinv_0_lt_compat]).
  assert (LQ : (bpow radix2 (-600) <= Rabs q)%R).
  { rewrite Rabs_pos_eq by lra. apply Rnot_lt_le. intros C.
    assert (rnd q <= bpow radix2 (-600))%R by (apply rnd_le_bpow; [lia|lra]).
    assert (bpow radix2 (-600) < bpow radix2 (-536))%R by (apply bpow_lt; lia). lra. }
  assert (K : (bpow radix2 (-900) <= Rabs q)%R) by (eapply Rle_trans; [apply (bpow_le radix2 (-900) (-600)); lia|exact LQ]).
  apply rnd_rel in K. rewrite <- FQ, (Rabs_pos_eq q) in K by lra. apply Rabs_le_inv in K.
  assert (PN : (0 <= i / N)%R) by (apply Rmult_le_pos; [lra|left; now apply Rinv_0_lt_compat]).
  set (s := (i / N)%R) in *. clearbody s q. lra.
Qed.

(** ** Results *)
Lemma dec6_fine : fin (fdec 1 6) = true /\ (/ 1000000 * (1 - / 1000000000000000) <= fR (fdec 1 6) <= / 1000000 * (1 + / 1000000000000000))%R.
Proof.
  destruct (cst (fdec 1 6) 4722366482869645 (-72)) as [F6 D6]; [vm_compute; reflexivity|]. split; [exact F6|]. rewrite D6.
  change (bpow radix2 (-72)) with (/ 4722366482869645213696)%R. lra.
Qed.
Lemma step_unfold m t uV pg : 0 <= uV < 2 ^ 32 -> pg || negb (dt_ctrl t) = true -> exists Vcc Vd,
  fin Vcc = true /\ (Rabs (fR Vcc - IZR uV / 1000000) <= / 100000000)%R /\ (0 <= fR Vcc)%R /\ fin Vd = true
  /\ (Rabs (fR Vd - fR Vcc / 2) <= / 100000000)%R /\ (0 <= fR Vd <= fR Vcc)%R
  /\ diode_step m t uV pg = (let* r := diode_loop m t 9 Vcc Vd in fdiv (fmul (fz (10 ^ 9)) (fadd (fst r) (snd r))) (fz 2)).
Proof.
  intros HU O. destruct (fz_ok 2) as [F2 R2]; [lia|]. destruct (fz_ok uV) as [FU RU]; [lia|].
  assert (HU2 : (0 <= IZR uV <= 4294967296)%R) by (split; apply IZR_le; lia).
  destruct dec6_fine as [F6 D6b]. unfold diode_step. rewrite O, py_float_ok by lia. rewrite bind_ok. cbv beta zeta.
  assert (VB : (IZR uV * (/ 1000000 * (1 - / 1000000000000000)) <= IZR uV * fR (fdec 1 6) <= IZR uV * (/ 1000000 * (1 + / 1000000000000000)))%R)
    by (split; apply Rmult_le_compat_l; lra).
  destruct (fmul_Big (fz uV) (fdec 1 6) FU F6) as [V1 V2]; [rewrite RU; apply (le_Big _ 20); [lia|change (bpow radix2 20) with 1048576%R; lra]|].
  rewrite RU in V2. set (Vcc := fmul (fz uV) (fdec 1 6)) in *. clearbody Vcc.
  pose proof (eta_bpow (-10) ltac:(lia)) as E0. change (bpow radix2 (-10)) with (/ 1024)%R in E0.
  assert (VN : (0 <= IZR uV * fR (fdec 1 6))%R) by (apply Rmult_le_pos; lra).
  pose proof (rnd_up _ VN) as KU. pose proof (rnd_dn _ VN) as KD. rewrite <- V2 in KU, KD.
  assert (P0 : (0 <= fR Vcc)%R) by (rewrite V2; now apply rnd_nonneg). clear V2.
  assert (VC : (Rabs (fR Vcc - IZR uV / 1000000) <= / 100000000)%R) by (apply Rabs_le; lra).
  assert (VC2 : (fR Vcc <= 4300)%R) by (apply Rabs_le_inv in VC; lra).
  destruct (fdiv_Big Vcc (fz 2) V1 F2) as (Vd & ED & FD & RD); [rewrite R2; lra|rewrite R2; apply (le_Big _ 20); [lia|change (bpow radix2 20) with 1048576%R; lra]|].
  rewrite R2 in RD. exists Vcc, Vd. rewrite ED, bind_ok. split; [exact V1|]. split; [exact VC|]. split; [exact P0|]. split; [exact FD|].
  assert (N2 : (0 <= fR Vcc / 2)%R) by lra. pose proof (rnd_up _ N2) as LU. pose proof (rnd_dn _ N2) as LD. rewrite <- RD in LU, LD.
  split; [apply Rabs_le; lra|]. split; [|reflexivity]. split; [rewrite RD; now apply rnd_nonneg|rewrite RD; apply rnd_le_self; lra].
Qed.

Lemma mean_out IR ID R : proper IR -> proper ID -> (0 < R)%R -> (fR IR + fR ID <= 1000000000)%R ->
  exists i, fdiv (fmul (fz (10 ^ 9)) (fadd IR ID)) (fz 2) = Ok i /\ proper i
    /\ (Rabs (fR i * / 1000000000 * R - (R * fR IR + R * fR ID) / 2) <= (R * fR IR + R * fR ID) * / 1000000000000 + R * / 1000000000000000)%R.
Proof.
  intros [F1 P1] [F2 P2] PR B. destruct (fz_ok 2) as [G2 R2]; [lia|]. destruct (fz_ok (10 ^ 9)) as [G9 R9]; [lia|]. change (IZR (10 ^ 9)) with 1000000000%R in R9.
  destruct (fadd_Big IR ID F1 F2) as [A1 A2]; [apply (le_Big _ 40); [lia|change (bpow radix2 40) with 1099511627776%R; lra]|].
  assert (N1 : (0 <= fR IR + fR ID)%R) by lra. pose proof (rnd_up _ N1) as U1. pose proof (rnd_dn _ N1) as D1. rewrite <- A2 in U1, D1.
  pose proof eta64_pos as EP. pose proof (eta_bpow (-40) ltac:(lia)) as E0. change (bpow radix2 (-40)) with (/ 1099511627776)%R in E0.
  assert (M1 : (0 <= fR (fadd IR ID))%R) by (rewrite A2; now apply rnd_nonneg). clear A2. set (a := fadd IR ID) in *. clearbody a.
  destruct (fmul_Big (fz (10 ^ 9)) a G9 A1) as [B1 B2]; [rewrite R9; apply (le_Big _ 70); [lia|change (bpow radix2 70) with 1180591620717411303424%R; lra]|].
  rewrite R9 in B2. assert (N2 : (0 <= 1000000000 * fR a)%R) by lra. pose proof (rnd_up _ N2) as U2. pose proof (rnd_dn _ N2) as D2. rewrite <- B2 in U2, D2.
  assert (M2 : (0 <= fR (fmul (fz (10 ^ 9)) a))%R) by (rewrite B2; now apply rnd_nonneg). clear B2. set (p := fmul (fz (10 ^ 9)) a) in *. clearbody p.
  destruct (fdiv_Big p (fz 2) B1 G2) as (i & EI & FI & RI); [rewrite R2; lra|rewrite R2; apply (le_Big _ 70); [lia|change (bpow radix2 70) with 1180591620717411303424%R; lra]|].
  rewrite R2 in RI. assert (N3 : (0 <= fR p / 2)%R) by lra. pose proof (rnd_up _ N3) as U3. pose proof (rnd_dn _ N3) as D3. rewrite <- RI in U3, D3.
  exists i. split; [exact EI|]. split; [split; [exact FI|rewrite RI; now apply rnd_nonneg]|].
  set (w := (fR IR + fR ID)%R) in *.
  assert (W : (Rabs (fR i * / 1000000000 - w / 2) <= w * / 1000000000000 + / 1000000000000000)%R) by (apply Rabs_le; clear RI; lra).
  replace (fR i * / 1000000000 * R - (R * fR IR + R * fR ID) / 2)%R with (R * (fR i * / 1000000000 - w / 2))%R by (unfold w; field).
  rewrite Rabs_mult, (Rabs_pos_eq R) by lra. apply Rle_trans with (R * (w * / 1000000000000 + / 1000000000000000))%R; [apply Rmult_le_compat_l; lra|].
  right. unfold w. ring.
Qed.

Theorem diode_solves m Vf If R c t uV pg I : log_ok m -> expm1_ok m -> usual_diode Vf If R -> diode_init m Vf If R c = Ok t ->
  0 <= uV <= 40 * 10 ^ 6 -> (fR R * scale_current (fR Vf) (fR If) <= 40)%R -> pg = true \/ c = false ->
  circuit (fR Vf) (fR If) (fR R) (IZR uV / 1000000) I -> (65 / 1000 <= fR R * I)%R ->
  exists i, diode_step m t uV pg = Ok i /\ proper i
    /\ (Rabs (fR i * / 1000000000 - I) <= (IZR uV / 1000000 / 1500 + fR R * scale_current (fR Vf) (fR If) / 5000 + / 100000) / fR R)%R.
Proof.
  intros ML ME U H HU HRS HO [HI HC] HT. destruct (scale_close m Vf If R c t ME U H) as (HS & T & ER & EC).
  set (S0 := scale_current (fR Vf) (fR If)) in *. assert (HO2 : pg || negb (dt_ctrl t) = true) by (rewrite EC; destruct HO; subst; [reflexivity|now rewrite orb_true_r]).
  destruct (step_unfold m t uV pg) as (Vcc & Vd & FV & VC & VP & FD & DV & DP & ->); [lia|exact HO2|].
  assert (HU2 : (0 <= IZR uV <= 40000000)%R) by (split; apply IZR_le; lia). destruct thermal_c1 as [_ TB].
  apply Rabs_le_inv in VC, DV. pose proof T as (FS & TS & FRR & TR). rewrite ER in FRR, TR.
  pose proof (bpow_gt_0 radix2 (-536)) as P536. assert (PS : (0 < fR (dt_IS t))%R) by lra. assert (PS0 : (0 < S0)%R) by lra. assert (PR : (0 < fR R)%R) by lra.
  assert (RS : (fR (dt_R t) * fR (dt_IS t) <= 50)%R).
  { rewrite ER. apply Rle_trans with (fR R * (S0 * (1 + / 1000000)))%R; [apply Rmult_le_compat_l; lra|]. rewrite <- Rmult_assoc. lra. }
  assert (RS1 : (fR (dt_R t) * fR (dt_IS t) <= fR R * S0 * (1 + / 1000000))%R) by (rewrite ER, Rmult_assoc; apply Rmult_le_compat_l; lra).
  assert (RS0 : (0 < fR (dt_R t) * fR (dt_IS t))%R) by (rewrite ER; now apply Rmult_lt_0_compat).
  assert (HV0 : (Rabs (fR Vcc - IZR uV / 1000000) <= / 100000000)%R) by (apply Rabs_le; lra).
  set (Ds := (fR R * I)%R) in *.
  assert (EDs : psi t S0 (IZR uV / 1000000) Ds = Ds).
  { unfold psi. rewrite ER. replace (Ds / (fR R * S0))%R with (I / S0)%R by (unfold Ds; field; lra). lra. }
  assert (LV : (Ds <= IZR uV / 1000000)%R).
  { assert (0 <= ln (1 + I / S0))%R; [|nra]. apply ln_nonneg. assert (0 <= I / S0)%R by (apply Rmult_le_pos; [lra|left; now apply Rinv_0_lt_compat]). lra. }
  assert (VD : vd_ok t Vcc Vd) by (split; [exact FD|lra]).
  destruct (loop_conv m ML ME t T Vcc FV ltac:(lra) S0 HS _ HV0 RS Ds 9 EDs ltac:(lra) Vd VD ltac:(lra)) as (IR & ID & EL & PI & PJ & B).
  rewrite EL. cbn [bind fst snd]. rewrite ER in B.
  destruct (loop_ok m t Vcc 9 ML ME T FV ltac:(lra) Vd VD) as (IR' & ID' & EL' & _ & _ & B').
  assert (EE : IR' = IR /\ ID' = ID) by (split; congruence). destruct EE as [-> ->]. clear EL EL'. rewrite ER in B'.
  assert (BB : (fR IR + fR ID <= 1000000000)%R).
  { eapply Rle_trans; [exact B'|]. assert (fR Vcc / fR R <= 50 * 1024)%R; [|lra]. unfold Rdiv. apply Rmult_le_compat; [lra|left; now apply Rinv_0_lt_compat|lra|].
    replace 1024%R with (/ / 1024)%R by lra. apply Rinv_le; lra. }
  destruct (mean_out IR ID (fR R) PI PJ PR BB) as (i & EI & PRI & BI). exists i. split; [exact EI|]. split; [exact PRI|].
  assert (X : (Rabs (fR Vcc - fR Vd - Ds) <= 51 / 100 * (IZR uV / 1000000) + / 1000000)%R) by (apply Rabs_le; lra).
  change (9 + 1)%nat with 10%nat in B.
  assert (C10 : (/ 2 ^ 10 = / 1024)%R) by (simpl; lra). assert (C9 : (/ 2 ^ 9 = / 512)%R) by (simpl; lra). rewrite C10, C9 in B.
  rewrite ER in RS1, RS0. set (rs := (fR R * fR (dt_IS t))%R) in *. set (rs0 := (fR R * S0)%R) in *.
  set (W := (fR R * fR IR + fR R * fR ID)%R) in *.
  assert (BW : (Rabs (W / 2 - Ds) <= IZR uV / 1000000 / 1550 + rs0 / 6000 + / 120000)%R) by (eapply Rle_trans; [exact B|]; lra).
  assert (RE : (fR R * / 1000000000000000 <= / 1000000)%R) by lra.
  apply Rmult_le_reg_r with (fR R); [exact PR|].
  replace ((IZR uV / 1000000 / 1500 + rs0 / 5000 + / 100000) / fR R * fR R)%R with (IZR uV / 1000000 / 1500 + rs0 / 5000 + / 100000)%R by (field; lra).
  rewrite <- (Rabs_pos_eq (fR R)) at 1 by lra. rewrite <- Rabs_mult.
  replace ((fR i * / 1000000000 - I) * fR R)%R with (fR i * / 1000000000 * fR R - Ds)%R by (unfold Ds; ring).
  apply Rabs_le_inv in BI, BW. apply Rabs_le. clear - BI BW RE HU2 RS0 RS1 LV. lra.
Qed.

(** ** A red LED at half a volt *)
Lemma exp_mult_nat n x : exp (INR n * x) = (exp x ^ n)%R.
Proof. induction n as [|n IH]; [simpl; rewrite Rmult_0_l; apply exp_0|]. rewrite S_INR, Rmult_plus_distr_r, Rmult_1_l, exp_plus, IH. simpl. ring. Qed.
Lemma exp_31 : (bpow radix2 42 <= exp 31)%R.
Proof.
  replace 31%R with (INR 248 * / 8)%R by (rewrite INR_IZR_INZ; change (Z.of_nat 248) with 248; lra). rewrite exp_mult_nat.
  apply Rle_trans with ((9 / 8) ^ 248)%R.
  - assert (E : ((9 / 8) ^ 248 * 8 ^ 248 = 9 ^ 248)%R) by (rewrite <- Rpow_mult_distr; f_equal; lra).
    assert (P : (0 < 8 ^ 248)%R) by (apply pow_lt; lra). apply Rmult_le_reg_r with (8 ^ 248)%R; [exact P|]. rewrite E.
    rewrite (bpow_Z 42 (2 ^ 42)) by (reflexivity || lia). rewrite !pow_IZR, <- mult_IZR. apply IZR_le, Z.leb_le. vm_compute. reflexivity.
  - apply pow_incr. split; [lra|]. assert (1 + / 8 < exp (/ 8))%R by (apply exp_ineq1; lra). lra.
Qed.
Lemma exp_8 x : (x <= 8)%R -> (exp x <= 6561)%R.
Proof.
  intros H. apply Rle_trans with (exp (INR 8)); [apply exp_mono; rewrite INR_IZR_INZ; exact H|]. eapply Rle_trans; [apply exp_nat|]. simpl. lra.
Qed.

Theorem diode_wrong m pg : log_ok m -> expm1_ok m -> exists t i, diode_init m (fz 2) (fdec 2 2) (fz 100) false = Ok t
  /\ diode_step m t 500000 pg = Ok i /\ (2000 <= fR i)%R
  /\ forall I, circuit (fR (fz 2)) (fR (fdec 2 2)) (fR (fz 100)) (/ 2) I -> (I * 1000000000 <= / 10)%R.
Proof.
  intros ML ME. destruct (fz_ok 2) as [F2 R2]; [lia|]. destruct (fz_ok 100) as [F1 R1]; [lia|]. destruct dec3 as [F3 D3].
  destruct (cst (fdec 2 2) 5764607523034235 (-58)) as [FI RI]; [vm_compute; reflexivity|]. change (bpow radix2 (-58)) with (/ 288230376151711744)%R in RI.
  destruct (cst (fdec 2 1) 7205759403792794 (-55)) as [F4 R4]; [vm_compute; reflexivity|]. change (bpow radix2 (-55)) with (/ 36028797018963968)%R in R4.
  assert (U : usual_diode (fz 2) (fdec 2 2) (fz 100)) by (split; [split; [exact F2|rewrite R2; lra]|split; split; [exact FI|rewrite RI; lra|exact F1|rewrite R1; lra]]).
  destruct (diode_built m (fz 2) (fdec 2 2) (fz 100) false ME U) as (t & E & _); [apply fle_R_false; auto; lra|apply fle_R_false; auto; lra|].
  destruct (scale_close m _ _ _ _ t ME U E) as (HS & T & ER & EC). destruct thermal_c1 as [_ TB].
  set (S0 := scale_current (fR (fz 2)) (fR (fdec 2 2))) in *.
  assert (SB : (0 < S0 <= / 200000000000000)%R).
  { assert (L : (4398046511104 <= exp (2 / thermal))%R).
    { change 4398046511104%R with (bpow radix2 42). eapply Rle_trans; [apply exp_31|]. apply exp_mono.
      apply Rmult_le_reg_r with thermal; [lra|]. replace (2 / thermal * thermal)%R with 2%R by (field; lra). lra. }
    unfold S0, scale_current. rewrite R2, RI. set (x := exp (2 / thermal)) in *. clearbody x.
    assert (IP : (0 < / (x - 1))%R) by (apply Rinv_0_lt_compat; lra).
    split; [apply Rmult_lt_0_compat; lra|]. apply Rmult_le_reg_r with (x - 1)%R; [lra|]. unfold Rdiv. rewrite Rmult_assoc, Rinv_l by lra. lra. }
  destruct (step_unfold m t 500000 pg) as (Vcc & Vd & FV & VC & VP & FD & DV & DP & ST); [lia|rewrite EC; now rewrite orb_true_r|].
  replace (500000 / 1000000)%R with (/ 2)%R in VC by lra. pose proof (Rabs_le_inv _ _ VC) as VC'. apply Rabs_le_inv in DV.
  pose proof T as (FS & TS & FRR & TR). pose proof (bpow_gt_0 radix2 (-536)) as P536.
  assert (RS : (0 <= fR (dt_R t) * fR (dt_IS t) <= / 1000000000000)%R).
  { rewrite ER, R1. assert (0 < fR (dt_IS t) <= / 100000000000000)%R by lra. lra. }
  assert (VD : vd_ok t Vcc Vd) by (split; [exact FD|lra]).
  assert (PSI : forall D, (/ 2500 <= D)%R -> (psi t S0 (/ 2) D <= 0)%R).
  { intros D HD. unfold psi. rewrite ER, R1.
    assert (L : (8 <= ln (1 + D / (100 * S0)))%R); [|nra].
    rewrite <- (ln_exp 8) at 1. apply ln_mono; [apply exp_pos|]. apply Rle_trans with 6561%R; [apply exp_8; lra|].
    assert (Q : (6561 <= D / (100 * S0))%R); [|lra]. apply Rmult_le_reg_r with (100 * S0)%R; [lra|]. replace (D / (100 * S0) * (100 * S0))%R with D by (field; lra). lra. }
  destruct (loop_halve m ML ME t T Vcc FV ltac:(lra) S0 HS (/ 2)%R VC (/ 2500)%R 9%nat ltac:(lra) ltac:(lra) PSI Vd VD) as (IR & ID & EL & PI & PJ & B).
  { simpl. lra. }
  destruct (loop_ok m t Vcc 9 ML ME T FV ltac:(lra) Vd VD) as (IR' & ID' & EL' & _ & _ & B').
  assert (EE : IR' = IR /\ ID' = ID) by (split; congruence). destruct EE as [-> ->]. clear EL'. rewrite ER, R1 in B, B'.
  assert (BB : (fR IR + fR ID <= 1000000000)%R) by (clear - B' VC' TS; lra).
  destruct (mean_out IR ID 100 PI PJ ltac:(lra) BB) as (i & EI & PRI & BI).
  exists t, i. split; [exact E|]. split; [rewrite ST, EL, bind_ok; exact EI|]. split.
  - change (9 + 1)%nat with 10%nat in B.
    assert (C10 : (/ 2 ^ 10 = / 1024)%R) by (simpl; lra). assert (C9 : (/ 2 ^ 9 = / 512)%R) by (simpl; lra). rewrite C10, C9 in B.
    rewrite ER, R1 in RS. apply Rabs_le_inv in B, BI. clear - B BI VC' DV RS. lra.
  - intros I [HI HC]. fold S0 in HC. rewrite R1 in HC.
    assert (L : (ln (1 + I / S0) <= 8)%R) by nra.
    assert (IS : (0 <= I / S0)%R) by (apply Rmult_le_pos; [lra|left; apply Rinv_0_lt_compat; lra]).
    assert (X : (1 + I / S0 <= 6561)%R) by (rewrite <- (exp_ln (1 + I / S0)) by lra; now apply exp_8).
    assert (I = I / S0 * S0)%R by (field; lra). assert (I <= 6560 * S0)%R by nra. lra.
Qed.

(** ** The circuit has a solution *)
Lemma circuit_exists Vf If R V : (0 < scale_current Vf If)%R -> (0 < R)%R -> (0 < V)%R -> exists I, circuit Vf If R V I.
Proof.
  intros HS HR HV. set (S := scale_current Vf If) in *. destruct thermal_c1 as [_ TB].
  set (f := fun I => (R * I + thermal * ln (1 + I / S) - V)%R).
  set (g := fun I => f (Rmax 0 I)).
  assert (IP : (0 < / S)%R) by now apply Rinv_0_lt_compat.
  assert (CM : continuity (fun I => Rmax 0 I)).
  { replace (fun I => Rmax 0 I) with (fun I => ((I + Rabs I) / 2)%R) by (apply FunctionalExtensionality.functional_extensionality; intros I; unfold Rmax, Rabs; destruct (Rle_dec 0 I), (Rcase_abs I); lra).
    unfold Rdiv. apply continuity_mult; [apply continuity_plus; [apply derivable_continuous, derivable_id|exact Rcontinuity_abs]|apply continuity_const; red; reflexivity]. }
  assert (CG : continuity g).
  { unfold g, f. apply continuity_minus; [|apply continuity_const; red; reflexivity]. apply continuity_plus.
    - apply continuity_mult; [apply continuity_const; red; reflexivity|exact CM].
    - apply continuity_mult; [apply continuity_const; red; reflexivity|].
      intros x. apply (continuity_pt_comp (fun I => 1 + Rmax 0 I / S)%R ln x).
      + apply continuity_plus; [apply continuity_const; red; reflexivity|]. apply continuity_mult; [exact CM|apply continuity_const; red; reflexivity].
      + apply derivable_continuous_pt. exists (/ (1 + Rmax 0 x / S))%R. apply derivable_pt_lim_ln.
        assert (0 <= Rmax 0 x / S)%R by (apply Rmult_le_pos; [apply Rmax_l|lra]). lra. }
  destruct (IVT_cor g 0 (V / R) CG) as (I & HI & E).
  - apply Rmult_le_pos; [lra|left; now apply Rinv_0_lt_compat].
  - unfold g. rewrite (Rmax_left 0 0) by lra. assert (VR : (0 <= V / R)%R) by (apply Rmult_le_pos; [lra|left; now apply Rinv_0_lt_compat]).
    rewrite (Rmax_right 0 (V / R)) by exact VR. unfold f.
    replace (0 / S)%R with 0%R by (field; lra). rewrite Rplus_0_r, ln_1.
    assert (L : (0 <= ln (1 + V / R / S))%R) by (apply ln_nonneg; assert (0 <= V / R / S)%R by (apply Rmult_le_pos; lra); lra).
    replace (R * (V / R))%R with V by (field; lra). set (x := ln (1 + V / R / S)) in *. clearbody x.
    replace ((R * 0 + thermal * 0 - V) * (V + thermal * x - V))%R with (- (V * (thermal * x)))%R by ring.
    assert (0 <= V * (thermal * x))%R by (apply Rmult_le_pos; [lra|apply Rmult_le_pos; lra]). lra.
  - exists I. unfold g, f in E. rewrite (Rmax_right 0 I) in E by (apply HI). split; [apply HI|]. fold S. lra.
Qed.
