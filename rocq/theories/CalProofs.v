(** Proofs about calibration pairs, the export for sysfs and the hardware functions. *)
From Coq Require Import ZArith Bool String List Reals Lia Lra Psatz.
From Flocq Require Import Core IEEE754.BinarySingleNaN.
From Verif Require Import PyBase F64 CalModel CalSpec.
Import ListNotations.
Open Scope Z_scope.

(** Errors with explicit bounds. *)
Lemma rnd_err_b r B : (Rabs r <= B)%R -> (Rabs (rnd r - r) <= u64 * B + eta64)%R.
Proof.
  intros H. eapply Rle_trans; [apply rnd_err|]. apply Rplus_le_compat_r.
  apply Rmult_le_compat_l; [apply bpow_ge_0|exact H].
Qed.
Lemma rnd_add_err_b x y B : fmt x -> fmt y -> (Rabs (x + y) <= B)%R ->
  (Rabs (rnd (x + y) - (x + y)) <= u64 * B)%R.
Proof.
  intros Hx Hy H. eapply Rle_trans; [apply rnd_add_err; auto|].
  apply Rmult_le_compat_l; [apply bpow_ge_0|exact H].
Qed.
Lemma rnd_sub_err_b x y B : fmt x -> fmt y -> (Rabs (x - y) <= B)%R ->
  (Rabs (rnd (x - y) - (x - y)) <= u64 * B)%R.
Proof.
  intros Hx Hy H. eapply Rle_trans; [apply rnd_sub_err; auto|].
  apply Rmult_le_compat_l; [apply bpow_ge_0|exact H].
Qed.

Lemma abs_le r B : (Rabs r <= B)%R <-> (- B <= r <= B)%R.
Proof. split; [apply Rabs_le_inv|apply Rabs_le]. Qed.

(** Powers of two between which everything stays finite. *)
Lemma eta_small g : (bpow radix2 (-1000) <= g)%R -> (eta64 <= / 37778931862957161709568 * g)%R.
Proof.
  intros H. change (/ 37778931862957161709568)%R with (bpow radix2 (-75)).
  unfold eta64. replace (-1075) with (-75 + -1000) by lia. rewrite bpow_plus.
  apply Rmult_le_compat_l; [apply bpow_ge_0|exact H].
Qed.

Lemma big_scale k g : k <= 60 -> (g <= bpow radix2 960)%R -> (bpow radix2 k * g <= Big)%R.
Proof.
  intros Hk H. unfold Big. replace 1023 with (63 + 960) by lia. rewrite bpow_plus.
  apply Rle_trans with (bpow radix2 k * bpow radix2 960)%R.
  - apply Rmult_le_compat_l; [apply bpow_ge_0|exact H].
  - apply Rmult_le_compat_r; [apply bpow_ge_0|]. apply bpow_le. lia.
Qed.

Section Pair.
Variable p : cpair.
Hypothesis V : valid_pair p.

Let g := fR (cp_gain p).
Let o := fR (cp_off p).

Lemma gain_pos : (0 < g)%R.
Proof. apply V. Qed.
Lemma gain_nz : g <> 0%R.
Proof. pose proof gain_pos. lra. Qed.

(** C21 *)
Lemma raw_roundtrip z : 0 <= z < 2 ^ 32 ->
  (bpow radix2 (-1000) <= g <= bpow radix2 960)%R -> (Rabs o <= bpow radix2 51 * g)%R ->
  si_to_raw p (raw_to_si p (fz z) true) = Ok z.
Proof.
  intros Hz [Hg1 Hg2] Ho. pose proof gain_pos as Hg.
  destruct V as (Fg & Fo & _).
  destruct (fz_ok z) as [Fz Ez]; [lia|].
  unfold raw_to_si, si_to_raw.
  assert (Z1 : (0 <= IZR z)%R) by (apply IZR_le; lia).
  assert (Z2 : (IZR z <= 4294967295)%R) by (apply IZR_le; lia).
  change (bpow radix2 51) with 2251799813685248%R in Ho.
  pose proof (eta_small g Hg1) as Het. pose proof eta64_pos as Hep.
  assert (HB : (1152921504606846976 * g <= Big)%R)
    by (change 1152921504606846976%R with (bpow radix2 60); apply big_scale; [lia|exact Hg2]).
  set (X := (IZR z * g)%R).
  assert (HX : (0 <= X <= 4294967295 * g)%R).
  { unfold X. split; [nra|]. apply Rmult_le_compat_r; lra. }
  destruct (fmul_Big (fz z) (cp_gain p)) as [F1 R1]; auto.
  { rewrite Ez. fold g. fold X. apply abs_le. lra. }
  rewrite Ez in R1. fold g in R1. fold X in R1.
  set (m := fmul (fz z) (cp_gain p)) in *.
  assert (E1 : (Rabs (rnd X - X) <= u64 * (4294967295 * g) + eta64)%R).
  { apply rnd_err_b. apply abs_le. lra. }
  rewrite <- R1 in E1. rewrite u64_val in E1. apply abs_le in E1. apply abs_le in Ho.
  destruct (fadd_Big m (cp_off p)) as [F2 R2]; auto.
  { fold o. apply abs_le. lra. }
  fold o in R2. set (s := fadd m (cp_off p)) in *.
  assert (E2 : (Rabs (rnd (fR m + o) - (fR m + o)) <= u64 * (2251804108652545 * g))%R).
  { apply rnd_add_err_b; [apply fmt_fR|apply fmt_fR|]. apply abs_le. lra. }
  rewrite <- R2 in E2. rewrite u64_val in E2. apply abs_le in E2.
  destruct (fsub_Big s (cp_off p)) as [F3 R3]; auto.
  { fold o. apply abs_le. lra. }
  fold o in R3. set (d := fsub s (cp_off p)) in *.
  assert (E3 : (Rabs (rnd (fR s - o) - (fR s - o)) <= u64 * (4294967297 * g))%R).
  { apply rnd_sub_err_b; [apply fmt_fR|apply fmt_fR|]. apply abs_le. lra. }
  rewrite <- R3 in E3. rewrite u64_val in E3. apply abs_le in E3.
  assert (Hd : (- (26 / 100 * g) <= fR d - X <= 26 / 100 * g)%R) by lra.
  assert (Q : (- (26 / 100) <= fR d / g - IZR z <= 26 / 100)%R).
  { unfold X in Hd. replace (fR d / g - IZR z)%R with ((fR d - IZR z * g) * / g)%R by (field; lra).
    assert (0 < / g)%R by (apply Rinv_0_lt_compat; lra).
    assert (g * / g = 1)%R by (apply Rinv_r; lra).
    split; nra. }
  destruct (fdiv_Big d (cp_gain p)) as (q & Eq & F4 & R4); auto.
  { fold g. lra. }
  { fold g. apply Rle_trans with 4294967296%R; [apply abs_le; lra|]. apply IZR_Big.
    apply Z.le_trans with (2 ^ 32); [reflexivity|apply Z.pow_le_mono_r; lia]. }
  rewrite Eq. cbn [bind]. fold g in R4.
  assert (E4 : (Rabs (rnd (fR d / g) - fR d / g) <= u64 * 4294967296 + eta64)%R).
  { apply rnd_err_b. apply abs_le. lra. }
  rewrite <- R4 in E4. rewrite u64_val in E4. apply abs_le in E4.
  assert (He : (eta64 <= 1 / 100)%R).
  { unfold eta64. apply Rle_trans with (bpow radix2 (-10)); [apply bpow_le; lia|].
    change (bpow radix2 (-10)) with (/ 1024)%R. lra. }
  destruct (fz_ok 0) as [F0 E0]; [lia|].
  rewrite fround_ok by (apply fmax_fin; auto). rewrite fmax_R by auto. rewrite E0.
  f_equal. apply near_unique. apply Rabs_def1; unfold Rmax; destruct (Rle_dec _ _); lra.
Qed.

(** C22: never negative. *)
Lemma si_to_raw_nonneg v n : si_to_raw p v = Ok n -> 0 <= n.
Proof.
  unfold si_to_raw. destruct (fdiv _ _) as [q|e]; [|discriminate]. cbn [bind].
  intros H. apply fround_inv in H. destruct H as [F ->]. apply near_ge_Z.
  unfold fmax in *. destruct (flt q (fz 0)) eqn:E.
  - rewrite fz_R by lia. lra.
  - apply flt_R_false in E; [|exact F|apply fz_fin; lia]. now rewrite fz_R in E by lia.
Qed.


(** C22: monotone; if the larger value can be converted, so can the smaller one. *)
Lemma si_to_raw_mono v1 v2 n2 : fin v1 = true -> fin v2 = true -> (fR v1 <= fR v2)%R ->
  si_to_raw p v2 = Ok n2 -> exists n1, si_to_raw p v1 = Ok n1 /\ n1 <= n2.
Proof.
  intros F1 F2 Hv. destruct V as (Fg & Fo & Hg). unfold si_to_raw.
  rewrite !fdiv_nz by (auto; lra). cbn [bind].
  destruct (fsub_x v1 (cp_off p) F1 Fo) as [N1 X1].
  destruct (fsub_x v2 (cp_off p) F2 Fo) as [N2 X2].
  assert (L : (xR (fsub v1 (cp_off p)) <= xR (fsub v2 (cp_off p)))%R).
  { rewrite X1, X2. apply clampR_le, rnd_le. lra. }
  destruct (idiv_mono _ _ _ N1 N2 Fg Hg L) as (M1 & M2 & L').
  set (q1 := idiv (fsub v1 (cp_off p)) (cp_gain p)) in *.
  set (q2 := idiv (fsub v2 (cp_off p)) (cp_gain p)) in *.
  destruct (round_max0 q2 M2) as [[_ E]|[T E]]; rewrite E; [discriminate|].
  intros H. injection H as <-.
  destruct (round_max0 q1 M1) as [[T1 E1]|[T1 E1]]; [lra|].
  rewrite E1. eexists. split; [reflexivity|]. apply near_le. apply Rle_max_compat_r. exact L'.
Qed.

(** C22: accuracy of a conversion and back. *)
Lemma si_roundtrip v n : fin v = true -> (o <= fR v)%R ->
  (Rabs (fR v) <= bpow radix2 1000)%R -> (Rabs o <= bpow radix2 1000)%R -> (g <= bpow radix2 960)%R ->
  si_to_raw p v = Ok n -> n <= 2 ^ 53 ->
  let w := raw_to_si p (fz n) true in
  fin w = true
  /\ (Rabs (fR w - fR v) <= g / 2 + bpow radix2 (-50) * (Rabs (fR v) + Rabs o + g) + bpow radix2 (-1070))%R.
Proof.
  intros Fv Hov Hv Ho Hg2 Hn Hn2. pose proof gain_pos as Hg. pose proof V as (Fg & Fo & _).
  pose proof (si_to_raw_nonneg v n Hn) as Hn0.
  pose proof eta64_pos as Hep.
  assert (Heta : (bpow radix2 (-1070) = 32 * eta64)%R).
  { unfold eta64. replace (-1070) with (5 + -1075) by lia. rewrite bpow_plus. reflexivity. }
  rewrite Heta.
  set (A := Rabs (fR v)) in *. set (B := Rabs o) in *.
  assert (HA : (- A <= fR v <= A)%R) by (apply abs_le; unfold A; lra).
  assert (HB : (- B <= o <= B)%R) by (apply abs_le; unfold B; lra).
  clearbody A B.
  assert (HBig : (bpow radix2 1000 * 8 <= Big)%R).
  { unfold Big. change 8%R with (bpow radix2 3). rewrite <- bpow_plus. apply bpow_le. lia. }
  assert (HBig2 : (bpow radix2 960 <= bpow radix2 1000)%R) by (apply bpow_le; lia).
  assert (HP : (0 < bpow radix2 1000)%R) by apply bpow_gt_0.
  assert (HE : (eta64 <= bpow radix2 1000)%R) by (unfold eta64; apply bpow_le; lia).
  change (bpow radix2 (-50)) with (/ 1125899906842624)%R.
  unfold si_to_raw in Hn. rewrite fdiv_nz in Hn by (auto; fold g; lra). cbn [bind] in Hn.
  destruct (fsub_Big v (cp_off p)) as [F1 R1]; auto.
  { fold o. apply abs_le. lra. }
  fold o in R1. set (d := fsub v (cp_off p)) in *.
  assert (E1 : (Rabs (rnd (fR v - o) - (fR v - o)) <= u64 * (fR v - o))%R).
  { apply rnd_sub_err_b; [apply fmt_fR|apply fmt_fR|]. apply abs_le. lra. }
  rewrite <- R1 in E1. rewrite u64_val in E1. apply abs_le in E1.
  set (y := (fR v - o)%R) in *.
  assert (Hyd : (y = fR v - o)%R) by reflexivity.
  assert (Hy : (0 <= y <= A + B)%R) by (unfold y; lra).
  clearbody y.
  assert (Hd0 : (0 <= fR d)%R) by (rewrite R1; apply rnd_nonneg; lra).
  destruct (idiv_x d (cp_gain p) F1 Fg Hg) as [N2 X2].
  fold g in X2. set (q := idiv d (cp_gain p)) in *.
  destruct (round_max0 q N2) as [[_ E]|[T E]]; rewrite E in Hn; [discriminate|].
  injection Hn as Hn.
  assert (Hdg : (0 <= fR d / g)%R).
  { unfold Rdiv. apply Rmult_le_pos; [lra|]. apply Rlt_le, Rinv_0_lt_compat. exact Hg. }
  assert (Hq0 : (0 <= rnd (fR d / g))%R) by (apply rnd_nonneg; exact Hdg).
  assert (Xq : xR q = rnd (fR d / g)).
  { rewrite X2 in T |- *. pose proof Top_pos. unfold clampR, Rmax, Rmin in *.
    repeat destruct (Rle_dec _ _); try lra. }
  rewrite Xq in Hn. rewrite Rmax_left in Hn by exact Hq0.
  pose proof (near_half (rnd (fR d / g))) as Hh. rewrite Hn in Hh. apply abs_le in Hh.
  assert (E2 : (Rabs (rnd (fR d / g) - fR d / g) <= u64 * (fR d / g) + eta64)%R).
  { apply rnd_err_b. apply abs_le. lra. }
  rewrite u64_val in E2. apply abs_le in E2.
  (* multiply by the gain *)
  set (qr := rnd (fR d / g)) in *. clearbody qr.
  set (k := (fR d / g)%R) in *.
  assert (Gd : (fR d = k * g)%R) by (unfold k; field; lra).
  assert (G1 : (- (g / 2) <= IZR n * g - qr * g <= g / 2)%R) by (split; nra).
  assert (G2 : (- (/ 9007199254740992 * fR d + eta64 * g)
                <= qr * g - fR d <= / 9007199254740992 * fR d + eta64 * g)%R).
  { rewrite Gd. clear - E2 Hg. split; nra. }
  clearbody k.
  assert (G3 : (eta64 * g <= / 9007199254740992 * g)%R).
  { apply Rmult_le_compat_r; [lra|]. rewrite <- u64_val. unfold eta64, u64. apply bpow_le. lia. }
  set (X := (IZR n * g)%R) in *.
  assert (HX0 : (0 <= X)%R) by (unfold X; apply Rmult_le_pos; [apply IZR_le; lia|lra]).
  set (eg := (eta64 * g)%R) in *.
  assert (Heg : (0 <= eg)%R) by (unfold eg; apply Rmult_le_pos; lra).
  assert (EX : (X = IZR n * g)%R) by reflexivity.
  set (qg := (qr * g)%R) in *. clearbody X eg qg.
  destruct (fz_ok n) as [Fn En]; [lia|].
  unfold raw_to_si. cbv zeta.
  destruct (fmul_Big (fz n) (cp_gain p)) as [F3 R3]; auto.
  { rewrite En. fold g. rewrite <- EX. apply abs_le. lra. }
  rewrite En in R3. fold g in R3. rewrite <- EX in R3. set (m := fmul (fz n) (cp_gain p)) in *.
  assert (E3 : (Rabs (rnd X - X) <= u64 * X + eta64)%R) by (apply rnd_err_b; apply abs_le; lra).
  rewrite <- R3 in E3. rewrite u64_val in E3. apply abs_le in E3.
  destruct (fadd_Big m (cp_off p)) as [F4 R4]; auto.
  { fold o. apply abs_le. lra. }
  fold o in R4. split; [exact F4|].
  assert (E4 : (Rabs (rnd (fR m + o) - (fR m + o)) <= u64 * (2 * A + 3 * B + 2 * g + 4 * eta64))%R).
  { apply rnd_add_err_b; [apply fmt_fR|apply fmt_fR|]. apply abs_le. lra. }
  rewrite <- R4 in E4. rewrite u64_val in E4. apply abs_le in E4.
  apply abs_le. rewrite Hyd in *. lra.
Qed.

End Pair.
