(** Proofs about the simulations, part 5: the harvester simulation. *)
From Coq Require Import ZArith Bool Reals Lia Lra Psatz List String.
From Flocq Require Import Core IEEE754.BinarySingleNaN.
From RecordUpdate Require Import RecordSet.
From Verif Require FileReadProofs.
From Verif Require Import PyBase F64 F64x HarvModel HarvSpec CalModel CalSpec CalProofs
  CalHwProofs CalDefProofs ConvModel ConvSpec ConvProofs CfgModel CfgSpec CfgHrvProofs CfgDropProofs SimModel SimSpec SimProofs SimLoopProofs.
Import RecordSetNotations ListNotations.
Open Scope Z_scope.

(** A pair of the default calibration: N codes for one unit. *)
Definition codes (p : cpair) (N : Z) : Prop := valid_pair p /\ fR (cp_gain p) = rnd (/ IZR N) /\ fR (cp_off p) = 0%R.

(** From an SI value over integers of 1/M to the code. *)
Lemma through p N M x : codes p N -> 1 <= N <= 2 ^ 23 -> N <= M <= 2 ^ 30 -> fin x = true -> (0 <= fR x)%R ->
  (fR x * IZR N <= 1000000)%R ->
  exists m r, fint (fmul x (fz M)) = Ok m /\ si_to_raw p (idiv (fz m) (fz M)) = Ok (ZnearestE r)
    /\ (- (IZR N / IZR M) - / 524288 <= r - fR x * IZR N <= / 524288)%R.
Proof.
  intros (Vp & Gp & Op) HN HM Fx Px Bx. destruct (fz_ok M) as [FM RM]; [lia|].
  assert (PN : (1 <= IZR N)%R) by (apply IZR_le; lia).
  assert (PM : (IZR N <= IZR M <= 1073741824)%R) by (split; apply IZR_le; lia).
  pose proof eta_tiny as T. pose proof eta64_pos as T0.
  set (X := fR x) in *. set (N' := IZR N) in *. set (M' := IZR M) in *.
  assert (BX : (X <= 1000000)%R) by nra.
  assert (B1 : (0 <= X * M' <= 1073741824000000)%R) by (split; [nra|apply Rle_trans with (1000000 * M')%R; [apply Rmult_le_compat_r; lra|lra]]).
  destruct (fmul_Big x (fz M) Fx FM) as [F1 R1].
  { rewrite RM. fold X M'. apply (CalHwProofs.small_Big _ 1073741824000000); lra. }
  rewrite RM in R1. fold X M' in R1.
  pose proof (rnd_err (X * M')) as E1. rewrite u64_val, <- R1 in E1. rewrite (Rabs_pos_eq (X * M')) in E1 by lra. apply abs_le in E1.
  assert (P1 : (0 <= fR (fmul x (fz M)))%R) by (rewrite R1; apply rnd_nonneg; lra).
  exists (Ztrunc (fR (fmul x (fz M)))). rewrite fint_ok by exact F1.
  pose proof (trunc_bounds _ P1) as TB. pose proof (trunc_nonneg _ P1) as TN. set (m := Ztrunc _) in *.
  set (y := fR (fmul x (fz M))) in *. clearbody m y.
  assert (Pm : (0 <= IZR m)%R) by (apply IZR_le; lia).
  assert (Bm : m <= 2 ^ 52). { apply le_IZR. change (IZR (2 ^ 52)) with 4503599627370496%R. lra. }
  destruct (fz_ok m) as [Fm Rm]; [lia|]. set (m' := IZR m) in *. clearbody m'.
  assert (PM0 : (0 < M')%R) by lra.
  assert (IM : (0 < / M')%R) by now apply Rinv_0_lt_compat.
  assert (IM1 : (/ M' * M' = 1)%R) by (field; lra).
  set (i := (/ M')%R) in *. clearbody i.
  (* quotient *)
  assert (Q : (X * (1 - / 4503599627370496) - i - eta64 <= m' * i <= X * (1 + / 4503599627370496) + eta64)%R).
  { assert (I1 : (i <= 1)%R) by (clear - IM1 PM PN IM; nra).
    assert (ET : (0 <= eta64 * i <= eta64)%R) by (clear - I1 IM T0; nra). split.
    - apply Rle_trans with ((X * M' * (1 - / 4503599627370496) - 1 - eta64) * i)%R; [|apply Rmult_le_compat_r; lra].
      replace ((X * M' * (1 - / 4503599627370496) - 1 - eta64) * i)%R with (X * (i * M') * (1 - / 4503599627370496) - i - eta64 * i)%R by ring.
      rewrite IM1. lra.
    - apply Rle_trans with ((X * M' * (1 + / 4503599627370496) + eta64) * i)%R; [apply Rmult_le_compat_r; lra|].
      replace ((X * M' * (1 + / 4503599627370496) + eta64) * i)%R with (X * (i * M') * (1 + / 4503599627370496) + eta64 * i)%R by ring.
      rewrite IM1. lra. }
  assert (Q0 : (0 <= m' * i)%R) by (apply Rmult_le_pos; lra).
  destruct (idiv_Big (fz m) (fz M) Fm) as [F2 R2].
  { rewrite RM. lra. }
  { rewrite RM, Rm. fold (Rdiv m' M'). unfold Rdiv. apply (CalHwProofs.small_Big _ 1000002); [|lra].
    replace (/ M')%R with i by (apply (Rmult_eq_reg_r M'); [rewrite IM1; field; lra|lra]). nra. }
  rewrite RM, Rm in R2. unfold Rdiv in R2.
  replace (/ M')%R with i in R2 by (apply (Rmult_eq_reg_r M'); [rewrite IM1; field; lra|lra]).
  pose proof (rnd_err (m' * i)) as E2. rewrite u64_val, <- R2 in E2. rewrite (Rabs_pos_eq (m' * i)) in E2 by lra. apply abs_le in E2.
  assert (P2 : (0 <= fR (idiv (fz m) (fz M)))%R) by (rewrite R2; apply rnd_nonneg; lra).
  set (w := fR (idiv (fz m) (fz M))) in *.
  assert (W : (X - i - X * / 2000000000000000 - / 1000000000000000000000 <= w <= X + X * / 2000000000000000 + / 1000000000000000000000)%R) by lra.
  assert (NI : (i * N' <= 1)%R) by nra.
  assert (WN : (X * N' - i * N' - / 1048576 <= w * N' <= X * N' + / 1048576)%R).
  { assert (BN : (N' <= 8388608)%R) by (apply IZR_le; lia). clear - W PN Bx BN. split.
    - apply Rle_trans with ((X - i - X * / 2000000000000000 - / 1000000000000000000000) * N')%R; [|apply Rmult_le_compat_r; lra].
      replace ((X - i - X * / 2000000000000000 - / 1000000000000000000000) * N')%R
        with (X * N' - i * N' - (X * N') * / 2000000000000000 - N' * / 1000000000000000000000)%R by ring. lra.
    - apply Rle_trans with ((X + X * / 2000000000000000 + / 1000000000000000000000) * N')%R; [apply Rmult_le_compat_r; lra|].
      replace ((X + X * / 2000000000000000 + / 1000000000000000000000) * N')%R
        with (X * N' + (X * N') * / 2000000000000000 + N' * / 1000000000000000000000)%R by ring. lra. }
  destruct (probe_near p N (idiv (fz m) (fz M)) HN Vp Gp Op F2 P2) as (r & E3 & E4).
  { fold w N'. lra. }
  exists r. split; [reflexivity|]. split; [exact E3|]. fold w N' in E4. apply abs_le in E4.
  unfold Rdiv. replace (/ M')%R with i by (apply (Rmult_eq_reg_r M'); [rewrite IM1; field; lra|lra]).
  rewrite (Rmult_comm N' i). clearbody w. clear - E4 WN. lra.
Qed.

(** A negative value becomes 0. *)
Lemma below p N M x : codes p N -> 1 <= N <= 2 ^ 23 -> N <= M <= 2 ^ 30 -> fin x = true -> (-100 <= fR x < 0)%R ->
  exists m, fint (fmul x (fz M)) = Ok m /\ si_to_raw p (idiv (fz m) (fz M)) = Ok 0.
Proof.
  intros (Vp & Gp & Op) HN HM Fx Bx. destruct (fz_ok M) as [FM RM]; [lia|].
  assert (PM : (1 <= IZR M <= 1073741824)%R) by (split; apply IZR_le; lia).
  assert (B1 : (-107374182400 <= fR x * IZR M <= 0)%R) by (set (a := fR x) in *; set (b := IZR M) in *; clearbody a b; split; nra).
  destruct (fmul_Big x (fz M) Fx FM) as [F1 R1].
  { rewrite RM, <- Rabs_Ropp. apply (CalHwProofs.small_Big _ 107374182400); lra. }
  rewrite RM in R1. rewrite fint_ok by exact F1.
  assert (B2 : (-107374182400 <= fR (fmul x (fz M)) <= 0)%R).
  { rewrite R1. split; [|rewrite <- rnd_0; apply rnd_le; lra]. rewrite <- (rnd_id (-107374182400)).
    - apply rnd_le; lra.
    - change (-107374182400)%R with (IZR (-107374182400)). apply fmt_IZR. lia. }
  exists (Ztrunc (fR (fmul x (fz M)))). split; [reflexivity|].
  set (y := fR (fmul x (fz M))) in *. clearbody y.
  assert (T : -107374182400 <= Ztrunc y <= 0).
  { split; [rewrite <- (Ztrunc_IZR (-107374182400))|rewrite <- (Ztrunc_IZR 0)]; apply Ztrunc_le; lra. }
  set (m := Ztrunc y) in *. clearbody m. destruct (fz_ok m) as [Fm Rm]; [lia|].
  assert (Bm : (-107374182400 <= IZR m <= 0)%R) by (split; apply IZR_le; lia).
  assert (IM : (0 < / IZR M <= 1)%R) by (split; [apply Rinv_0_lt_compat; lra|rewrite <- Rinv_1; apply Rinv_le; lra]).
  assert (B3 : (-107374182400 <= IZR m / IZR M <= 0)%R) by (unfold Rdiv; set (a := IZR m) in *; set (b := (/ IZR M)%R) in *; clearbody a b; split; nra).
  destruct (idiv_Big (fz m) (fz M) Fm) as [F2 R2].
  { rewrite RM. lra. }
  { rewrite RM, Rm, <- Rabs_Ropp. apply (CalHwProofs.small_Big _ 107374182400); lra. }
  rewrite RM, Rm in R2.
  assert (B4 : (fR (idiv (fz m) (fz M)) <= 0)%R) by (rewrite R2, <- rnd_0; apply rnd_le; lra).
  destruct (fz_ok 0) as [F0 R0]; [lia|].
  destruct (probe_near p N (fz 0) HN Vp Gp Op F0) as (r & E & Er); [rewrite R0; lra|rewrite R0; lra|].
  rewrite R0, Rmult_0_l, Rminus_0_r in Er.
  assert (Z0 : ZnearestE r = 0). { apply near_unique. change (IZR 0) with 0%R. rewrite Rminus_0_r. lra. }
  rewrite Z0 in E. destruct (si_to_raw_mono p Vp (idiv (fz m) (fz M)) (fz 0) 0 F2 F0) as (n1 & E1 & L); [rewrite R0; exact B4|exact E|].
  rewrite E1. pose proof (si_to_raw_nonneg p _ _ E1). f_equal. lia.
Qed.

(** Raw values with the calibration they are stored with. *)
Lemma back p N n : codes p N -> 1 <= N <= 2 ^ 23 -> 0 <= n <= 2 ^ 18 ->
  let x := raw_to_si p (fz n) true in fin x = true /\ (0 <= fR x)%R /\ (- / 1048576 <= fR x * IZR N - IZR n <= / 1048576)%R.
Proof.
  intros ((Fg & Fo & Pg) & Gp & Op) HN Hn. cbv zeta. unfold raw_to_si.
  destruct (fz_ok n) as [Fn Rn]; [lia|].
  assert (PN : (1 <= IZR N <= 8388608)%R) by (split; apply IZR_le; lia).
  assert (Bn : (0 <= IZR n <= 262144)%R) by (split; apply IZR_le; lia).
  pose proof (rnd_err (/ IZR N)) as E. rewrite <- Gp in E. rewrite u64_val in E.
  assert (I : (0 < / IZR N <= 1)%R) by (split; [apply Rinv_0_lt_compat; lra|rewrite <- Rinv_1; apply Rinv_le; lra]).
  rewrite (Rabs_pos_eq (/ IZR N)) in E by lra. apply abs_le in E.
  pose proof eta_tiny as T. pose proof eta64_pos as T0.
  assert (I2 : (/ IZR N * IZR N = 1)%R) by (field; lra).
  set (g := fR (cp_gain p)) in *. set (k := (/ IZR N)%R) in *. set (N' := IZR N) in *. set (n' := IZR n) in *.
  assert (GN : (- / 4000000000000000 <= g * N' - 1 <= / 4000000000000000)%R).
  { clear - E I2 PN T T0 I. nra. }
  assert (Bg : (g <= 2)%R) by (clear - E I T; lra).
  assert (B1 : (0 <= n' * g <= 524288)%R) by (clear - Bn Bg Pg; nra).
  destruct (fmul_Big (fz n) (cp_gain p) Fn Fg) as [F1 R1].
  { rewrite Rn. fold g n'. apply (CalHwProofs.small_Big _ 524288); lra. }
  rewrite Rn in R1. fold g n' in R1.
  assert (P1 : (0 <= fR (fmul (fz n) (cp_gain p)))%R) by (rewrite R1; apply rnd_nonneg; lra).
  pose proof (rnd_err (n' * g)) as E1. rewrite u64_val, <- R1 in E1. rewrite (Rabs_pos_eq (n' * g)) in E1 by lra. apply abs_le in E1.
  set (y := fR (fmul (fz n) (cp_gain p))) in *.
  destruct (fadd_Big (fmul (fz n) (cp_gain p)) (cp_off p) F1 Fo) as [F2 R2].
  { rewrite Op, Rplus_0_r. fold y. apply (CalHwProofs.small_Big _ 524289); lra. }
  rewrite Op, Rplus_0_r, rnd_fR in R2. fold y in R2. split; [exact F2|]. rewrite R2. split; [exact P1|].
  clearbody y. clear F1 R1 F2 R2.
  assert (A : (- / 4000000000 <= n' * g * N' - n' <= / 4000000000)%R).
  { clear - GN Bn. replace (n' * g * N' - n')%R with (n' * (g * N' - 1))%R by ring. nra. }
  assert (D : (- / 9007199254740992 * (n' * g * N') - eta64 * N' <= y * N' - n' * g * N' <= / 9007199254740992 * (n' * g * N') + eta64 * N')%R).
  { clear - E1 PN B1. replace (y * N' - n' * g * N')%R with ((y - n' * g) * N')%R by ring. split; nra. }
  assert (EN : (eta64 * N' <= / 4000000000)%R) by (clear - T T0 PN; nra).
  clear - A D EN Bn. lra.
Qed.
Lemma reproduced p N M n : codes p N -> 1 <= N <= 2 ^ 23 -> 4 * N <= M <= 2 ^ 30 -> 0 <= n <= 2 ^ 18 ->
  exists m, fint (fmul (raw_to_si p (fz n) true) (fz M)) = Ok m /\ si_to_raw p (idiv (fz m) (fz M)) = Ok n.
Proof.
  intros C HN HM Hn. destruct (back p N n C HN Hn) as (Fx & Px & Bx). cbv zeta in *.
  assert (Bn : (0 <= IZR n <= 262144)%R) by (split; apply IZR_le; lia).
  destruct (through p N M (raw_to_si p (fz n) true) C HN ltac:(lia) Fx Px) as (m & r & E1 & E2 & E3); [lra|].
  exists m. split; [exact E1|]. rewrite E2. f_equal. apply near_unique.
  assert (Q : (0 <= IZR N / IZR M <= / 4)%R).
  { assert (PN : (1 <= IZR N)%R) by (apply IZR_le; lia). assert (L : (4 * IZR N <= IZR M)%R) by (rewrite <- mult_IZR; apply IZR_le; lia).
    split; [apply Rlt_le, Rdiv_lt_0_compat; lra|]. apply (Rmult_le_reg_r (IZR M)); [lra|]. unfold Rdiv. rewrite Rmult_assoc, Rinv_l by lra. lra. }
  set (q := (IZR N / IZR M)%R) in *. set (u := (fR _ * IZR N)%R) in *. clearbody q u. apply Rabs_def1; lra.
Qed.

(** Any recording. *)
Lemma recorded p n : usual_pair p -> u32 n -> (physical p n <= 5)%R ->
  let x := raw_to_si p (fz n) true in fin x = true /\ (Rabs (fR x - physical p n) <= / 100000000000000)%R /\ (-1 <= physical p n)%R.
Proof.
  intros ((Fg & Fo & Pg) & Bo) [N1 N2] HP. cbv zeta. unfold raw_to_si, physical in *.
  destruct (fz_ok n) as [Fn Rn]; [lia|]. apply abs_le in Bo.
  assert (Bn : (0 <= IZR n)%R) by (apply IZR_le; lia).
  set (g := fR (cp_gain p)) in *. set (o := fR (cp_off p)) in *. set (n' := IZR n) in *.
  assert (B1 : (0 <= n' * g <= 6)%R) by (split; [apply Rmult_le_pos; lra|lra]).
  pose proof eta_tiny as T. pose proof eta64_pos as T0.
  destruct (fmul_Big (fz n) (cp_gain p) Fn Fg) as [F1 R1].
  { rewrite Rn. fold g n'. apply (CalHwProofs.small_Big _ 6); lra. }
  rewrite Rn in R1. fold g n' in R1. pose proof (rnd_step (n' * g) 6 B1) as S1. rewrite <- R1 in S1.
  set (y := fR (fmul (fz n) (cp_gain p))) in *.
  destruct (fadd_Big (fmul (fz n) (cp_gain p)) (cp_off p) F1 Fo) as [F2 R2].
  { fold y o. apply Rle_trans with 8%R; [apply abs_le; lra|]. apply (Rle_trans _ (Rabs 8)); [rewrite Rabs_pos_eq; lra|].
    apply (CalHwProofs.small_Big _ 8); lra. }
  fold y o in R2. split; [exact F2|]. rewrite R2.
  pose proof (rnd_err_b (y + o) 8) as E. rewrite u64_val in E. specialize (E ltac:(apply abs_le; lra)). apply abs_le in E.
  split; [apply abs_le|]; lra.
Qed.
Lemma stored_code p N M q n tiny : codes p N -> 1 <= N <= 2 ^ 23 -> N <= M <= 2 ^ 30 -> usual_pair q -> u32 n ->
  (physical q n <= 5)%R -> (physical q n * IZR N <= 999999)%R -> (/ 524288 * / IZR N + / 100000000000000 <= tiny)%R ->
  exists m k, fint (fmul (raw_to_si q (fz n) true) (fz M)) = Ok m /\ si_to_raw p (idiv (fz m) (fz M)) = Ok k
    /\ 0 <= k /\ stored_as k N M (physical q n) tiny.
Proof.
  intros C HN HM HQ HU P5 PB HT. destruct (recorded q n HQ HU P5) as (Fx & Ex & L1). cbv zeta in *.
  set (x := raw_to_si q (fz n) true) in *. clearbody x. set (X := physical q n) in *. clearbody X.
  assert (PN : (1 <= IZR N <= 8388608)%R) by (split; apply IZR_le; lia).
  assert (PM : (1 <= IZR M)%R) by (apply IZR_le; lia).
  assert (IN : (0 < / IZR N)%R) by (apply Rinv_0_lt_compat; lra).
  assert (IM : (0 < / IZR M)%R) by (apply Rinv_0_lt_compat; lra).
  assert (I2 : (/ IZR N * IZR N = 1)%R) by (field; lra).
  apply abs_le in Ex. unfold stored_as. unfold Rdiv. rewrite Rinv_mult.
  destruct (Rle_or_lt 0 (fR x)) as [Px|Px].
  - assert (BN : (fR x * IZR N <= 1000000)%R).
    { set (a := fR x) in *. set (b := IZR N) in *. clearbody a b. apply Rle_trans with ((X + / 100000000000000) * b)%R; [apply Rmult_le_compat_r; lra|]. rewrite Rmult_plus_distr_r. lra. }
    destruct (through p N M x C HN HM Fx Px BN) as (m & r & E1 & E2 & E3).
    exists m, (ZnearestE r). split; [exact E1|]. split; [exact E2|]. split; [exact (si_to_raw_nonneg p _ _ E2)|].
    pose proof (near_half r) as H. apply abs_le in H. set (k := IZR (ZnearestE r)) in *. clearbody k.
    unfold Rdiv in E3. set (a := fR x) in *. clearbody a. set (b := IZR N) in *. set (ib := (/ b)%R) in *. set (im := (/ IZR M)%R) in *. clearbody b ib im.
    assert (K : (- (ib / 2 + im + / 524288 * ib) <= k * ib - a <= ib / 2 + / 524288 * ib)%R).
    { replace (k * ib - a)%R with ((k - a * b) * ib)%R by (rewrite Rmult_minus_distr_r, Rmult_assoc, (Rmult_comm b ib), I2; ring).
      assert (J : (- (/ 2 + b * im + / 524288) <= k - a * b <= / 2 + / 524288)%R) by lra. split.
      - apply Rle_trans with (- (/ 2 + b * im + / 524288) * ib)%R; [|apply Rmult_le_compat_r; lra].
        replace (- (/ 2 + b * im + / 524288) * ib)%R with (- (ib / 2 + (ib * b) * im + / 524288 * ib))%R by field. rewrite I2. lra.
      - apply Rle_trans with ((/ 2 + / 524288) * ib)%R; [apply Rmult_le_compat_r; lra|lra]. }
    apply abs_le. unfold Rmax. destruct (Rle_dec 0 X); lra.
  - destruct (below p N M x C HN HM Fx) as (m & E1 & E2); [lra|]. exists m, 0. split; [exact E1|]. split; [exact E2|]. split; [lia|].
    rewrite Rmult_0_l. apply abs_le. unfold Rmax. destruct (Rle_dec 0 X); lra.
Qed.

(** The default calibration. *)
Lemma default_codes : exists h, default_hrv = Ok h /\ codes (adc_V_Sense h) 51200 /\ codes (adc_C_Hrv h) 4915200.
Proof.
  destruct default_parts as (h & e & d & v & c & E & _ & _ & W & C & -> & _). exists (mkHrv d d v c). split; [exact E|].
  cbn [adc_V_Sense adc_C_Hrv]. split.
  - refine ((fun H => conj (proj1 H) (conj (proj1 (proj2 H)) (proj1 (proj2 (proj2 H))))) (probe adc_voltage_to_raw _ 51200 v _ _ _ W));
      [vm_compute; reflexivity|vm_compute; reflexivity|lia].
  - refine ((fun H => conj (proj1 H) (conj (proj1 (proj2 H)) (proj1 (proj2 (proj2 H))))) (probe adc_current_to_raw _ 4915200 c _ _ _ C));
      [vm_compute; reflexivity|vm_compute; reflexivity|lia].
Qed.

(** Operating points pass through. *)
Lemma window_small v v' w s : check_vhrv v = Ok v' -> sensible v (Some D_ivsample) (Some w) s true -> w <= 1 ->
  exists c wt, from_vhrv v (Some D_ivsample) (Some w) s true = Ok (c, wt) /\ forall st x, ivcurve_sample c st x = (st, x).
Proof.
  intros H S Hw. destruct (converts _ _ _ _ _ _ H S) as (c & E). exists c, (vh_wait v). split; [exact E|].
  destruct (from_vhrv_inv _ _ _ _ _ _ _ E) as (_ & _ & _ & _ & E3 & _). destruct (dispatch _ _ _ _ _ _ _ E) as (_ & _ & _ & P & _).
  apply P. rewrite E3. exact Hw.
Qed.

Theorem harvest_same v v' w s h xs : check_vhrv v = Ok v' -> sensible v (Some D_ivsample) (Some w) s true -> w <= 1 ->
  default_hrv = Ok h -> Forall (fun x => 0 <= fst x <= 2 ^ 18 /\ 0 <= snd x <= 2 ^ 18) xs ->
  simulate_harvester v D_ivsample (Some w) s (adc_V_Sense h) (adc_C_Hrv h) xs = Ok xs.
Proof.
  intros H S Hw Eh HX. unfold simulate_harvester. rewrite Eh. cbn [bind].
  destruct (window_small v v' w s H S Hw) as (c & wt & E & P). rewrite E. cbn [bind fst].
  destruct default_codes as (h' & Eh' & CV & CC). rewrite Eh in Eh'. assert (h' = h) by congruence. subst h'.
  generalize (h_init c). induction HX as [|x xs [X1 X2] _ IH]; intros st; cbn [harvest_run]; [reflexivity|].
  destruct (reproduced _ _ (10 ^ 6) _ CV ltac:(lia) ltac:(lia) X1) as (m1 & A1 & B1).
  destruct (reproduced _ _ (10 ^ 9) _ CC ltac:(lia) ltac:(lia) X2) as (m2 & A2 & B2).
  unfold sample_in at 1. rewrite A1. cbn [bind]. rewrite A2. cbn [bind]. rewrite P. unfold sample_out at 1. cbn [fst snd].
  rewrite B1. cbn [bind]. rewrite B2. cbn [bind]. rewrite IH. cbn [bind]. destruct x; reflexivity.
Qed.

Theorem harvest_near v v' w s cv ci xs : check_vhrv v = Ok v' -> sensible v (Some D_ivsample) (Some w) s true -> w <= 1 ->
  usual_pair cv -> usual_pair ci -> Forall (usual_sample cv ci) xs ->
  exists ys, simulate_harvester v D_ivsample (Some w) s cv ci xs = Ok ys /\
    Forall2 (fun x y => 0 <= fst y /\ 0 <= snd y /\ stored_as (fst y) 51200 (10 ^ 6) (physical cv (fst x)) (/ 10000000000)
      /\ stored_as (snd y) 4915200 (10 ^ 9) (physical ci (snd x)) (/ 1000000000000)) xs ys.
Proof.
  intros H S Hw Hv Hi HX. unfold simulate_harvester. destruct default_codes as (h & Eh & CV & CC). rewrite Eh. cbn [bind].
  destruct (window_small v v' w s H S Hw) as (c & wt & E & P). rewrite E. cbn [bind fst].
  generalize (h_init c). induction HX as [|x xs (X1 & X2 & X3 & X4) _ IH]; intros st; cbn [harvest_run]; [exists []; split; [reflexivity|constructor]|].
  destruct (stored_code _ _ (10 ^ 6) cv (fst x) (/ 10000000000) CV ltac:(lia) ltac:(lia) Hv X1) as (m1 & k1 & A1 & B1 & N1 & S1); [lra|lra|lra|].
  destruct (stored_code _ _ (10 ^ 9) ci (snd x) (/ 1000000000000) CC ltac:(lia) ltac:(lia) Hi X2) as (m2 & k2 & A2 & B2 & N2 & S2); [lra|lra|lra|].
  unfold sample_in at 1. rewrite A1. cbn [bind]. rewrite A2. cbn [bind]. rewrite P. unfold sample_out at 1. cbn [fst snd].
  rewrite B1. cbn [bind]. rewrite B2. cbn [bind]. destruct (IH st) as (ys & Ey & F). rewrite Ey. cbn [bind].
  exists ((k1, k2) :: ys). split; [reflexivity|]. constructor; auto.
Qed.

(** ** The voltage step found in the file *)
Lemma fold_min l : forall x, In (fold_left Z.min l x) (x :: l) /\ forall y, In y (x :: l) -> fold_left Z.min l x <= y.
Proof.
  induction l as [|a l IH]; intros x; cbn [fold_left].
  - split; [now left|]. intros y [->|[]]. lia.
  - destruct (IH (Z.min x a)) as [A B]. split.
    + destruct A as [A|A]; [|now right; right]. destruct (Z.min_dec x a) as [D|D]; rewrite <- A, D; [now left|right; now left].
    + intros y [->|[->|I]]; [| |apply B; now right]; pose proof (B (Z.min _ _) (or_introl eq_refl)); lia.
Qed.
Definition small (l : list Z) : Prop := Forall (fun v => 0 <= v <= 2 ^ 18) l.
Lemma nth_small l j : small l -> 0 <= nth j l 0 <= 2 ^ 18.
Proof.
  intros S. destruct (Nat.lt_ge_cases j (List.length l)) as [L|L]; [|rewrite nth_overflow by exact L; lia].
  unfold small in S. rewrite Forall_forall in S. apply S, nth_In, L.
Qed.
Lemma steps_found l : small (firstn 2000 l) ->
  (rises (firstn 2000 l) -> exists d, detected_step l = Some (fmul (fdec 1 3) (fz d)) /\ 0 < d <= 2 ^ 18)
  /\ (~ rises (firstn 2000 l) -> ~ falls (firstn 2000 l) -> detected_step l = None)
  /\ (~ rises (firstn 2000 l) -> falls (firstn 2000 l) -> exists d, detected_step l = Some (fmul (fdec 1 3) (fz d)) /\ 2 ^ 32 - 2 ^ 18 <= d < 2 ^ 32).
Proof.
  unfold detected_step. set (u := firstn 2000 l). clearbody u. intros SM.
  assert (K : forall d, In d (filter (fun d => 0 <? d) (FileModel.udiffs 32 u)) <->
    exists j, (S j < List.length u)%nat /\ d = (nth (S j) u 0 - nth j u 0) mod 2 ^ 32 /\ 0 < d).
  { intros d. rewrite filter_In, FileReadProofs.udiffs_in, Z.ltb_lt. split.
    - intros [(j & A & B) C]. exists j. auto.
    - intros (j & A & B & C). split; [exists j; auto|exact C]. }
  assert (B : forall j, 0 <= nth j u 0 <= 2 ^ 18) by (intros j; now apply nth_small).
  set (ds := filter _ _) in *. clearbody ds.
  assert (NR : ~ rises u -> forall d, In d ds -> 2 ^ 32 - 2 ^ 18 <= d < 2 ^ 32).
  { intros N d I. apply K in I. destruct I as (j & L & E & P). pose proof (B j). pose proof (B (S j)).
    assert (nth (S j) u 0 <= nth j u 0) by (apply Z.nlt_ge; intros X; apply N; exists j; auto).
    set (a := nth j u 0) in *. set (b := nth (S j) u 0) in *. clearbody a b.
    destruct (Z.eq_dec a b) as [->|Ne]; [rewrite Z.sub_diag, Z.mod_0_l in E; lia|].
    rewrite <- (Z.mod_unique_pos (b - a) (2 ^ 32) (-1) (2 ^ 32 + (b - a))) in E by lia. lia. }
  destruct ds as [|x ds]; cbn [FileModel.zmin_list].
  - split; [|split; [auto|]].
    + intros (j & L & C). exfalso. apply (proj2 (K ((nth (S j) u 0 - nth j u 0) mod 2 ^ 32))). exists j. split; [exact L|]. split; [reflexivity|].
      pose proof (B j). pose proof (B (S j)). rewrite Z.mod_small; lia.
    + intros N (j & L & C). exfalso. apply (proj2 (K ((nth (S j) u 0 - nth j u 0) mod 2 ^ 32))). exists j. split; [exact L|]. split; [reflexivity|].
      pose proof (B j). pose proof (B (S j)). set (a := nth j u 0) in *. set (b := nth (S j) u 0) in *. clearbody a b.
      rewrite <- (Z.mod_unique_pos (b - a) (2 ^ 32) (-1) (2 ^ 32 + (b - a))) by lia. lia.
  - destruct (fold_min ds x) as [I M]. set (m := fold_left Z.min ds x) in *. split; [|split].
    + intros (j & L & C). exists m. split; [reflexivity|]. pose proof (proj1 (K m) I) as (_ & _ & _ & P). split; [exact P|].
      pose proof (B j). pose proof (B (S j)). apply Z.le_trans with (nth (S j) u 0 - nth j u 0); [|lia]. apply M. apply K. exists j.
      split; [exact L|]. rewrite Z.mod_small by lia. lia.
    + intros N F. exfalso. destruct (proj1 (K x) (or_introl eq_refl)) as (j & L & E & P).
      pose proof (B j). pose proof (B (S j)). assert (nth (S j) u 0 = nth j u 0).
      { apply Z.le_antisymm; apply Z.nlt_ge; intros X; [apply N|apply F]; exists j; auto. }
      rewrite H1, Z.sub_diag, Z.mod_0_l in E; lia.
    + intros N F. exists m. split; [reflexivity|]. now apply NR.
Qed.

Lemma milli : fin (fdec 1 3) = true /\ (/ 1000 <= fR (fdec 1 3) <= / 999)%R.
Proof.
  destruct (cst (fdec 1 3) 4611686018427388 (-62)) as [A B]; [vm_compute; reflexivity|]. split; [exact A|]. rewrite B.
  assert (bpow radix2 (-62) = / 4611686018427387904)%R as -> by reflexivity. lra.
Qed.
Lemma step_value d : 0 <= d < 2 ^ 32 -> let s := fmul (fdec 1 3) (fz d) in
  fin s = true /\ (IZR d / 1000 * (1 - / 4503599627370496) - / 1000000000 <= fR s <= IZR d / 999 * (1 + / 4503599627370496) + / 1000000000)%R.
Proof.
  intros Hd. cbv zeta. destruct milli as [Fm Bm]. destruct (fz_ok d) as [Fd Rd]; [lia|].
  assert (B : (0 <= IZR d <= 4294967296)%R) by (split; apply IZR_le; lia).
  pose proof eta_tiny as T. pose proof eta64_pos as T0.
  set (k := fR (fdec 1 3)) in *. set (x := IZR d) in *. clearbody x.
  assert (K : (x / 1000 <= k * x <= x / 999)%R) by (unfold Rdiv; clear - Bm B; split; nra).
  destruct (fmul_Big (fdec 1 3) (fz d) Fm Fd) as [F1 R1].
  { rewrite Rd. fold k. apply (CalHwProofs.small_Big _ 4299266563); lra. }
  rewrite Rd in R1. fold k in R1. split; [exact F1|]. rewrite R1.
  pose proof (rnd_err (k * x)) as E. rewrite u64_val, (Rabs_pos_eq (k * x)) in E by lra. apply abs_le in E. lra.
Qed.
Lemma large_step v dt w emu d : 2 ^ 32 - 2 ^ 18 <= d < 2 ^ 32 ->
  exists e, from_vhrv v dt w (Some (fmul (fdec 1 3) (fz d))) emu = Err e.
Proof.
  intros Hd. destruct (step_value d ltac:(lia)) as [Fs Bs]. cbv zeta in *.
  assert (B : (4294705152 <= IZR d <= 4294967296)%R) by (split; apply IZR_le; lia).
  set (s := fmul (fdec 1 3) (fz d)) in *. clearbody s.
  assert (Bs' : (4294000 <= fR s <= 4300000)%R) by lra. clear Bs.
  destruct (fz_ok 1000) as [Fk Rk]; [lia|].
  destruct (fmul_Big (fz 1000) s Fk Fs) as [F1 R1].
  { rewrite Rk. apply (CalHwProofs.small_Big _ 4300000000); lra. }
  rewrite Rk in R1. pose proof (rnd_step (1000 * fR s) 4300000000 ltac:(lra)) as E1. rewrite <- R1 in E1.
  pose proof eta_tiny as T. pose proof eta64_pos as T0.
  destruct (fmul_Big (fmul (fz 1000) s) (fz 1000) F1 Fk) as [F2 R2].
  { rewrite Rk. apply (CalHwProofs.small_Big _ 4300001000000); lra. }
  rewrite Rk in R2. pose proof (rnd_step (fR (fmul (fz 1000) s) * 1000) 4300001000000 ltac:(lra)) as E2. rewrite <- R2 in E2.
  destruct (from_vhrv v dt w (Some s) emu) as [[c wt]|e] eqn:H; [exfalso|eauto].
  destruct (from_vhrv_inv _ _ _ _ _ _ _ H) as (_ & _ & _ & _ & _ & _ & _ & _ & _ & _ & _ & GV).
  assert (G1 : fround (fmul (fmul (fz 1000) s) (fz 1000)) = Ok (h_vstep c)).
  { unfold from_vhrv in H. change (10 ^ 3) with 1000 in H.
    match type of H with (if ?g then _ else _) = _ => destruct g; [|discriminate] end. cbv zeta in H.
    match type of H with (if ?g then _ else _) = _ => destruct g; [|discriminate] end.
    match type of H with (if ?g then _ else _) = _ => destruct g; [|discriminate] end.
    do 5 (match type of H with bind ?r _ = _ => destruct r; cbn [bind] in H; [|discriminate] end).
    match type of H with bind ?r _ = _ => destruct r as [n6|]; cbn [bind] in H; [|discriminate] end.
    do 4 (match type of H with bind ?r _ = _ => destruct r; cbn [bind] in H; [|discriminate] end).
    match type of H with (if ?g then _ else _) = _ => destruct g; [|discriminate] end.
    injection H as <- _. reflexivity. }
  apply pru_u32 in GV. destruct GV as (_ & _ & _ & _ & _ & _ & [_ U] & _).
  apply fround_inv in G1. destruct G1 as [_ G1]. pose proof (near_half (fR (fmul (fmul (fz 1000) s) (fz 1000)))) as NH.
  rewrite <- G1 in NH. apply abs_le in NH. assert (L : (IZR (h_vstep c) < 4294967296)%R) by (apply IZR_lt; lia). lra.
Qed.

(** A recording of operating points with the default calibration and the step found in it. *)
Theorem file_same v v' w h xs : check_vhrv v = Ok v' -> emulable (vh_algorithm v) -> 0 <= w <= 1 -> default_hrv = Ok h ->
  Forall (fun x => 0 <= fst x <= 2 ^ 18 /\ 0 <= snd x <= 2 ^ 18) xs ->
  let volt := firstn 2000 (map fst xs) in
  rises volt \/ ~ falls volt ->
  simulate_harvester v D_ivsample (Some w) (detected_step (map fst xs)) (adc_V_Sense h) (adc_C_Hrv h) xs = Ok xs.
Proof.
  intros H A Hw Eh HX. cbv zeta. intros R.
  assert (SM : small (firstn 2000 (map fst xs))).
  { unfold small. apply Forall_forall. intros x I. assert (I2 : In x (map fst xs)) by (rewrite <- (firstn_skipn 2000 (map fst xs)); apply in_or_app; now left).
    apply in_map_iff in I2. destruct I2 as (y & <- & I2). rewrite Forall_forall in HX. apply HX, I2. }
  destruct (steps_found _ SM) as (S1 & S2 & _).
  apply (harvest_same v v'); try assumption; try lia. unfold sensible.
  split; [intros _; split; [exact A|now left]|]. split; [discriminate|]. split; [intros n E; injection E as <-; unfold u32; lia|].
  assert (Ge : forall d, 0 < d <= 2 ^ 18 -> fin (fmul (fdec 1 3) (fz d)) = true /\ (0 <= fR (fmul (fdec 1 3) (fz d)) <= 4294)%R).
  { intros d Hd. destruct (step_value d ltac:(lia)) as [Fs Bs]. cbv zeta in *. split; [exact Fs|].
    assert (B : (1 <= IZR d <= 262144)%R) by (split; apply IZR_le; lia). lra. }
  intros x Ex. destruct (Classical_Prop.classic (rises (firstn 2000 (map fst xs)))) as [Y|Y].
  - destruct (S1 Y) as (d & E & Hd). rewrite E in Ex. assert (x = fmul (fdec 1 3) (fz d)) by congruence. subst x. now apply Ge.
  - destruct R as [R|R]; [contradiction|]. rewrite (S2 Y R) in Ex. discriminate Ex.
Qed.
Theorem file_falling v dtype w cv ci xs : Forall (fun x => 0 <= fst x <= 2 ^ 18) xs ->
  let volt := firstn 2000 (map fst xs) in
  ~ rises volt -> falls volt -> exists e, simulate_harvester v dtype w (detected_step (map fst xs)) cv ci xs = Err e.
Proof.
  intros HX. cbv zeta. intros R F.
  assert (SM : small (firstn 2000 (map fst xs))).
  { unfold small. apply Forall_forall. intros x I. assert (I2 : In x (map fst xs)) by (rewrite <- (firstn_skipn 2000 (map fst xs)); apply in_or_app; now left).
    apply in_map_iff in I2. destruct I2 as (y & <- & I2). rewrite Forall_forall in HX. apply HX, I2. }
  destruct (steps_found _ SM) as (_ & _ & S3). destruct (S3 R F) as (d & E & Hd). rewrite E.
  unfold simulate_harvester. destruct default_codes as (h & Eh & _). rewrite Eh. cbn [bind].
  destruct (large_step v (Some dtype) w true d Hd) as (e & Ee). rewrite Ee. cbn [bind]. eauto.
Qed.
Theorem source_falling m p v t dtype w cv ci xs : Forall (fun x => 0 <= fst x <= 2 ^ 18) xs ->
  let volt := firstn 2000 (map fst xs) in
  ~ rises volt -> falls volt -> exists e, simulate_source m p v t dtype w (detected_step (map fst xs)) cv ci xs = Err e.
Proof.
  intros HX. cbv zeta. intros R F.
  assert (SM : small (firstn 2000 (map fst xs))).
  { unfold small. apply Forall_forall. intros x I. assert (I2 : In x (map fst xs)) by (rewrite <- (firstn_skipn 2000 (map fst xs)); apply in_or_app; now left).
    apply in_map_iff in I2. destruct I2 as (y & <- & I2). rewrite Forall_forall in HX. apply HX, I2. }
  destruct (steps_found _ SM) as (_ & _ & S3). destruct (S3 R F) as (d & E & Hd). rewrite E.
  unfold simulate_source, vsm_config. destruct default_parts as (_ & cal & _ & _ & _ & _ & Ec & _). rewrite Ec. cbn [bind].
  destruct (large_step (vs_harvester v) (Some dtype) w true d Hd) as (e & Ee). rewrite Ee.
  destruct (from_vsrc p v dtype false) as [c|e']; cbn [bind]; eauto.
Qed.

(** Any harvester: its algorithm runs on the recording in uV and nA. *)
Lemma harvest_run_outputs c cv ci h xs : forall s ys, harvest_run c cv ci h s xs = Ok ys ->
  exists zs, Forall2 (fun x z => sample_in cv ci x = Ok z) xs zs
    /\ Forall2 (fun z y => sample_out (adc_V_Sense h) (adc_C_Hrv h) z = Ok y) (snd (h_run c s zs)) ys.
Proof.
  induction xs as [|x xs IH]; intros s ys; cbn [harvest_run].
  - intros E. injection E as <-. exists []. split; constructor.
  - destruct (sample_in cv ci x) as [z|] eqn:E1; [|discriminate]. cbn [bind]. destruct (ivcurve_sample c s z) as [s' o] eqn:E2.
    destruct (sample_out _ _ o) as [y|] eqn:E3; [|discriminate]. cbn [bind].
    destruct (harvest_run c cv ci h s' xs) as [l|] eqn:E4; [|discriminate]. cbn [bind]. intros E. injection E as <-.
    destruct (IH _ _ E4) as (zs & A & B). exists (z :: zs). split; [constructor; assumption|].
    cbn [h_run]. rewrite E2. destruct (h_run c s' zs) as [s2 os]. cbn [snd] in *. constructor; assumption.
Qed.
Lemma harvest_outputs v dtype w s cv ci xs ys : simulate_harvester v dtype w s cv ci xs = Ok ys ->
  exists h c wt zs, default_hrv = Ok h /\ from_vhrv v (Some dtype) w s true = Ok (c, wt)
    /\ Forall2 (fun x z => fint (fmul (raw_to_si cv (fz (fst x)) true) (fz 1000000)) = Ok (fst z)
                        /\ fint (fmul (raw_to_si ci (fz (snd x)) true) (fz 1000000000)) = Ok (snd z)) xs zs
    /\ Forall2 (fun z y => si_to_raw (adc_V_Sense h) (idiv (fz (fst z)) (fz 1000000)) = Ok (fst y)
                        /\ si_to_raw (adc_C_Hrv h) (idiv (fz (snd z)) (fz 1000000000)) = Ok (snd y)) (h_outputs c zs) ys.
Proof.
  unfold simulate_harvester. destruct default_hrv as [h|]; [|discriminate]. cbn [bind].
  destruct (from_vhrv v (Some dtype) w s true) as [[c wt]|]; [|discriminate]. cbn [bind fst]. intros H.
  destruct (harvest_run_outputs _ _ _ _ _ _ _ H) as (zs & A & B). exists h, c, wt, zs. split; [reflexivity|]. split; [reflexivity|]. split.
  - clear - A. induction A as [|x z xs zs E _ IH]; constructor; [|exact IH]. unfold sample_in in E.
    change (10 ^ 6) with 1000000 in E. change (10 ^ 9) with 1000000000 in E.
    destruct (fint (fmul (raw_to_si cv (fz (fst x)) true) (fz 1000000))) as [a|]; [|discriminate E]. cbn [bind] in E.
    destruct (fint (fmul (raw_to_si ci (fz (snd x)) true) (fz 1000000000))) as [b|]; [|discriminate E]. cbn [bind] in E.
    assert (z = (a, b)) by congruence. subst z. split; reflexivity.
  - unfold h_outputs. revert B. generalize (snd (h_run c (h_init c) zs)). intros os B. clear - B.
    induction B as [|z y os ys E _ IH]; constructor; [|exact IH]. unfold sample_out in E.
    change (10 ^ 6) with 1000000 in E. change (10 ^ 9) with 1000000000 in E.
    destruct (si_to_raw (adc_V_Sense h) (idiv (fz (fst z)) (fz 1000000))) as [a|]; [|discriminate E]. cbn [bind] in E.
    destruct (si_to_raw (adc_C_Hrv h) (idiv (fz (snd z)) (fz 1000000000))) as [b|]; [|discriminate E]. cbn [bind] in E.
    assert (y = (a, b)) by congruence. subst y. split; reflexivity.
Qed.
