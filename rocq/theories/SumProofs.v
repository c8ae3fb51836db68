(** Proofs about the energies that the simulations report. *)
From Coq Require Import ZArith Bool Reals List Permutation Lia Lra Psatz.
From Flocq Require Import Core IEEE754.BinarySingleNaN.
From Verif Require Import PyBase F64 HarvModel CalModel CalSpec ConvModel ConvSpec CfgModel TgtModel TgtSpec SimModel SimSpec SumModel SumSpec.
Import ListNotations.
Open Scope Z_scope.

(** ** Lists *)

Lemma skip_skip {A} n m (l : list A) : skipn n (skipn m l) = skipn (n + m) l.
Proof.
  rewrite Nat.add_comm. revert l. induction m as [|m IH]; intros l; [reflexivity|].
  destruct l as [|x l]; cbn [skipn Nat.add]; [now rewrite skipn_nil|apply IH].
Qed.

Lemma buffers_blocks {A} size (xs : list A) : (0 < size)%nat ->
  concat (buffers size xs) = complete size xs /\ Forall (fun b => length b = size) (buffers size xs)
  /\ length (buffers size xs) = (length xs / size)%nat.
Proof.
  intros S0. unfold buffers, complete.
  assert (K : forall j q, (j + q <= length xs / size)%nat ->
    concat (map (fun k => firstn size (skipn (k * size) xs)) (seq j q)) = firstn (q * size) (skipn (j * size) xs)
    /\ Forall (fun b => length b = size) (map (fun k => firstn size (skipn (k * size) xs)) (seq j q))).
  { intros j q. revert j. induction q as [|q IH]; intros j L; cbn [seq map concat].
    - split; [reflexivity|constructor].
    - destruct (IH (S j)) as [I1 I2]; [lia|].
      assert (D : (length xs / size * size <= length xs)%nat) by (rewrite Nat.mul_comm; apply Nat.mul_div_le; lia).
      assert (L1 : ((S j + q) * size <= length xs)%nat) by nia.
      split.
      + rewrite I1. replace (S j * size)%nat with (size + j * size)%nat by lia.
        replace (S q * size)%nat with (size + q * size)%nat by lia.
        rewrite <- skip_skip. set (ys := skipn (j * size) xs).
        assert (LY : (size + q * size <= length ys)%nat) by (subst ys; rewrite skipn_length; nia).
        rewrite <- (firstn_skipn size ys) at 3. rewrite firstn_app, firstn_firstn.
        rewrite firstn_length. replace (Nat.min size (length ys)) with size by lia.
        replace (Nat.min (size + q * size) size) with size by lia.
        replace (size + q * size - size)%nat with (q * size)%nat by lia. reflexivity.
      + constructor; [|exact I2]. rewrite firstn_length, skipn_length. nia. }
  destruct (K 0%nat (length xs / size)%nat) as [A1 A2]; [lia|]. rewrite A1. cbn [skipn Nat.mul].
  split; [reflexivity|]. split; [exact A2|]. now rewrite map_length, seq_length.
Qed.

Lemma Rsum_app l1 l2 : Rsum (l1 ++ l2) = (Rsum l1 + Rsum l2)%R.
Proof. induction l1 as [|x l IH]; cbn [app Rsum]; [lra|rewrite IH; lra]. Qed.
Lemma Rsum_perm l1 l2 : Permutation l1 l2 -> Rsum l1 = Rsum l2.
Proof. induction 1; cbn [Rsum]; lra. Qed.
Lemma Rsum_concat (ls : list (list R)) : Rsum (concat ls) = Rsum (map Rsum ls).
Proof. induction ls as [|l ls IH]; cbn [concat map Rsum]; [reflexivity|rewrite Rsum_app, IH; reflexivity]. Qed.
Lemma Rsum_nonneg l : Forall (fun x => (0 <= x)%R) l -> (0 <= Rsum l)%R.
Proof. induction 1; cbn [Rsum]; lra. Qed.
Lemma Rsum_scale k l : Rsum (map (fun x => k * x)%R l) = (k * Rsum l)%R.
Proof. induction l as [|x l IH]; cbn [map Rsum]; [lra|rewrite IH; lra]. Qed.
Lemma Rsum_abs l : (Rabs (Rsum l) <= Rsum (map Rabs l))%R.
Proof.
  induction l as [|x l IH]; cbn [map Rsum]; [rewrite Rabs_R0; lra|].
  eapply Rle_trans; [apply Rabs_triang|]. lra.
Qed.
Lemma Rsum_diff {A} (f g h : A -> R) l : (forall x, In x l -> (Rabs (f x - g x) <= h x)%R) ->
  (Rabs (Rsum (map f l) - Rsum (map g l)) <= Rsum (map h l))%R.
Proof.
  induction l as [|x l IH]; intros H; cbn [map Rsum]; [rewrite Rminus_0_r, Rabs_R0; lra|].
  pose proof (H x (or_introl eq_refl)) as Hx. assert (HI := IH (fun y I => H y (or_intror I))).
  replace (f x + Rsum (map f l) - (g x + Rsum (map g l)))%R with ((f x - g x) + (Rsum (map f l) - Rsum (map g l)))%R by ring.
  eapply Rle_trans; [apply Rabs_triang|]. lra.
Qed.
Lemma Rsum_bound {A} (f : A -> R) c l : (forall x, In x l -> (f x <= c)%R) -> (Rsum (map f l) <= INR (length l) * c)%R.
Proof.
  induction l as [|x l IH]; intros H; cbn [map Rsum length]; [cbn; lra|]. rewrite S_INR.
  pose proof (H x (or_introl eq_refl)). assert (HI := IH (fun y I => H y (or_intror I))). lra.
Qed.

(** ** Sums of floats *)

Lemma zero_R s : fin (B754_zero s) = true /\ fR (B754_zero s) = 0%R.
Proof. split; reflexivity. Qed.

Lemma adds_nil l s : adds_up l s -> l = [] -> fin s = true /\ fR s = 0%R.
Proof.
  induction 1 as [sg|x|l1 l2 l a b A IA B IB P]; intros E.
  - apply zero_R.
  - discriminate E.
  - subst l. apply Permutation_sym, Permutation_nil in P. apply app_eq_nil in P. destruct P as [-> ->].
    destruct (IA eq_refl) as [Fa Ra]. destruct (IB eq_refl) as [Fb Rb].
    destruct (fadd_Big a b Fa Fb) as [F R]; [rewrite Ra, Rb, Rplus_0_r, Rabs_R0; apply Rlt_le, Big_pos|].
    split; [exact F|]. rewrite R, Ra, Rb, Rplus_0_r. apply rnd_0.
Qed.

Lemma u64_pos : (0 < u64)%R. Proof. apply bpow_gt_0. Qed.

Lemma adds_close l s : adds_up l s -> Forall (fun x => fin x = true) l ->
  (Rsum (map (fun x => Rabs (fR x)) l) <= bpow radix2 1020)%R -> (INR (length l) * u64 <= / 4)%R ->
  fin s = true /\ (Rabs (fR s - Rsum (map fR l)) <= 2 * u64 * INR (length l) * Rsum (map (fun x => Rabs (fR x)) l))%R.
Proof.
  pose proof u64_pos as U0.
  assert (POS : forall l : list f64, (0 <= Rsum (map (fun x => Rabs (fR x)) l))%R).
  { intros l0. apply Rsum_nonneg, Forall_forall. intros x I. apply in_map_iff in I. destruct I as (y & <- & _). apply Rabs_pos. }
  induction 1 as [sg|x|l1 l2 l a b A IA B IB P]; intros F M N.
  - split; [reflexivity|]. cbn. rewrite Rminus_0_r, Rabs_R0. lra.
  - split; [now inversion F|]. cbn [map Rsum length INR]. rewrite !Rplus_0_r, Rminus_diag_eq by reflexivity. rewrite Rabs_R0.
    pose proof (Rabs_pos (fR x)). nra.
  - assert (F' : Forall (fun x => fin x = true) (l1 ++ l2)).
    { apply Forall_forall. intros x I. rewrite Forall_forall in F. apply F. eapply Permutation_in; [exact P|exact I]. }
    apply Forall_app in F'. destruct F' as [F1 F2].
    assert (E1 : Rsum (map fR l) = (Rsum (map fR l1) + Rsum (map fR l2))%R).
    { rewrite <- Rsum_app, <- map_app. symmetry. apply Rsum_perm, Permutation_map, P. }
    assert (E2 : Rsum (map (fun x => Rabs (fR x)) l) = (Rsum (map (fun x => Rabs (fR x)) l1) + Rsum (map (fun x => Rabs (fR x)) l2))%R).
    { rewrite <- Rsum_app, <- map_app. symmetry. apply Rsum_perm, Permutation_map, P. }
    assert (E3 : INR (length l) = (INR (length l1) + INR (length l2))%R).
    { rewrite <- plus_INR, <- app_length. f_equal. symmetry. apply Permutation_length, P. }
    rewrite E1, E2, E3. rewrite E2 in M. rewrite E3 in N.
    set (S1 := Rsum (map (fun x => Rabs (fR x)) l1)) in *. set (S2 := Rsum (map (fun x => Rabs (fR x)) l2)) in *.
    assert (P1 : (0 <= S1)%R) by apply POS. assert (P2 : (0 <= S2)%R) by apply POS.
    assert (G1 : (Rabs (Rsum (map fR l1)) <= S1)%R) by (subst S1; rewrite <- (map_map fR Rabs); apply Rsum_abs).
    assert (G2 : (Rabs (Rsum (map fR l2)) <= S2)%R) by (subst S2; rewrite <- (map_map fR Rabs); apply Rsum_abs).
    pose proof (pos_INR (length l1)) as N1. pose proof (pos_INR (length l2)) as N2.
    assert (M1 : (INR (length l1) * u64 <= / 4)%R) by nra. assert (M2 : (INR (length l2) * u64 <= / 4)%R) by nra.
    assert (B1 : (S1 <= bpow radix2 1020)%R) by lra. assert (B2 : (S2 <= bpow radix2 1020)%R) by lra.
    destruct (IA F1 B1 M1) as [Fa Ra]. destruct (IB F2 B2 M2) as [Fb Rb].
    set (n1 := INR (length l1)) in *. set (n2 := INR (length l2)) in *.
    set (T1 := Rsum (map fR l1)) in *. set (T2 := Rsum (map fR l2)) in *.
    assert (Q1 : (2 * u64 * n1 * S1 <= / 2 * S1)%R) by nra.
    assert (Q2 : (2 * u64 * n2 * S2 <= / 2 * S2)%R) by nra.
    assert (BA : (Rabs (fR a) <= 2 * S1)%R).
    { replace (fR a) with ((fR a - T1) + T1)%R by ring. eapply Rle_trans; [apply Rabs_triang|]. lra. }
    assert (BB : (Rabs (fR b) <= 2 * S2)%R).
    { replace (fR b) with ((fR b - T2) + T2)%R by ring. eapply Rle_trans; [apply Rabs_triang|]. lra. }
    assert (BIG : (2 * bpow radix2 1020 <= Big)%R).
    { unfold Big. change 2%R with (bpow radix2 1). rewrite <- bpow_plus. apply bpow_le. lia. }
    assert (AB : (Rabs (fR a + fR b) <= 2 * (S1 + S2))%R).
    { eapply Rle_trans; [apply Rabs_triang|]. lra. }
    destruct (fadd_Big a b Fa Fb) as [Fs Rs]; [lra|]. split; [exact Fs|]. rewrite Rs.
    (* one of the two is an empty sum: nothing is rounded *)
    destruct l1 as [|x1 l1'].
    { destruct (adds_nil _ _ A eq_refl) as [_ Z]. rewrite Z, Rplus_0_l, rnd_fR. cbn in T1, S1, n1. subst T1 S1 n1.
      rewrite !Rplus_0_l. exact Rb. }
    destruct l2 as [|x2 l2'].
    { destruct (adds_nil _ _ B eq_refl) as [_ Z]. rewrite Z, Rplus_0_r, rnd_fR. cbn in T2, S2, n2. subst T2 S2 n2.
      rewrite !Rplus_0_r. exact Ra. }
    assert (O1 : (1 <= n1)%R). { subst n1. cbn [length]. rewrite S_INR. pose proof (pos_INR (length l1')). lra. }
    assert (O2 : (1 <= n2)%R). { subst n2. cbn [length]. rewrite S_INR. pose proof (pos_INR (length l2')). lra. }
    pose proof (rnd_add_err (fR a) (fR b) (fmt_fR a) (fmt_fR b)) as ER.
    replace (rnd (fR a + fR b) - (T1 + T2))%R with ((rnd (fR a + fR b) - (fR a + fR b)) + ((fR a - T1) + (fR b - T2)))%R by ring.
    eapply Rle_trans; [apply Rabs_triang|]. pose proof (Rabs_triang (fR a - T1) (fR b - T2)) as TR.
    assert (u64 * Rabs (fR a + fR b) <= u64 * (2 * (S1 + S2)))%R by (apply Rmult_le_compat_l; lra).
    assert (H1 : (2 * u64 * n1 * S1 + 2 * u64 * n2 * S2 + u64 * (2 * (S1 + S2)) <= 2 * u64 * (n1 + n2) * (S1 + S2))%R).
    { assert (0 <= u64 * (n1 - 1) * S2)%R by (apply Rmult_le_pos; [apply Rmult_le_pos; lra|lra]).
      assert (0 <= u64 * (n2 - 1) * S1)%R by (apply Rmult_le_pos; [apply Rmult_le_pos; lra|lra]). lra. }
    lra.
Qed.

Lemma adds_nonneg l s : adds_up l s -> Forall (fun x => fin x = true /\ (0 <= fR x)%R) l ->
  (Rsum (map (fun x => Rabs (fR x)) l) <= bpow radix2 1020)%R -> (INR (length l) * u64 <= / 4)%R -> (0 <= fR s)%R.
Proof.
  pose proof u64_pos as U0.
  assert (POS : forall l : list f64, (0 <= Rsum (map (fun x => Rabs (fR x)) l))%R).
  { intros l0. apply Rsum_nonneg, Forall_forall. intros x I. apply in_map_iff in I. destruct I as (y & <- & _). apply Rabs_pos. }
  induction 1 as [sg|x|l1 l2 l a b A IA B IB P]; intros F M N.
  - cbn. lra.
  - inversion F as [|? ? [_ H] _]; subst. exact H.
  - pose proof (adds_two _ _ _ _ _ A B P) as AB.
    assert (F' : Forall (fun x => fin x = true /\ (0 <= fR x)%R) (l1 ++ l2)).
    { apply Forall_forall. intros x I. rewrite Forall_forall in F. apply F. eapply Permutation_in; [exact P|exact I]. }
    apply Forall_app in F'. destruct F' as [F1 F2].
    assert (E2 : Rsum (map (fun x => Rabs (fR x)) l) = (Rsum (map (fun x => Rabs (fR x)) l1) + Rsum (map (fun x => Rabs (fR x)) l2))%R).
    { rewrite <- Rsum_app, <- map_app. symmetry. apply Rsum_perm, Permutation_map, P. }
    assert (E3 : INR (length l) = (INR (length l1) + INR (length l2))%R).
    { rewrite <- plus_INR, <- app_length. f_equal. symmetry. apply Permutation_length, P. }
    rewrite E2 in M. rewrite E3 in N. pose proof (POS l1). pose proof (POS l2).
    pose proof (pos_INR (length l1)) as N1. pose proof (pos_INR (length l2)) as N2.
    assert (M1 : (INR (length l1) * u64 <= / 4)%R) by nra. assert (M2 : (INR (length l2) * u64 <= / 4)%R) by nra.
    assert (Ia : (0 <= fR a)%R) by (apply IA; [exact F1|lra|exact M1]).
    assert (Ib : (0 <= fR b)%R) by (apply IB; [exact F2|lra|exact M2]).
    assert (S : forall l a, adds_up l a -> Forall (fun x => fin x = true /\ (0 <= fR x)%R) l ->
       (Rsum (map (fun x => Rabs (fR x)) l) <= bpow radix2 1020)%R -> (INR (length l) * u64 <= / 4)%R -> fin a = true /\
       (Rabs (fR a) <= 2 * Rsum (map (fun x => Rabs (fR x)) l))%R).
    { clear - U0 POS. intros l a A F M N. destruct (adds_close l a A) as [Fa Ra]; [|exact M|exact N|].
      - eapply Forall_impl; [|exact F]. intros x [H _]. exact H.
      - split; [exact Fa|]. pose proof (POS l). pose proof (Rsum_abs (map fR l)) as G. rewrite map_map in G.
        replace (fR a) with ((fR a - Rsum (map fR l)) + Rsum (map fR l))%R by ring. eapply Rle_trans; [apply Rabs_triang|]. nra. }
    destruct (S _ _ A F1) as [Fa Ba]; [lra|exact M1|]. destruct (S _ _ B F2) as [Fb Bb]; [lra|exact M2|].
    destruct (fadd_Big a b Fa Fb) as [Fs Rs].
    + assert (BIG : (2 * bpow radix2 1020 <= Big)%R).
      { unfold Big. change 2%R with (bpow radix2 1). rewrite <- bpow_plus. apply bpow_le. lia. }
      eapply Rle_trans; [apply Rabs_triang|]. lra.
    + rewrite Rs. apply rnd_nonneg. lra.
Qed.

(** ** Errors relative to a size *)

Definition near (k a x y Y : R) : Prop := (Rabs (x - y) <= k * u64 * Y + a)%R /\ (Rabs y <= Y)%R.

Lemma near_rnd k a x y Y : (0 <= k)%R -> (k * u64 <= 1)%R -> (0 <= a)%R -> near k a x y Y -> near (k + 2) (2 * a + eta64) (rnd x) y Y.
Proof.
  intros K KU A [H HY]. pose proof u64_pos as U. pose proof eta64_pos as ET.
  assert (U1 : (u64 <= 1)%R) by (rewrite u64_val; lra).
  assert (PY : (0 <= Y)%R) by (pose proof (Rabs_pos y); lra).
  split; [|exact HY]. pose proof (rnd_err x) as E.
  assert (BX : (Rabs x <= 2 * Y + a)%R).
  { replace x with ((x - y) + y)%R by ring. eapply Rle_trans; [apply Rabs_triang|]. nra. }
  replace (rnd x - y)%R with ((rnd x - x) + (x - y))%R by ring. eapply Rle_trans; [apply Rabs_triang|].
  assert (u64 * Rabs x <= u64 * (2 * Y + a))%R by (apply Rmult_le_compat_l; lra).
  assert (u64 * a <= 1 * a)%R by (apply Rmult_le_compat_r; lra). nra.
Qed.

Lemma near_scale k a x y Y c d j : (0 <= k)%R -> (0 <= j)%R -> (k * j * u64 <= 1)%R -> (j * u64 <= 1)%R -> (0 <= a)%R -> (0 <= d)%R ->
  near k a x y Y -> (Rabs (c - d) <= j * u64 * d)%R -> near (k + j + 1) (2 * a * d) (x * c) (y * d) (Y * d).
Proof.
  intros K J KJ JU A D [H HY] C. pose proof u64_pos as U.
  assert (PY : (0 <= Y)%R) by (pose proof (Rabs_pos y); lra).
  split; [|rewrite Rabs_mult, (Rabs_pos_eq d) by exact D; apply Rmult_le_compat_r; lra].
  replace (x * c - y * d)%R with ((x - y) * c + y * (c - d))%R by ring. eapply Rle_trans; [apply Rabs_triang|]. rewrite !Rabs_mult.
  assert (BC : (Rabs c <= d + j * u64 * d)%R).
  { replace c with ((c - d) + d)%R by ring. eapply Rle_trans; [apply Rabs_triang|]. rewrite (Rabs_pos_eq d) by exact D. lra. }
  assert (T1 : (Rabs (x - y) * Rabs c <= (k * u64 * Y + a) * (d + j * u64 * d))%R) by (apply Rmult_le_compat; auto using Rabs_pos).
  assert (T2 : (Rabs y * Rabs (c - d) <= Y * (j * u64 * d))%R) by (apply Rmult_le_compat; auto using Rabs_pos).
  assert (PU : (0 <= u64 * Y * d)%R) by (apply Rmult_le_pos; [apply Rmult_le_pos; lra|lra]).
  assert (T3 : (k * j * u64 * (u64 * Y * d) <= 1 * (u64 * Y * d))%R) by (apply Rmult_le_compat_r; lra).
  assert (PA : (0 <= a * d)%R) by (apply Rmult_le_pos; lra).
  assert (T4 : (j * u64 * (a * d) <= 1 * (a * d))%R) by (apply Rmult_le_compat_r; lra).
  lra.
Qed.

Lemma femto_ok : fin (fdec 1 15) = true /\ (Rabs (fR (fdec 1 15) - / 10 ^ 15) <= 2 * u64 * / 10 ^ 15)%R /\ (0 <= fR (fdec 1 15) <= 1)%R.
Proof.
  destruct (cst (fdec 1 15) 5070602400912918 (-102)) as [F E]; [vm_compute; reflexivity|]. split; [exact F|]. rewrite E.
  assert (B : bpow radix2 (-102) = (/ 5070602400912917605986812821504)%R) by (cbn; reflexivity). rewrite B, u64_val.
  assert (K : forall x y z : R, (x <= y + z /\ y <= x + z -> Rabs (x - y) <= z)%R) by (intros; apply Rabs_le; lra).
  split; [apply K; lra|lra].
Qed.

Lemma u64_nat n : (INR n <= bpow radix2 40 -> INR n * u64 <= / 8192)%R.
Proof.
  intros H. pose proof u64_pos. apply Rle_trans with (bpow radix2 40 * u64)%R; [apply Rmult_le_compat_r; lra|].
  unfold u64. rewrite <- bpow_plus. change (bpow radix2 (40 + -53)) with (/ 8192)%R. lra.
Qed.

Section Buffer.
Context (dt : f64) (Fdt : fin dt = true) (Bdt : (0 <= fR dt <= 1)%R).

Definition flow (y : f64 * f64) : R := (fR (fst y) * fR (snd y))%R.
(** A point of usual size. *)
Definition usual (y : f64 * f64) : Prop := fin (fst y) = true /\ fin (snd y) = true
  /\ (Rabs (flow y) <= bpow radix2 970)%R.

Lemma usual_mul y : usual y -> fin (fmul (fst y) (snd y)) = true
  /\ fR (fmul (fst y) (snd y)) = rnd (flow y) /\ (Rabs (flow y) <= bpow radix2 970)%R.
Proof.
  intros (F1 & F2 & B).
  destruct (fmul_Big _ _ F1 F2) as [F R].
  - fold (flow y). eapply Rle_trans; [exact B|]. unfold Big. apply bpow_le. lia.
  - auto.
Qed.

Lemma products ys : Forall usual ys -> (INR (length ys) <= bpow radix2 40)%R ->
  let ps := map (fun y => fmul (fst y) (snd y)) ys in
  let P := Rsum (map flow ys) in let M := Rsum (map (fun y => Rabs (flow y)) ys) in
  Forall (fun x => fin x = true) ps
  /\ (Rabs (Rsum (map fR ps) - P) <= u64 * M + INR (length ys) * eta64)%R
  /\ (Rsum (map (fun x => Rabs (fR x)) ps) <= M + u64 * M + INR (length ys) * eta64)%R
  /\ (Rabs P <= M)%R /\ (0 <= M <= bpow radix2 1010)%R.
Proof.
  intros U N ps P M. pose proof u64_pos as U0. pose proof eta64_pos as E0. rewrite Forall_forall in U.
  assert (A1 : Forall (fun x => fin x = true) ps).
  { apply Forall_forall. intros x I. apply in_map_iff in I. destruct I as (y & <- & I). apply usual_mul, U, I. }
  assert (K : Rsum (map (fun y => (u64 * Rabs (flow y) + eta64)%R) ys) = (u64 * M + INR (length ys) * eta64)%R).
  { clear. subst M. induction ys as [|y ys IH]; cbn [map Rsum length]; [cbn; lra|]. rewrite IH, S_INR. ring. }
  split; [exact A1|]. split; [|split; [|split]].
  - subst ps P. rewrite map_map. rewrite <- K. apply Rsum_diff. intros y I. destruct (usual_mul y (U y I)) as (_ & R & _). rewrite R. apply rnd_err.
  - subst ps. rewrite map_map. rewrite Rplus_assoc, <- K. clear K.
    assert (G : (Rabs (Rsum (map (fun y => Rabs (fR (fmul (fst y) (snd y)))) ys) - M) <= Rsum (map (fun y => (u64 * Rabs (flow y) + eta64)%R) ys))%R).
    { apply Rsum_diff. intros y I. destruct (usual_mul y (U y I)) as (_ & R & _). rewrite R.
      eapply Rle_trans; [apply Rabs_triang_inv2|apply rnd_err]. }
    apply Rabs_le_inv in G. lra.
  - subst P M. rewrite <- (map_map flow Rabs). apply Rsum_abs.
  - split; [apply Rsum_nonneg, Forall_forall; intros x I; apply in_map_iff in I; destruct I as (y & <- & _); apply Rabs_pos|].
    eapply Rle_trans; [apply (Rsum_bound _ (bpow radix2 970)); intros y I; apply usual_mul, U, I|].
    replace (bpow radix2 1010) with (bpow radix2 40 * bpow radix2 970)%R by (rewrite <- bpow_plus; reflexivity).
    apply Rmult_le_compat_r; [apply bpow_ge_0|exact N].
Qed.

Lemma buffer_close np_sum ys : (forall l, adds_up l (np_sum l)) -> Forall usual ys -> (INR (length ys) <= bpow radix2 40)%R ->
  let b := buffer_energy np_sum dt ys in
  fin b = true
  /\ near (2 * INR (length ys) + 9) ((16 * INR (length ys) + 3) * eta64) (fR b)
       (Rsum (map flow ys) * / 10 ^ 15 * fR dt) (Rsum (map (fun y => Rabs (flow y)) ys) * / 10 ^ 15 * fR dt).
Proof.
  intros NP U N b. pose proof u64_pos as U0. pose proof eta64_pos as E0. pose proof (u64_nat _ N) as NU. pose proof (pos_INR (length ys)) as N0.
  destruct (products ys U N) as (FP & D1 & D2 & PM & M0 & M1).
  set (P := Rsum (map flow ys)) in *. set (M := Rsum (map (fun y => Rabs (flow y)) ys)) in *.
  set (ps := map (fun y => fmul (fst y) (snd y)) ys) in *. set (n := INR (length ys)) in *.
  assert (LP : INR (length ps) = n) by (subst ps n; now rewrite map_length).
  assert (E1 : (n * eta64 <= 1)%R).
  { apply Rle_trans with (bpow radix2 40 * eta64)%R; [apply Rmult_le_compat_r; lra|]. unfold eta64. rewrite <- bpow_plus.
    change 1%R with (bpow radix2 0). apply bpow_le. lia. }
  assert (U1 : (u64 <= / 1000)%R) by (rewrite u64_val; lra).
  assert (T1 : (16 <= bpow radix2 1010)%R) by (change 16%R with (bpow radix2 4); apply bpow_le; lia).
  assert (T2 : (8 * bpow radix2 1010 <= bpow radix2 1020)%R).
  { change 8%R with (bpow radix2 3). rewrite <- bpow_plus. apply bpow_le. lia. }
  assert (T3 : (bpow radix2 1020 <= Big)%R) by (unfold Big; apply bpow_le; lia).
  destruct (adds_close ps (np_sum ps) (NP ps) FP) as [FS DS]; [nra|rewrite LP; nra|]. rewrite LP in DS.
  set (Q := Rsum (map (fun x => Rabs (fR x)) ps)) in *. set (S := fR (np_sum ps)) in *.
  assert (NS : near (2 * n + 2) (2 * n * eta64) S P M).
  { split; [|exact PM]. replace (S - P)%R with ((S - Rsum (map fR ps)) + (Rsum (map fR ps) - P))%R by ring.
    eapply Rle_trans; [apply Rabs_triang|].
    assert (X1 : (2 * u64 * n * Q <= 2 * u64 * n * (M + u64 * M + n * eta64))%R) by (apply Rmult_le_compat_l; [apply Rmult_le_pos; lra|exact D2]).
    assert (X2 : (2 * (n * u64) * (u64 * M) <= / 2 * (u64 * M))%R) by (apply Rmult_le_compat_r; [apply Rmult_le_pos; lra|lra]).
    assert (X3 : (2 * (n * u64) * (n * eta64) <= / 2 * (n * eta64))%R) by (apply Rmult_le_compat_r; [apply Rmult_le_pos; lra|lra]).
    assert (X4 : (0 <= u64 * M)%R) by (apply Rmult_le_pos; lra). assert (X5 : (0 <= n * eta64)%R) by (apply Rmult_le_pos; lra).
    lra. }
  assert (BS : (Rabs S <= 4 * bpow radix2 1010)%R).
  { destruct NS as [NS _]. replace S with ((S - P) + P)%R by ring. eapply Rle_trans; [apply Rabs_triang|]. nra. }
  destruct femto_ok as (Fc & Dc & Bc). set (c := fR (fdec 1 15)) in *.
  destruct (fmul_Big (np_sum ps) (fdec 1 15) FS Fc) as [Fq Rq].
  { fold S c. rewrite Rabs_mult, (Rabs_pos_eq c) by lra. pose proof (Rabs_pos S). nra. }
  fold S c in Rq.
  assert (W : (0 < / 10 ^ 15 <= 1)%R) by lra.
  assert (NQ : near (2 * n + 7) ((8 * n + 1) * eta64) (rnd (S * c)) (P * / 10 ^ 15) (M * / 10 ^ 15)).
  { assert (H : near (2 * n + 2 + 2 + 1) (2 * (2 * n * eta64) * / 10 ^ 15) (S * c) (P * / 10 ^ 15) (M * / 10 ^ 15)).
    { apply near_scale; try assumption; nra. }
    apply near_rnd in H; [|lra|nra|apply Rmult_le_pos; nra].
    destruct H as [H1 H2]. split; [|exact H2].
    assert (X5 : (0 <= n * eta64)%R) by (apply Rmult_le_pos; lra).
    assert (2 * (2 * n * eta64) * / 10 ^ 15 <= 2 * (2 * n * eta64) * 1)%R by (apply Rmult_le_compat_l; lra). lra. }
  assert (BQ : (Rabs (rnd (S * c)) <= 8 * bpow radix2 1010)%R).
  { destruct NQ as [NQ NQ2]. replace (rnd (S * c)) with ((rnd (S * c) - P * / 10 ^ 15) + P * / 10 ^ 15)%R by ring.
    eapply Rle_trans; [apply Rabs_triang|]. assert (M * / 10 ^ 15 <= M)%R by nra. assert (0 <= M * / 10 ^ 15)%R by nra.
    set (X := (M * / 10 ^ 15)%R) in *. assert ((2 * n + 7) * u64 * X <= 1 * X)%R by (apply Rmult_le_compat_r; lra).
    assert (eta64 <= / 1000)%R by (apply Rle_trans with u64; [unfold eta64, u64; apply bpow_le; lia|exact U1]). lra. }
  destruct (fmul_Big (fmul (np_sum ps) (fdec 1 15)) dt Fq Fdt) as [Fb Rb].
  { rewrite Rq, Rabs_mult, (Rabs_pos_eq (fR dt)) by lra. pose proof (Rabs_pos (rnd (S * c))). nra. }
  rewrite Rq in Rb. split; [exact Fb|]. change (fR b) with (fR (fmul (fmul (np_sum ps) (fdec 1 15)) dt)). rewrite Rb.
  assert (H : near (2 * n + 7) ((8 * n + 1) * eta64) (rnd (S * c) * fR dt) (P * / 10 ^ 15 * fR dt) (M * / 10 ^ 15 * fR dt)).
  { destruct NQ as [NQ NQ2]. split.
    - replace (rnd (S * c) * fR dt - P * / 10 ^ 15 * fR dt)%R with ((rnd (S * c) - P * / 10 ^ 15) * fR dt)%R by ring.
      rewrite Rabs_mult, (Rabs_pos_eq (fR dt)) by lra.
      apply Rle_trans with (((2 * n + 7) * u64 * (M * / 10 ^ 15) + (8 * n + 1) * eta64) * fR dt)%R; [apply Rmult_le_compat_r; lra|].
      assert (0 <= (8 * n + 1) * eta64)%R by (apply Rmult_le_pos; lra). nra.
    - rewrite Rabs_mult, (Rabs_pos_eq (fR dt)) by lra. apply Rmult_le_compat_r; lra. }
  apply near_rnd in H; [|lra|nra|apply Rmult_le_pos; lra].
  destruct H as [H1 H2]. split; [|exact H2]. lra.
Qed.

Lemma buffer_nonneg np_sum ys : (forall l, adds_up l (np_sum l)) -> Forall usual ys ->
  Forall (fun y => (0 <= fR (fst y))%R /\ (0 <= fR (snd y))%R) ys -> (INR (length ys) <= bpow radix2 40)%R ->
  (0 <= fR (buffer_energy np_sum dt ys))%R.
Proof.
  intros NP U NN N. destruct (products ys U N) as (FP & D1 & D2 & PM & M0 & M1).
  pose proof u64_pos as U0. pose proof eta64_pos as E0. pose proof (u64_nat _ N) as NU. pose proof (pos_INR (length ys)) as N0.
  assert (E1 : (INR (length ys) * eta64 <= 1)%R).
  { apply Rle_trans with (bpow radix2 40 * eta64)%R; [apply Rmult_le_compat_r; lra|]. unfold eta64. rewrite <- bpow_plus.
    change 1%R with (bpow radix2 0). apply bpow_le. lia. }
  assert (U1 : (u64 <= / 1000)%R) by (rewrite u64_val; lra).
  assert (T1 : (16 <= bpow radix2 1010)%R) by (change 16%R with (bpow radix2 4); apply bpow_le; lia).
  assert (T2 : (8 * bpow radix2 1010 <= bpow radix2 1020)%R).
  { change 8%R with (bpow radix2 3). rewrite <- bpow_plus. apply bpow_le. lia. }
  set (ps := map (fun y => fmul (fst y) (snd y)) ys) in *.
  assert (SP : (Rsum (map (fun x => Rabs (fR x)) ps) <= bpow radix2 1020)%R) by nra.
  assert (SN : (INR (length ps) * u64 <= / 4)%R) by (subst ps; rewrite map_length; lra).
  assert (S0 : (0 <= fR (np_sum ps))%R).
  { apply (adds_nonneg ps _ (NP ps)); [|exact SP|exact SN]. apply Forall_forall. intros x I. rewrite Forall_forall in FP. split; [apply FP, I|].
    apply in_map_iff in I. destruct I as (y & <- & I). rewrite Forall_forall in U, NN. destruct (usual_mul y (U y I)) as (_ & R & _). rewrite R.
    destruct (NN y I). apply rnd_nonneg. unfold flow. now apply Rmult_le_pos. }
  destruct (buffer_close np_sum ys NP U N) as [Fb _]. unfold buffer_energy in Fb |- *. fold ps in Fb. fold ps.
  destruct (adds_close ps (np_sum ps) (NP ps) FP SP SN) as [FS DS].
  destruct femto_ok as (Fc & Dc & Bc).
  assert (P1 : forall x y : f64, (0 <= fR x)%R -> (0 <= fR y)%R -> fin (fmul x y) = true -> (0 <= fR (fmul x y))%R).
  { intros x y X Y F. destruct (Rlt_or_le (Rabs (rnd (fR x * fR y))) (bpow radix2 1024)) as [S|S].
    - pose proof (Bmult_correct 53 1024 _ _ mode_NE x y) as C. change (round_mode mode_NE) with ZnearestE in C. fold (rnd (fR x * fR y)) in C.
      rewrite Rlt_bool_true in C by exact S. destruct C as [C _]. unfold fmul. rewrite C. apply rnd_nonneg, Rmult_le_pos; assumption.
    - rewrite (fmul_big x y S) in F. discriminate F. }
  apply P1; [|apply Bdt|exact Fb]. apply P1; [exact S0|apply Bc|].
  destruct (fin (fmul (np_sum ps) (fdec 1 15))) eqn:E; [reflexivity|]. exfalso.
  unfold fmul in Fb at 1. destruct (fmul (np_sum ps) (fdec 1 15)); try discriminate E; destruct dt; discriminate Fb.
Qed.

(** The sum over the buffers. *)
Definition total np_sum (e : f64) (yss : list (list (f64 * f64))) : f64 :=
  fold_left (fun e ys => fadd e (buffer_energy np_sum dt ys)) yss e.

Lemma total_adds np_sum l e yss : adds_up l e -> adds_up (l ++ map (buffer_energy np_sum dt) yss) (total np_sum e yss).
Proof.
  revert l e. induction yss as [|ys yss IH]; intros l e H; cbn [map total fold_left]; [now rewrite app_nil_r|].
  change (buffer_energy np_sum dt ys :: map (buffer_energy np_sum dt) yss) with ([buffer_energy np_sum dt ys] ++ map (buffer_energy np_sum dt) yss).
  rewrite app_assoc. apply IH. eapply adds_two; [exact H|apply adds_one|apply Permutation_refl].
Qed.
Lemma zero_adds : adds_up [] (fz 0).
Proof. replace (fz 0) with (@B754_zero 53 1024 false); [constructor|]. apply B2SF_inj. vm_compute. reflexivity. Qed.

Lemma Rsum_map_concat {A} (f : A -> R) (yss : list (list A)) : Rsum (map f (concat yss)) = Rsum (map (fun ys => Rsum (map f ys)) yss).
Proof. rewrite concat_map, Rsum_concat, map_map. reflexivity. Qed.

Lemma total_close np_sum size yss : (forall l, adds_up l (np_sum l)) -> Forall usual (concat yss) -> Forall (fun ys => length ys = size) yss ->
  (0 < size)%nat -> (INR (length (concat yss)) <= bpow radix2 40)%R ->
  let e := total np_sum (fz 0) yss in let B := INR (length yss) in
  fin e = true
  /\ (Rabs (fR e - Rsum (map flow (concat yss)) * / 10 ^ 15 * fR dt)
       <= (2 * INR size + 2 * B + 10) * u64 * (Rsum (map (fun y => Rabs (flow y)) (concat yss)) * / 10 ^ 15 * fR dt)
          + bpow radix2 (-1000))%R
  /\ (Forall (fun y => (0 <= fR (fst y))%R /\ (0 <= fR (snd y))%R) (concat yss) -> (0 <= fR e)%R).
Proof.
  intros NP U L S0 N e B. pose proof u64_pos as U0. pose proof eta64_pos as E0.
  assert (U1 : (u64 <= / 1000)%R) by (rewrite u64_val; lra).
  assert (LC : length (concat yss) = (length yss * size)%nat).
  { clear - L. induction L as [|ys yss H _ IH]; [reflexivity|]. cbn [concat length]. rewrite app_length, IH, H. lia. }
  destruct yss as [|y0 yss0].
  { subst e B. unfold total. cbn [concat map Rsum fold_left]. destruct (fz_ok 0) as [F0 R0]; [lia|]. split; [exact F0|]. rewrite R0. split; [|intros _; lra].
    rewrite !Rmult_0_l, Rminus_0_r, Rabs_R0, Rmult_0_r. pose proof (bpow_ge_0 radix2 (-1000)). lra. }
  set (yss := y0 :: yss0) in *.
  assert (LB : (1 <= B)%R). { subst B yss. cbn [length]. rewrite S_INR. pose proof (pos_INR (length yss0)). lra. }
  assert (LS : (1 <= INR size)%R) by (change 1%R with (INR 1); apply le_INR; lia).
  rewrite LC, mult_INR in N. fold B in N. set (n := INR size) in *.
  assert (NB : (B <= bpow radix2 40)%R) by nra. assert (NN : (n <= bpow radix2 40)%R) by nra.
  pose proof (u64_nat (length yss) NB) as UB. fold B in UB. pose proof (u64_nat size NN) as UN. fold n in UN.
  set (G := fun ys => (Rsum (map flow ys) * / 10 ^ 15 * fR dt)%R).
  set (H := fun ys => (Rsum (map (fun y => Rabs (flow y)) ys) * / 10 ^ 15 * fR dt)%R).
  set (W := ((16 * n + 3) * eta64)%R).
  assert (W0 : (0 <= W)%R) by (apply Rmult_le_pos; lra).
  assert (EACH : forall ys, In ys yss -> fin (buffer_energy np_sum dt ys) = true /\ near (2 * n + 9) W (fR (buffer_energy np_sum dt ys)) (G ys) (H ys)).
  { intros ys I. rewrite Forall_forall in L. pose proof (L ys I) as LY.
    assert (UY : Forall usual ys).
    { apply Forall_forall. intros y Iy. rewrite Forall_forall in U. apply U. apply in_concat. exists ys. split; assumption. }
    pose proof (buffer_close np_sum ys NP UY) as K. rewrite LY in K. apply K. exact NN. }
  assert (HC : Rsum (map flow (concat yss)) = Rsum (map (fun ys => Rsum (map flow ys)) yss)) by apply Rsum_map_concat.
  assert (HM : Rsum (map (fun y => Rabs (flow y)) (concat yss)) = Rsum (map (fun ys => Rsum (map (fun y => Rabs (flow y)) ys)) yss)) by apply Rsum_map_concat.
  assert (SG : (Rsum (map flow (concat yss)) * / 10 ^ 15 * fR dt)%R = Rsum (map G yss)).
  { rewrite HC. clear. induction yss as [|x l IH]; cbn [map Rsum]; [lra|]. rewrite <- IH. unfold G. ring. }
  assert (SH : (Rsum (map (fun y => Rabs (flow y)) (concat yss)) * / 10 ^ 15 * fR dt)%R = Rsum (map H yss)).
  { rewrite HM. clear. induction yss as [|x l IH]; cbn [map Rsum]; [lra|]. rewrite <- IH. unfold H. ring. }
  destruct (products (concat yss) U) as (_ & _ & _ & PM & M0 & M1); [rewrite LC, mult_INR; exact N|].
  rewrite SG, SH. set (M := Rsum (map (fun y => Rabs (flow y)) (concat yss))) in *.
  assert (FE : (0 < / 10 ^ 15 <= 1)%R) by lra.
  assert (MH : (0 <= Rsum (map H yss) <= M)%R).
  { rewrite <- SH. split; [apply Rmult_le_pos; [apply Rmult_le_pos; lra|lra]|].
    apply Rle_trans with (M * 1 * 1)%R; [|lra]. apply Rmult_le_compat; lra. }
  set (A := Rsum (map G yss)) in *. set (C := Rsum (map H yss)) in *.
  set (bs := map (buffer_energy np_sum dt) yss).
  assert (FB : Forall (fun x => fin x = true) bs).
  { apply Forall_forall. intros x I. apply in_map_iff in I. destruct I as (ys & <- & I). apply EACH, I. }
  assert (KW : Rsum (map (fun ys => ((2 * n + 9) * u64 * H ys + W)%R) yss) = ((2 * n + 9) * u64 * C + B * W)%R).
  { subst C B. clear. generalize yss as l. induction l as [|x l IH]; cbn [map Rsum length]; [cbn; lra|]. rewrite IH, S_INR. ring. }
  assert (D1 : (Rabs (Rsum (map fR bs) - A) <= (2 * n + 9) * u64 * C + B * W)%R).
  { subst bs A. rewrite map_map, <- KW. apply Rsum_diff. intros ys I. apply EACH, I. }
  assert (D2 : (Rsum (map (fun x => Rabs (fR x)) bs) <= C + ((2 * n + 9) * u64 * C + B * W))%R).
  { subst bs. rewrite map_map, <- KW.
    assert (Q : (Rabs (Rsum (map (fun ys => Rabs (fR (buffer_energy np_sum dt ys))) yss) - Rsum (map (fun ys => Rabs (G ys)) yss))
                 <= Rsum (map (fun ys => ((2 * n + 9) * u64 * H ys + W)%R) yss))%R).
    { apply Rsum_diff. intros ys I. eapply Rle_trans; [apply Rabs_triang_inv2|]. apply EACH, I. }
    assert (Q2 : (Rsum (map (fun ys => Rabs (G ys)) yss) <= C)%R).
    { subst C. assert (X : forall l, (forall ys, In ys l -> Rabs (G ys) <= H ys)%R -> (Rsum (map (fun ys => Rabs (G ys)) l) <= Rsum (map H l))%R).
      { clear. induction l as [|x l IH]; intros K; cbn [map Rsum]; [lra|]. pose proof (K x (or_introl eq_refl)).
        pose proof (IH (fun y I => K y (or_intror I))). lra. }
      apply X. intros ys I. apply EACH, I. }
    apply Rabs_le_inv in Q. lra. }
  assert (BW : (B * W <= bpow radix2 (-1001))%R).
  { unfold W. apply Rle_trans with (19 * (B * n) * eta64)%R.
    { replace (B * ((16 * n + 3) * eta64))%R with ((16 * n + 3) * (B * eta64))%R by ring. replace (19 * (B * n) * eta64)%R with (19 * n * (B * eta64))%R by ring.
      apply Rmult_le_compat_r; [apply Rmult_le_pos; lra|lra]. }
    apply Rle_trans with (19 * bpow radix2 40 * eta64)%R; [apply Rmult_le_compat_r; lra|].
    unfold eta64. rewrite Rmult_assoc, <- bpow_plus. apply Rle_trans with (bpow radix2 5 * bpow radix2 (40 + -1075))%R.
    - apply Rmult_le_compat_r; [apply bpow_ge_0|change (bpow radix2 5) with 32%R; lra].
    - rewrite <- bpow_plus. apply bpow_le. lia. }
  assert (BW0 : (0 <= B * W)%R) by (apply Rmult_le_pos; lra).
  assert (T1 : (bpow radix2 (-1001) <= 1)%R) by (change 1%R with (bpow radix2 0); apply bpow_le; lia).
  assert (T2 : (4 * bpow radix2 1010 <= bpow radix2 1020)%R).
  { change 4%R with (bpow radix2 2). rewrite <- bpow_plus. apply bpow_le. lia. }
  assert (T3 : (1 <= bpow radix2 1010)%R) by (change 1%R with (bpow radix2 0); apply bpow_le; lia).
  assert (T4 : (bpow radix2 (-1000) = 2 * bpow radix2 (-1001))%R) by (change 2%R with (bpow radix2 1); rewrite <- bpow_plus; reflexivity).
  assert (X1 : ((2 * n + 9) * u64 * C <= / 2 * C)%R) by (apply Rmult_le_compat_r; lra).
  assert (LBS : INR (length bs) = B) by (subst bs B; now rewrite map_length).
  pose proof (total_adds np_sum [] (fz 0) yss zero_adds) as AD. cbn [app] in AD. fold bs in AD. fold e in AD.
  assert (SM : (Rsum (map (fun x => Rabs (fR x)) bs) <= bpow radix2 1020)%R) by lra.
  assert (SN : (INR (length bs) * u64 <= / 4)%R) by (rewrite LBS; lra).
  destruct (adds_close bs e AD FB SM SN) as [Fe De]. rewrite LBS in De. split; [exact Fe|]. split.
  - replace (fR e - A)%R with ((fR e - Rsum (map fR bs)) + (Rsum (map fR bs) - A))%R by ring.
    eapply Rle_trans; [apply Rabs_triang|]. rewrite T4.
    assert (X2 : (2 * u64 * B * Rsum (map (fun x => Rabs (fR x)) bs) <= 2 * u64 * B * (C + ((2 * n + 9) * u64 * C + B * W)))%R).
    { apply Rmult_le_compat_l; [apply Rmult_le_pos; lra|exact D2]. }
    assert (X3 : (2 * (B * u64) * (B * W) <= 1 * (B * W))%R) by (apply Rmult_le_compat_r; lra).
    assert (X4 : (2 * (B * u64) * ((2 * n + 9) * (u64 * C)) <= 1 * (u64 * C))%R).
    { rewrite <- Rmult_assoc. apply Rmult_le_compat_r; [apply Rmult_le_pos; lra|].
      assert (0 <= B * u64 <= bpow radix2 40 * u64)%R by (split; [apply Rmult_le_pos; lra|apply Rmult_le_compat_r; lra]).
      assert (BN : (2 * (B * u64) * (2 * n + 9) <= 22 * (B * n) * u64)%R) by nra.
      eapply Rle_trans; [exact BN|]. apply Rle_trans with (22 * bpow radix2 40 * u64)%R; [apply Rmult_le_compat_r; lra|].
      unfold u64. rewrite Rmult_assoc, <- bpow_plus. change (bpow radix2 (40 + -53)) with (/ 8192)%R. lra. }
    lra.
  - intros NNEG. apply (adds_nonneg bs e AD); [|exact SM|exact SN]. apply Forall_forall. intros x I. split; [rewrite Forall_forall in FB; apply FB, I|].
    apply in_map_iff in I. destruct I as (ys & <- & I). apply buffer_nonneg; auto.
    + apply Forall_forall. intros y Iy. rewrite Forall_forall in U. apply U. apply in_concat. exists ys. split; assumption.
    + apply Forall_forall. intros y Iy. rewrite Forall_forall in NNEG. apply NNEG. apply in_concat. exists ys. split; assumption.
    + rewrite Forall_forall in L. rewrite (L ys I). exact NN.
Qed.
End Buffer.

(** ** The loops over the buffers *)

Lemma last_cons {A} (x d : A) l : last (x :: l) d = last l x.
Proof.
  revert x d. induction l as [|y l IH]; intros x d; [reflexivity|].
  change (last (x :: y :: l) d) with (last (y :: l) d). rewrite IH. symmetry. apply IH.
Qed.

Lemma loop_app m t k cal cv ci a b : forall st i,
  loop_run m t k cal cv ci st i (a ++ b) =
  let* r := loop_run m t k cal cv ci st i a in
  let* s := loop_run m t k cal cv ci (fst r) (last (map snd (snd r)) i) b in Ok (fst s, snd r ++ snd s).
Proof.
  induction a as [|x a IH]; intros st i; cbn [app loop_run bind fst snd map].
  - cbn [last]. destruct (loop_run m t k cal cv ci st i b) as [[s l]|e]; reflexivity.
  - destruct (loop_step m t k cal cv ci st i x) as [[[st1 v] j]|e]; cbn [bind]; [|reflexivity]. rewrite IH.
    destruct (loop_run m t k cal cv ci st1 j a) as [[st2 l]|e]; cbn [bind fst snd]; [|reflexivity].
    cbn [map snd]. rewrite last_cons. destruct (loop_run m t k cal cv ci st2 (last (map snd l) j) b) as [[st3 l']|e]; reflexivity.
Qed.

Lemma loop_length m t k cal cv ci a : forall st i st' l, loop_run m t k cal cv ci st i a = Ok (st', l) -> length l = length a.
Proof.
  induction a as [|x a IH]; intros st i st' l; cbn [loop_run].
  - intros E. injection E as <- <-. reflexivity.
  - destruct (loop_step m t k cal cv ci st i x) as [[[st1 v] j]|e]; cbn [bind]; [|discriminate].
    destruct (loop_run m t k cal cv ci st1 j a) as [[st2 l']|e] eqn:E1; cbn [bind fst snd]; [|discriminate].
    intros E. assert (l = (v, j) :: l') by congruence. subst l. cbn [length]. f_equal. exact (IH _ _ _ _ E1).
Qed.

Lemma all_ok_app {A B} (f : A -> res B) l1 l2 : all_ok f (l1 ++ l2) =
  let* a := all_ok f l1 in let* b := all_ok f l2 in Ok (a ++ b).
Proof.
  induction l1 as [|x l IH]; cbn [app all_ok bind]; [destruct (all_ok f l2); reflexivity|].
  destruct (f x) as [y|]; cbn [bind]; [|reflexivity]. rewrite IH.
  destruct (all_ok f l) as [a|]; cbn [bind]; [|reflexivity]. destruct (all_ok f l2); reflexivity.
Qed.
Lemma all_ok_pairs {A B} (f : A -> res B) l w : all_ok f l = Ok w -> Forall2 (fun x y => f x = Ok y) l w.
Proof.
  revert w. induction l as [|x l IH]; intros w; cbn [all_ok].
  - intros E. injection E as <-. constructor.
  - destruct (f x) as [y|] eqn:E1; cbn [bind]; [|discriminate]. destruct (all_ok f l) as [ys|]; cbn [bind]; [|discriminate].
    intros E. injection E as <-. constructor; [exact E1|apply IH; reflexivity].
Qed.
Lemma all_ok_total {A B} (f : A -> res B) l : Forall (fun x => exists y, f x = Ok y) l -> exists w, all_ok f l = Ok w.
Proof.
  induction 1 as [|x l [y E] _ [w IH]]; cbn [all_ok]; [eauto|]. rewrite E, IH. cbn [bind]. eauto.
Qed.

Definition float_points (l : list (Z * f64)) : list (f64 * f64) := map (fun y => (fz (fst y), snd y)) l.
Definition float_samples (l : list sample) : list (f64 * f64) := map (fun y => (fz (fst y), fz (snd y))) l.

Lemma source_split np_sum m t k cal cv ci dt out bs : forall st i e,
  match source_buffers np_sum m t k cal cv ci dt out st i e bs with
  | Ok (e', w) => exists st' yss, loop_run m t k cal cv ci st i (concat bs) = Ok (st', concat yss) /\ map (@length _) yss = map (@length _) bs
      /\ e' = total dt np_sum e (map float_points yss) /\ (if out then all_ok (store_source cal) (concat yss) = Ok w else w = [])
  | Err x => loop_run m t k cal cv ci st i (concat bs) = Err x
      \/ (out = true /\ forall st' l, loop_run m t k cal cv ci st i (concat bs) = Ok (st', l) -> exists x', all_ok (store_source cal) l = Err x')
  end.
Proof.
  induction bs as [|b bs IH]; intros st i e; cbn [source_buffers concat].
  - exists st, []. cbn. destruct out; auto.
  - rewrite loop_app. destruct (loop_run m t k cal cv ci st i b) as [[st1 ys]|x] eqn:E1; cbn [bind fst snd]; [|auto].
    set (e1 := fadd e _). specialize (IH st1 (last (map snd ys) i) e1).
    assert (W : (exists w, (if out then all_ok (store_source cal) ys else Ok []) = Ok w /\ (if out then all_ok (store_source cal) ys = Ok w else w = []))
                \/ (out = true /\ exists x, all_ok (store_source cal) ys = Err x)).
    { destruct out; [|left; eauto]. destruct (all_ok (store_source cal) ys) as [w|x]; [left|right]; eauto. }
    destruct W as [(w & W1 & W2)|(-> & x & W)].
    + rewrite W1. cbn [bind]. destruct (source_buffers np_sum m t k cal cv ci dt out st1 (last (map snd ys) i) e1 bs) as [[e2 w2]|x]; cbn [bind fst snd].
      * destruct IH as (st' & yss & A & L & T & S). exists st', (ys :: yss). rewrite A. cbn [bind fst snd concat map total fold_left].
        split; [reflexivity|]. split; [rewrite L; f_equal; exact (loop_length _ _ _ _ _ _ _ _ _ _ _ E1)|]. split; [exact T|].
        destruct out; [rewrite all_ok_app, W2, S; reflexivity|subst; reflexivity].
      * destruct IH as [IH|[-> IH]]; [left; rewrite IH; reflexivity|right]. split; [reflexivity|]. intros st' l.
        destruct (loop_run m t k cal cv ci st1 (last (map snd ys) i) (concat bs)) as [[st2 l2]|] eqn:E2; cbn [bind fst snd]; [|discriminate].
        intros E. assert (l = ys ++ l2) by congruence. subst l. destruct (IH st2 l2 eq_refl) as [x' X]. rewrite all_ok_app, X, W2. cbn [bind]. eauto.
    + rewrite W. cbn [bind]. right. split; [reflexivity|]. intros st' l.
      destruct (loop_run m t k cal cv ci st1 (last (map snd ys) i) (concat bs)) as [[st2 l2]|] eqn:E2; cbn [bind fst snd]; [|discriminate].
      intros E. assert (l = ys ++ l2) by congruence. subst l. rewrite all_ok_app, W. cbn [bind]. eauto.
Qed.

(** The simulation without blocks. *)
Lemma source_whole np_sum m p v t dtype window step cv ci size dt out xs : (0 < size)%nat ->
  match source_energy np_sum m p v t dtype window step cv ci size dt out xs with
  | Ok (e, w) => exists cal st yss, default_emu = Ok cal /\ simulate_source m p v t dtype window step cv ci (complete size xs) = Ok (st, concat yss)
      /\ Forall (fun ys => length ys = size) yss /\ length yss = (length xs / size)%nat
      /\ e = total dt np_sum (fz 0) (map float_points yss) /\ (if out then all_ok (store_source cal) (concat yss) = Ok w else w = [])
  | Err x => simulate_source m p v t dtype window step cv ci (complete size xs) = Err x
      \/ (out = true /\ forall cal st l, default_emu = Ok cal -> simulate_source m p v t dtype window step cv ci (complete size xs) = Ok (st, l) ->
            exists x', all_ok (store_source cal) l = Err x')
  end.
Proof.
  intros S0. destruct (buffers_blocks size xs S0) as (C & L & N). unfold source_energy, simulate_source. rewrite <- C.
  destruct default_emu as [cal|x]; cbn [bind]; [|auto]. destruct (vsm_config p v dtype window step false) as [k|x]; cbn [bind]; [|auto].
  destruct (vsm_init k cal) as [st0|x]; cbn [bind]; [|auto].
  pose proof (source_split np_sum m t k cal cv ci dt out (buffers size xs) st0 (fz 0) (fz 0)) as K.
  destruct (source_buffers np_sum m t k cal cv ci dt out st0 (fz 0) (fz 0) (buffers size xs)) as [[e w]|x].
  - destruct K as (st' & yss & A & B & D & E). exists cal, st', yss. split; [reflexivity|]. split; [exact A|].
    assert (Q : Forall (fun n => n = size) (map (@length _) yss)).
    { rewrite B. apply Forall_forall. intros n I. apply in_map_iff in I. destruct I as (b & <- & I). rewrite Forall_forall in L. apply L, I. }
    split; [|split; [|split; [exact D|exact E]]].
    + apply Forall_forall. intros ys I. rewrite Forall_forall in Q. apply Q, in_map, I.
    + rewrite <- N, <- (map_length (@length _) (buffers size xs)), <- B, map_length. reflexivity.
  - destruct K as [K|[-> K]]; [left; exact K|right]. split; [reflexivity|]. intros cal' st l E. assert (cal' = cal) by congruence. subst cal'. apply K.
Qed.

(** ** Energies *)

Lemma concat_float yss : concat (map float_points yss) = float_points (concat yss).
Proof. unfold float_points. now rewrite concat_map. Qed.
Lemma concat_floats yss : concat (map float_samples yss) = float_samples (concat yss).
Proof. unfold float_samples. now rewrite concat_map. Qed.

Lemma energy_flow dt (l : list (R * R)) : (energy_of dt l = Rsum (map (fun y => fst y * snd y) l) * / 10 ^ 15 * dt)%R.
Proof.
  unfold energy_of. f_equal. induction l as [|y l IH]; cbn [map Rsum]; [lra|]. rewrite IH.
  replace (10 ^ 15)%R with (10 ^ 6 * 10 ^ 9)%R by ring. unfold Rdiv. rewrite Rinv_mult. lra.
Qed.
Lemma throughput_flow dt (l : list (R * R)) : (throughput dt l = Rsum (map (fun y => Rabs (fst y * snd y)) l) * / 10 ^ 15 * dt)%R.
Proof.
  unfold throughput. rewrite energy_flow, map_map. f_equal. f_equal. f_equal. apply map_ext. intros y. cbn [fst snd]. symmetry. apply Rabs_mult.
Qed.

Lemma u64_52 : (2 * u64 = bpow radix2 (-52))%R.
Proof. unfold u64. change 2%R with (bpow radix2 1). rewrite <- bpow_plus. reflexivity. Qed.

Lemma length_complete {A} size (xs : list A) : (length (complete size xs) <= length xs)%nat.
Proof. unfold complete. rewrite firstn_length. lia. Qed.

Lemma blocks_report np_sum dt size yss (fl : list (f64 * f64)) (pts : list (R * R)) n : fin dt = true -> (0 <= fR dt <= 1)%R -> (forall l, adds_up l (np_sum l)) ->
  concat yss = fl -> map (fun y => (fR (fst y), fR (snd y))) fl = pts -> Forall usual fl -> Forall (fun ys => length ys = size) yss -> length yss = (n / size)%nat ->
  (0 < size)%nat -> Z.of_nat n <= 2 ^ 40 ->
  let e := total dt np_sum (fz 0) yss in
  fin e = true /\ reported size n (fR e) (energy_of (fR dt) pts) (throughput (fR dt) pts)
  /\ (Forall (fun y => (0 <= fst y)%R /\ (0 <= snd y)%R) pts -> (0 <= fR e)%R).
Proof.
  intros Fdt Bdt NP E1 E2 U L LN S0 N e. rewrite <- E1 in U.
  assert (LC : length (concat yss) = (n / size * size)%nat).
  { rewrite <- LN. clear - L. induction L as [|ys yss H _ IH]; [reflexivity|]. cbn [concat length]. rewrite app_length, IH, H. lia. }
  assert (LE : (INR (length (concat yss)) <= bpow radix2 40)%R).
  { rewrite INR_IZR_INZ. change (bpow radix2 40) with (IZR (2 ^ 40)). apply IZR_le.
    assert (length (concat yss) <= n)%nat by (rewrite LC, Nat.mul_comm; apply Nat.mul_div_le; lia). lia. }
  destruct (total_close dt Fdt Bdt np_sum size yss NP U L S0 LE) as (F & D & P). fold e in F, D, P.
  assert (G1 : Rsum (map flow (concat yss)) = Rsum (map (fun y => (fst y * snd y)%R) pts)).
  { rewrite <- E2, E1, map_map. reflexivity. }
  assert (G2 : Rsum (map (fun y => Rabs (flow y)) (concat yss)) = Rsum (map (fun y => Rabs (fst y * snd y)) pts)).
  { rewrite <- E2, E1, map_map. reflexivity. }
  split; [exact F|]. split.
  - unfold reported. rewrite energy_flow, throughput_flow, <- G1, <- G2, <- u64_52. rewrite LN in D.
    eapply Rle_trans; [exact D|]. apply Req_le. ring.
  - intros Q. apply P. rewrite E1. apply Forall_forall. intros y I. rewrite Forall_forall in Q. apply (Q (fR (fst y), fR (snd y))).
    rewrite <- E2. apply (in_map (fun y => (fR (fst y), fR (snd y)))), I.
Qed.
