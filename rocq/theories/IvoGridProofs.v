(** The voltages of the curves, and an exponential function. *)
From Coq Require Import ZArith Bool Reals Lia Lra List.
From Flocq Require Import Core IEEE754.BinarySingleNaN.
From Verif Require Import PyBase F64 F64x IvoModel IvoSpec IvoProofs TgtMathProofs.
Import ListNotations.
Open Scope Z_scope.

Section Lin.
Variables (v : f64) (num : Z).
Hypothesis Fv : fin v = true.
Hypothesis Pv : (bpow radix2 (-900) <= fR v)%R.
Hypothesis Hn : 2 <= num <= 2 ^ 50.
Let n := num - 1.
Let N := IZR n.
Let V := fR v.

Lemma N_range : (1 <= N <= bpow radix2 50)%R.
Proof.
  unfold N, n. split; [apply (IZR_le 1); lia|]. change (bpow radix2 50) with (IZR (2 ^ 50)). apply IZR_le. lia.
Qed.
Lemma V_range : (bpow radix2 (-900) <= V < bpow radix2 1024)%R.
Proof. split; [exact Pv|]. pose proof (fR_lt_Top v) as T. apply Rabs_lt_inv in T. apply T. Qed.

Lemma delta_ok : fin (fsub v (fz 0)) = true /\ fR (fsub v (fz 0)) = V.
Proof.
  destruct fz0 as [F0 R0]. pose proof (fR_lt_Top v) as T. unfold Top in T.
  destruct (fsub_ok v (fz 0) Fv F0) as [A B]; rewrite ?R0, ?Rminus_0_r, ?rnd_fR in *; [exact T|]. now split.
Qed.

Lemma step_ok : let s := idiv (fsub v (fz 0)) (fz n) in
  fin s = true /\ fR s = rnd (V / N) /\ (Rabs (fR s - V / N) <= V / N * u64 + eta64)%R /\ (0 < fR s)%R /\ feq s (fz 0) = false.
Proof.
  intros s. pose proof N_range as BN. pose proof V_range as BV. destruct delta_ok as [Fd Rd]. destruct fz0 as [F0 R0].
  destruct (fz_ok n) as [Fn Rn]; [unfold n; lia|]. pose proof (bpow_gt_0 radix2 (-900)) as G.
  assert (Q : (0 <= V / N <= V)%R).
  { split; [apply Rmult_le_pos; [lra|]; left; apply Rinv_0_lt_compat; lra|].
    apply (Rmult_le_reg_r N); [lra|]. unfold Rdiv. rewrite Rmult_assoc, Rinv_l, Rmult_1_r by lra. nra. }
  assert (E : (Rabs (rnd (V / N) - V / N) <= V / N * u64 + eta64)%R).
  { eapply Rle_trans; [apply rnd_err|]. rewrite Rabs_pos_eq by lra. lra. }
  assert (S : (Rabs (rnd (fR (fsub v (fz 0)) / fR (fz n))) < bpow radix2 1024)%R).
  { rewrite Rd, Rn. fold N. rewrite Rabs_pos_eq by (apply rnd_nonneg; lra). eapply Rle_lt_trans; [apply (rnd_le_fmt V)|apply BV].
    - apply fmt_fR.
    - lra. }
  destruct (idiv_ok _ _ Fd ltac:(rewrite Rn; fold N; lra) S) as [Fs Rs]. rewrite Rd, Rn in Rs. fold N in Rs.
  assert (P : (0 < fR s)%R).
  { unfold s. rewrite Rs. apply Rlt_le_trans with (bpow radix2 (-950)); [apply bpow_gt_0|]. apply rnd_ge.
    - apply generic_format_bpow. vm_compute. discriminate.
    - apply (Rmult_le_reg_r N); [lra|]. unfold Rdiv. rewrite Rmult_assoc, Rinv_l, Rmult_1_r by lra.
      apply Rle_trans with (bpow radix2 (-950) * bpow radix2 50)%R.
      + apply Rmult_le_compat_l; [apply bpow_ge_0|lra].
      + rewrite <- bpow_plus. change (-950 + 50) with (-900). lra. }
  split; [exact Fs|]. split; [exact Rs|]. split; [unfold s; rewrite Rs; exact E|]. split; [exact P|].
  apply feq_R_false; [exact Fs|exact F0|]. rewrite R0. apply Rgt_not_eq. exact P.
Qed.

Lemma u_small : (u64 * bpow radix2 50 = / 8)%R.
Proof. unfold u64. rewrite <- bpow_plus. change (-53 + 50) with (-3). reflexivity. Qed.
Lemma eta_small : (eta64 * bpow radix2 50 * 8 <= V / N)%R.
Proof.
  pose proof N_range as BN. pose proof V_range as BV. unfold eta64.
  apply (Rmult_le_reg_r N); [lra|]. replace (V / N * N)%R with V by (field; lra).
  apply Rle_trans with (bpow radix2 (-1075) * bpow radix2 50 * bpow radix2 3 * bpow radix2 50)%R.
  - change (bpow radix2 3) with 8%R. apply Rmult_le_compat_l; [|lra].
    apply Rmult_le_pos; [|lra]. apply Rmult_le_pos; apply bpow_ge_0.
  - rewrite <- !bpow_plus. eapply Rle_trans; [apply bpow_le|apply BV]. lia.
Qed.

Lemma point_ok k : 0 <= k < n ->
  let x := lin_point (fsub v (fz 0)) n k in
  fin x = true /\ fR x = rnd (IZR k * fR (idiv (fsub v (fz 0)) (fz n))) /\ (0 <= fR x <= V)%R
  /\ (Rabs (fR x - IZR k * (V / N)) <= V * bpow radix2 (-51))%R.
Proof.
  intros Hk x. destruct step_ok as (Fs & Rs & Es & Ps & Zs). set (s := idiv (fsub v (fz 0)) (fz n)) in *.
  pose proof N_range as BN. pose proof V_range as BV. destruct fz0 as [F0 R0]. pose proof u_small as US. pose proof eta_small as ET.
  pose proof eta64_pos as EP.
  destruct (fz_ok k) as [Fk Rk]; [unfold n in Hk; lia|].
  assert (K : (0 <= IZR k <= N - 1)%R).
  { unfold N. rewrite <- minus_IZR. split; [apply (IZR_le 0); lia|apply IZR_le; lia]. }
  set (q := (V / N)%R) in *.
  assert (Qp : (0 <= q)%R) by (unfold q; apply Rmult_le_pos; [pose proof (bpow_gt_0 radix2 (-900)); lra|]; left; apply Rinv_0_lt_compat; lra).
  assert (QN : (q * N = V)%R) by (unfold q; field; lra).
  assert (Up : (0 < u64)%R) by apply bpow_gt_0.
  apply Rabs_le_inv in Es.
  assert (EN : (eta64 * N <= q * / 8)%R) by nra.
  assert (UN : (u64 * N <= / 8)%R) by nra.
  assert (T : (0 <= IZR k * fR s <= V)%R).
  { split; [nra|]. apply Rle_trans with ((N - 1) * (q + (q * u64 + eta64)))%R; [apply Rmult_le_compat; lra|].
    clearbody q. clear - QN EN UN Qp Up BN EP. nra. }
  destruct (fmul_ok (fz k) s Fk Fs) as [Fm Rm].
  { rewrite Rk, Rabs_pos_eq by (apply rnd_nonneg; lra). eapply Rle_lt_trans; [apply (rnd_le_fmt V); [apply fmt_fR|lra]|apply BV]. }
  rewrite Rk in Rm.
  assert (Ex : x = fadd (fmul (fz k) s) (fz 0)) by (unfold x, lin_point; fold s; cbv zeta; now rewrite Zs).
  destruct (fadd_ok (fmul (fz k) s) (fz 0) Fm F0) as [Fx Rx].
  { rewrite R0, Rplus_0_r, rnd_fR. apply fR_lt_Top. }
  rewrite R0, Rplus_0_r, rnd_fR, Rm in Rx. rewrite Ex. split; [exact Fx|]. split; [exact Rx|]. rewrite Rx. split.
  - split; [apply rnd_nonneg; lra|apply rnd_le_fmt; [apply fmt_fR|lra]].
  - pose proof (rnd_err (IZR k * fR s)) as E2. rewrite (Rabs_pos_eq (IZR k * fR s)) in E2 by lra. apply Rabs_le_inv in E2.
    assert (Q2 : (eta64 * bpow radix2 100 <= V * bpow radix2 (-53))%R).
    { unfold eta64. rewrite <- bpow_plus. apply Rle_trans with (bpow radix2 (-900) * bpow radix2 (-53))%R.
      - rewrite <- bpow_plus. apply bpow_le. lia.
      - apply Rmult_le_compat_r; [apply bpow_ge_0|lra]. }
    assert (KE2 : (Rabs (IZR k * fR s - IZR k * q) <= V * u64 + V * u64 * / 8)%R).
    { rewrite <- Rmult_minus_distr_l, Rabs_mult, (Rabs_pos_eq (IZR k)) by lra.
      apply Rle_trans with (N * (q * u64 + eta64))%R.
      - apply Rmult_le_compat; [lra|apply Rabs_pos|lra|]. apply Rabs_le. lra.
      - rewrite Rmult_plus_distr_l, <- Rmult_assoc, (Rmult_comm N q), QN. apply Rplus_le_compat_l.
        apply Rle_trans with (bpow radix2 50 * eta64)%R; [apply Rmult_le_compat_r; lra|].
        unfold u64. apply Rle_trans with (eta64 * bpow radix2 100 * / 8)%R; [|apply Rmult_le_compat_r; lra].
        replace (bpow radix2 100) with (bpow radix2 50 * bpow radix2 50)%R by (rewrite <- bpow_plus; reflexivity).
        change (bpow radix2 50) with 1125899906842624%R. lra. }
    apply Rabs_le_inv in KE2.
    assert (ES : (eta64 <= V * u64 * / 8)%R).
    { unfold u64. apply Rle_trans with (eta64 * bpow radix2 100 * / 8)%R; [|apply Rmult_le_compat_r; lra].
      change (bpow radix2 100) with 1267650600228229401496703205376%R. lra. }
    assert (B51 : (V * bpow radix2 (-51) = 4 * (V * u64))%R) by (unfold u64; change (-51) with (2 + -53); rewrite bpow_plus; change (bpow radix2 2) with 4%R; ring).
    assert (VK : (u64 * (IZR k * fR s) <= u64 * V)%R) by (apply Rmult_le_compat_l; lra).
    rewrite B51. apply Rabs_le. clear - E2 KE2 ES VK EP Up BV. pose proof (bpow_gt_0 radix2 (-900)) as G.
    assert (0 <= V * u64)%R by (apply Rmult_le_pos; lra). lra.
Qed.

Lemma lin_ok : exists l, linspace v num = Ok l /\ Z.of_nat (List.length l) = num /\ voltages v l
  /\ fR (hd (fz 0) l) = 0%R /\ last l (fz 0) = v
  /\ forall k, 0 <= k < num -> (Rabs (fR (nth (Z.to_nat k) l (fz 0)) - IZR k * (V / IZR (num - 1))) <= V * bpow radix2 (-51))%R.
Proof.
  pose proof N_range as BN. pose proof V_range as BV. pose proof (bpow_gt_0 radix2 (-900)) as G.
  set (l := map (fun k => lin_point (fsub v (fz 0)) n (Z.of_nat k)) (seq 0 (Z.to_nat n))).
  assert (L : List.length l = Z.to_nat n) by (unfold l; now rewrite map_length, seq_length).
  assert (T : forall k, (k < Z.to_nat n)%nat -> nth k (l ++ [v]) (fz 0) = lin_point (fsub v (fz 0)) n (Z.of_nat k)).
  { intros k Hk. rewrite app_nth1 by lia. unfold l. rewrite (map_nth_in _ _ _ 0%nat) by (now rewrite seq_length). now rewrite seq_nth. }
  assert (Tl : nth (Z.to_nat n) (l ++ [v]) (fz 0) = v) by (rewrite app_nth2, L, Nat.sub_diag by lia; reflexivity).
  exists (l ++ [v]). split; [|split; [|split; [|split; [|split]]]].
  - unfold linspace. destruct (Z.leb_spec 0 num); [|lia]. cbv zeta. fold n. destruct (Z.ltb_spec 0 n); [reflexivity|unfold n in *; lia].
  - rewrite app_length, L. cbn. unfold n. lia.
  - split.
    + intros j k [Hj Hk]. rewrite app_length, L in Hk. cbn in Hk.
      destruct (Nat.eq_dec k (Z.to_nat n)) as [->|Kn].
      * rewrite Tl. destruct (Nat.eq_dec j (Z.to_nat n)) as [->|Jn]; [rewrite Tl; lra|].
        rewrite T by lia. destruct (point_ok (Z.of_nat j)) as (_ & _ & H & _); [lia|]. apply H.
      * rewrite !T by lia. destruct (point_ok (Z.of_nat j)) as (_ & -> & _); [lia|]. destruct (point_ok (Z.of_nat k)) as (_ & -> & _); [lia|].
        destruct step_ok as (_ & _ & _ & P & _). apply rnd_le. apply Rmult_le_compat_r; [lra|]. apply IZR_le. lia.
    + apply Forall_forall. intros x Hx. destruct (In_nth _ _ (fz 0) Hx) as (j & Hj & <-). rewrite app_length, L in Hj. cbn in Hj.
      destruct (Nat.eq_dec j (Z.to_nat n)) as [->|Jn]; [rewrite Tl; split; [exact Fv|fold V; lra]|].
      rewrite T by lia. destruct (point_ok (Z.of_nat j)) as (F & _ & H & _); [lia|]. now split.
  - replace (hd (fz 0) (l ++ [v])) with (nth 0 (l ++ [v]) (fz 0)) by (now destruct (l ++ [v])).
    rewrite T by (unfold n; lia). destruct (point_ok (Z.of_nat 0)) as (_ & -> & _); [unfold n; lia|]. now rewrite Rmult_0_l, rnd_0.
  - apply last_last.
  - intros k Hk. fold n. fold N. destruct (Z.eq_dec k n) as [->|Kn].
    + rewrite Tl. fold V. fold N. replace (V - N * (V / N))%R with 0%R by (field; lra). rewrite Rabs_R0. apply Rmult_le_pos; [lra|apply bpow_ge_0].
    + rewrite T by (unfold n in *; lia). rewrite Z2Nat.id by lia. apply point_ok. unfold n in *; lia.
Qed.
End Lin.

(** ** A witness: the correctly rounded exponential function *)

Definition real_exp (x : f64) : f64 :=
  match x with
  | B754_nan => B754_nan
  | B754_infinity true => fz 0
  | B754_infinity false => B754_infinity false
  | _ => if Rle_dec (exp (fR x)) Big then of_real (exp (fR x)) else B754_infinity false
  end.
Definition real_np : npmath := mkNp real_exp (fun x => x).

Lemma real_exp_fin x : fin x = true ->
  (exp (fR x) <= Big /\ fin (real_exp x) = true /\ fR (real_exp x) = rnd (exp (fR x)))%R
  \/ (Big < exp (fR x) /\ real_exp x = B754_infinity false)%R.
Proof.
  intros F. assert (E : real_exp x = if Rle_dec (exp (fR x)) Big then of_real (exp (fR x)) else B754_infinity false) by (now destruct x).
  rewrite E. destruct (Rle_dec (exp (fR x)) Big) as [L|L]; [left|right; split; [lra|reflexivity]].
  split; [exact L|]. apply of_real_ok. rewrite Rabs_pos_eq; [exact L|]. left. apply exp_pos.
Qed.

Lemma real_exp_ok : exp_ok real_np.
Proof.
  destruct fz0 as [F0 R0]. pose proof Top_pos as HT.
  assert (NN : forall x, isnan x = false -> isnan (real_exp x) = false /\ (0 <= xR (real_exp x))%R).
  { intros x N. destruct (fin x) eqn:F.
    - destruct (real_exp_fin x F) as [(L & Fe & Re)|(L & E)].
      + split; [now apply fin_nan|]. rewrite xR_fin, Re by exact Fe. apply rnd_nonneg. left. apply exp_pos.
      + rewrite E. split; [reflexivity|]. rewrite xR_pinf. lra.
    - destruct (inf_cases x F N) as [-> | ->]; cbn [real_exp].
      + split; [now apply fin_nan|]. rewrite xR_fin, R0 by exact F0. lra.
      + split; [reflexivity|]. rewrite xR_pinf. lra. }
  split; [|split].
  - intros x N. now apply NN.
  - intros x y Nx Ny H. cbn [np_exp real_np]. destruct (fin y) eqn:Fy.
    + destruct (fin x) eqn:Fx.
      * rewrite !xR_fin in H by assumption.
        assert (Hexp : (exp (fR x) <= exp (fR y))%R).
        { destruct (Req_dec (fR x) (fR y)) as [->|D]; [lra|]. left. apply exp_increasing. lra. }
        destruct (real_exp_fin x Fx) as [(L & Fe & Re)|(L & E)], (real_exp_fin y Fy) as [(L' & Fe' & Re')|(L' & E')].
        -- rewrite !xR_fin, Re, Re' by assumption. now apply rnd_le.
        -- rewrite E', xR_pinf. apply xR_range.
        -- lra.
        -- rewrite E, E'. lra.
      * pose proof (xR_open y Fy). destruct (inf_cases x Fx Nx) as [-> | ->]; [|rewrite xR_pinf in H; lra].
        cbn [real_exp]. rewrite (xR_fin (fz 0)), R0 by exact F0. now apply NN.
    + destruct (inf_cases y Fy Ny) as [-> | ->].
      * rewrite xR_ninf in H. destruct (fin x) eqn:Fx; [pose proof (xR_open x Fx); lra|].
        destruct (inf_cases x Fx Nx) as [-> | ->]; [lra|rewrite xR_pinf in H; lra].
      * cbn [real_exp]. rewrite xR_pinf. apply xR_range.
  - intros x F E. cbn [np_exp real_np]. destruct fz1 as [F1 R1].
    destruct (real_exp_fin x F) as [(L & Fe & Re)|(L & _)].
    + rewrite E, exp_0 in Re. rewrite (rnd_id 1) in Re by (apply (fmt_IZR 1); lia).
      apply B2R_inj.
      * destruct (real_exp x) as [s|s| |s mm e B]; try discriminate Fe; [cbn in Re; lra|reflexivity].
      * reflexivity.
      * now rewrite R1.
    + rewrite E, exp_0 in L. pose proof (IZR_Big 1 ltac:(lia)). lra.
Qed.
