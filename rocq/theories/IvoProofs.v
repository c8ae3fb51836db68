(** The curve model and the trackers of mppt.py. *)
From Coq Require Import ZArith Bool Reals Lia Lra List.
From Flocq Require Import Core IEEE754.BinarySingleNaN.
From Verif Require Import PyBase F64 F64x IvoModel IvoSpec.
Import ListNotations.
Open Scope Z_scope.

(** ** Operations with infinities *)

Lemma fle_x a b : isnan a = false -> isnan b = false -> (fle a b = true <-> (xR a <= xR b)%R).
Proof.
  intros Na Nb. pose proof Top_pos as HT. destruct (fin a) eqn:Fa, (fin b) eqn:Fb.
  - rewrite !xR_fin by assumption. now apply fle_R.
  - pose proof (xR_open a Fa). destruct (fle_inf_r a Fa) as [E1 E2].
    destruct (inf_cases b Fb Nb) as [-> | ->]; rewrite ?E1, ?E2, ?xR_ninf, ?xR_pinf; split; intros; try discriminate; try reflexivity; lra.
  - pose proof (xR_open b Fb). destruct (fle_inf_l b Fb) as [E1 E2].
    destruct (inf_cases a Fa Na) as [-> | ->]; rewrite ?E1, ?E2, ?xR_ninf, ?xR_pinf; split; intros; try discriminate; try reflexivity; lra.
  - destruct (inf_cases a Fa Na) as [-> | ->], (inf_cases b Fb Nb) as [-> | ->];
      rewrite ?xR_ninf, ?xR_pinf; split; intros H; try discriminate H; try reflexivity; lra.
Qed.

Lemma clampR_range r : (- Top <= clampR r <= Top)%R.
Proof. pose proof Top_pos. unfold clampR. split; [apply Rmax_l|]. apply Rmax_lub; [lra|apply Rmin_l]. Qed.

Lemma rnd_mono_clamp a b : (a <= b)%R -> (clampR (rnd a) <= clampR (rnd b))%R.
Proof. intros H. apply clampR_le, rnd_le, H. Qed.

(** Subtracting a finite value. *)
Lemma sub_r e w : isnan e = false -> fin w = true ->
  isnan (fsub e w) = false /\ xR (fsub e w) = if fin e then clampR (rnd (fR e - fR w)) else xR e.
Proof.
  intros Ne Fw. destruct (fin e) eqn:Fe; [now apply fsub_x|].
  destruct (inf_cases e Fe Ne) as [-> | ->]; destruct w as [s|s| |s m x B]; try discriminate Fw; split; reflexivity.
Qed.
Lemma sub_r_mono e e' w : isnan e = false -> isnan e' = false -> fin w = true -> (xR e <= xR e')%R ->
  (xR (fsub e w) <= xR (fsub e' w))%R.
Proof.
  intros N N' Fw H. destruct (sub_r e w N Fw) as [_ ->], (sub_r e' w N' Fw) as [_ ->]. pose proof Top_pos as T.
  destruct (fin e) eqn:Fe, (fin e') eqn:Fe'.
  - rewrite !xR_fin in H by assumption. apply rnd_mono_clamp. lra.
  - pose proof (xR_open e Fe). destruct (xR_inf e' N' Fe') as [E|E]; rewrite E in *; [apply clampR_range|lra].
  - pose proof (xR_open e' Fe'). destruct (xR_inf e N Fe) as [E|E]; rewrite E in *; [lra|apply clampR_range].
  - exact H.
Qed.
(** Multiplying with a positive finite value. *)
Lemma mul_l b y : fin b = true -> (0 < fR b)%R -> isnan y = false ->
  isnan (fmul b y) = false /\ xR (fmul b y) = if fin y then clampR (rnd (fR b * fR y)) else xR y.
Proof.
  intros Fb Pb Ny. destruct (fin y) eqn:Fy; [now apply fmul_x|].
  destruct b as [s|s| |s m x B]; try discriminate Fb; [cbn in Pb; lra|].
  assert (Es : s = false).
  { destruct s; [|reflexivity]. pose proof (sign_le (B754_finite true m x B) eq_refl eq_refl). lra. }
  subst s. destruct (inf_cases y Fy Ny) as [-> | ->]; split; reflexivity.
Qed.
Lemma mul_l_mono b y y' : fin b = true -> (0 < fR b)%R -> isnan y = false -> isnan y' = false -> (xR y <= xR y')%R ->
  (xR (fmul b y) <= xR (fmul b y'))%R.
Proof.
  intros Fb Pb N N' H. destruct (mul_l b y Fb Pb N) as [_ ->], (mul_l b y' Fb Pb N') as [_ ->]. pose proof Top_pos as T.
  destruct (fin y) eqn:Fe, (fin y') eqn:Fe'.
  - rewrite !xR_fin in H by assumption. apply rnd_mono_clamp. apply Rmult_le_compat_l; lra.
  - pose proof (xR_open y Fe). destruct (xR_inf y' N' Fe') as [E|E]; rewrite E in *; [apply clampR_range|lra].
  - pose proof (xR_open y' Fe'). destruct (xR_inf y N Fe) as [E|E]; rewrite E in *; [lra|apply clampR_range].
  - exact H.
Qed.
(** Subtracting from a finite value. *)
Lemma sub_l a z : fin a = true -> isnan z = false ->
  isnan (fsub a z) = false /\ xR (fsub a z) = if fin z then clampR (rnd (fR a - fR z)) else (- xR z)%R.
Proof.
  intros Fa Nz. destruct (fin z) eqn:Fz; [now apply fsub_x|].
  destruct (inf_cases z Fz Nz) as [-> | ->]; destruct a as [s|s| |s m x B]; try discriminate Fa;
    (split; [reflexivity|]); cbn [xR]; rewrite ?Ropp_involutive; reflexivity.
Qed.
Lemma sub_l_mono a z z' : fin a = true -> isnan z = false -> isnan z' = false -> (xR z <= xR z')%R ->
  (xR (fsub a z') <= xR (fsub a z))%R.
Proof.
  intros Fa N N' H. destruct (sub_l a z Fa N) as [_ ->], (sub_l a z' Fa N') as [_ ->]. pose proof Top_pos as T.
  destruct (fin z) eqn:Fe, (fin z') eqn:Fe'.
  - rewrite !xR_fin in H by assumption. apply rnd_mono_clamp. lra.
  - pose proof (xR_open z Fe). destruct (xR_inf z' N' Fe') as [E|E]; rewrite E in *; [apply clampR_range|lra].
  - pose proof (xR_open z' Fe'). destruct (xR_inf z N Fe) as [E|E]; rewrite E in *; [lra|]. rewrite Ropp_involutive. apply clampR_range.
  - lra.
Qed.

(** ** The curve *)

Lemma fz0 : fin (fz 0) = true /\ fR (fz 0) = 0%R. Proof. apply fz_ok. lia. Qed.
Lemma fz1 : fin (fz 1) = true /\ fR (fz 1) = 1%R. Proof. apply fz_ok. lia. Qed.

Section Curve.
Variables (m : npmath) (r : coef).
Hypothesis He : exp_ok m.
Hypothesis Hr : solar r.

Lemma arg_x v : fin v = true -> (0 <= fR v)%R ->
  isnan (fmul (c_c r) v) = false /\ (0 <= xR (fmul (c_c r) v))%R.
Proof.
  intros Fv Pv. destruct Hr as (_ & _ & Fc & Pc). destruct (fmul_x _ _ Fc Fv) as [N E]. split; [exact N|]. rewrite E.
  pose proof Top_pos. rewrite <- (clampR_in 0) by (rewrite Rabs_R0; lra). apply clampR_le. apply rnd_nonneg. nra.
Qed.
Lemma arg_mono v v' : fin v = true -> fin v' = true -> (fR v <= fR v')%R ->
  (xR (fmul (c_c r) v) <= xR (fmul (c_c r) v'))%R.
Proof.
  intros Fv Fv' H. destruct Hr as (_ & _ & Fc & Pc). destruct (fmul_x _ _ Fc Fv) as [_ ->], (fmul_x _ _ Fc Fv') as [_ ->].
  apply rnd_mono_clamp. nra.
Qed.

Lemma raw_x v : fin v = true -> (0 <= fR v)%R ->
  isnan (iv_raw m r v) = false /\ (xR (iv_raw m r v) <= fR (c_a r))%R.
Proof.
  intros Fv Pv. destruct (arg_x v Fv Pv) as [Nx Px]. destruct Hr as ((Fa & Pa) & (Fb & Pb) & _). destruct He as (E1 & E2 & E3).
  destruct fz0 as [F0 R0], fz1 as [F1 R1]. unfold iv_raw.
  assert (Ne := E1 _ Nx). assert (Le : (1 <= xR (np_exp m (fmul (c_c r) v)))%R).
  { assert (T : (xR (np_exp m (fz 0)) <= xR (np_exp m (fmul (c_c r) v)))%R).
    { apply E2; [now apply fin_nan|exact Nx|]. rewrite xR_fin, R0 by exact F0. exact Px. }
    rewrite (E3 (fz 0) F0 R0), xR_fin, R1 in T by exact F1. exact T. }
  set (e := np_exp m (fmul (c_c r) v)) in *. clearbody e.
  destruct (sub_r e (fz 1) Ne F1) as [Ny _].
  assert (Py : (0 <= xR (fsub e (fz 1)))%R).
  { assert (T := sub_r_mono (fz 1) e (fz 1) (fin_nan _ F1) Ne F1). rewrite (xR_fin (fz 1)), R1 in T by exact F1.
    specialize (T Le). destruct (fsub_x (fz 1) (fz 1) F1 F1) as [_ X]. rewrite X, R1 in T.
    replace (1 - 1)%R with 0%R in T by ring. rewrite rnd_0, clampR_in in T by (rewrite Rabs_R0; apply Top_pos). exact T. }
  set (y := fsub e (fz 1)) in *. clearbody y.
  destruct (mul_l (c_b r) y Fb Pb Ny) as [Nz _].
  assert (Pz : (0 <= xR (fmul (c_b r) y))%R).
  { assert (T := mul_l_mono (c_b r) (fz 0) y Fb Pb (fin_nan _ F0) Ny). rewrite (xR_fin (fz 0)), R0 in T by exact F0.
    specialize (T Py). destruct (fmul_x (c_b r) (fz 0) Fb F0) as [_ X]. rewrite X, R0 in T.
    rewrite Rmult_0_r, rnd_0, clampR_in in T by (rewrite Rabs_R0; apply Top_pos). exact T. }
  set (z := fmul (c_b r) y) in *. clearbody z.
  destruct (sub_l (c_a r) z Fa Nz) as [Ni _]. split; [exact Ni|].
  assert (T := sub_l_mono (c_a r) (fz 0) z Fa (fin_nan _ F0) Nz). rewrite (xR_fin (fz 0)), R0 in T by exact F0.
  specialize (T Pz). destruct (fsub_x (c_a r) (fz 0) Fa F0) as [_ X]. rewrite X, R0, Rminus_0_r, rnd_fR in T.
  rewrite clampR_in in T by (apply fR_lt_Top). exact T.
Qed.

Lemma raw_mono v v' : fin v = true -> fin v' = true -> (0 <= fR v <= fR v')%R -> (xR (iv_raw m r v') <= xR (iv_raw m r v))%R.
Proof.
  intros Fv Fv' H. destruct (arg_x v Fv ltac:(lra)) as [Nx _], (arg_x v' Fv' ltac:(lra)) as [Nx' _].
  destruct Hr as ((Fa & Pa) & (Fb & Pb) & _). destruct He as (E1 & E2 & E3). destruct fz1 as [F1 R1].
  assert (L := E2 _ _ Nx Nx' (arg_mono v v' Fv Fv' ltac:(lra))). assert (N := E1 _ Nx). assert (N' := E1 _ Nx'). unfold iv_raw.
  apply sub_l_mono; [exact Fa| | |].
  - apply mul_l; [exact Fb|exact Pb|]. now apply sub_r.
  - apply mul_l; [exact Fb|exact Pb|]. now apply sub_r.
  - apply mul_l_mono; [exact Fb|exact Pb|now apply sub_r|now apply sub_r|]. now apply sub_r_mono.
Qed.

Lemma model_x v : fin v = true -> (0 <= fR v)%R ->
  fin (iv_model m r v) = true /\ (0 <= fR (iv_model m r v) <= fR (c_a r))%R
  /\ fR (iv_model m r v) = Rmax 0 (xR (iv_raw m r v)).
Proof.
  intros Fv Pv. destruct (raw_x v Fv Pv) as [N L]. destruct Hr as ((Fa & Pa) & _). destruct fz0 as [F0 R0].
  unfold iv_model. cbv zeta. destruct (flt (iv_raw m r v) (fz 0)) eqn:E.
  - apply flt_x in E; [|exact N|now apply fin_nan]. rewrite (xR_fin (fz 0)), R0 in E by exact F0. rewrite F0, R0, Rmax_left; lra.
  - apply flt_x_false in E; [|exact N|now apply fin_nan]. rewrite (xR_fin (fz 0)), R0 in E by exact F0.
    pose proof (fR_lt_Top (c_a r)) as B. apply Rabs_lt_inv in B.
    assert (F : fin (iv_raw m r v) = true) by (apply fin_of_x; [exact N|]; pose proof Top_pos; lra).
    rewrite (xR_fin _ F) in *. rewrite Rmax_right by lra. repeat split; assumption || lra.
Qed.

Lemma model_mono v v' : fin v = true -> fin v' = true -> (0 <= fR v <= fR v')%R ->
  (fR (iv_model m r v') <= fR (iv_model m r v))%R.
Proof.
  intros Fv Fv' H. destruct (model_x v Fv ltac:(lra)) as (_ & _ & ->), (model_x v' Fv' ltac:(lra)) as (_ & _ & ->).
  apply Rle_max_compat_l. now apply raw_mono.
Qed.

(** At 0 V the full current. *)
Lemma model_0 v : fin v = true -> fR v = 0%R -> fR (iv_model m r v) = fR (c_a r).
Proof.
  intros Fv Ev. destruct (model_x v Fv ltac:(lra)) as (_ & _ & ->). destruct Hr as ((Fa & Pa) & (Fb & Pb) & Fc & Pc).
  destruct He as (_ & _ & E3). destruct fz1 as [F1 R1]. unfold iv_raw.
  destruct (fmul_Big (c_c r) v Fc Fv) as [Fx Rx].
  { rewrite Ev, Rmult_0_r, Rabs_R0. left. apply Big_pos. }
  rewrite Ev, Rmult_0_r, rnd_0 in Rx. rewrite (E3 _ Fx Rx).
  destruct (fsub_Big (fz 1) (fz 1) F1 F1) as [Fy Ry].
  { rewrite R1, Rminus_diag_eq by reflexivity. rewrite Rabs_R0. left. apply Big_pos. }
  rewrite R1, Rminus_diag_eq, rnd_0 in Ry by reflexivity.
  destruct (fmul_Big (c_b r) _ Fb Fy) as [Fz Rz].
  { rewrite Ry, Rmult_0_r, Rabs_R0. left. apply Big_pos. }
  rewrite Ry, Rmult_0_r, rnd_0 in Rz. destruct (fsub_x (c_a r) _ Fa Fz) as [_ X]. rewrite X, Rz, Rminus_0_r, rnd_fR.
  rewrite clampR_in by apply fR_lt_Top. apply Rmax_right. lra.
Qed.
End Curve.

Lemma feq_fin_refl x : fin x = true -> feq x x = true.
Proof. intros F. now apply feq_R. Qed.

(** Both variants of the model. *)
Lemma scalar_same m r v : isnan (iv_raw m r v) = false -> feq (iv_model m r v) (iv_model_scalar m r v) = true \/ iv_model m r v = iv_model_scalar m r v.
Proof.
  intros N. destruct fz0 as [F0 R0]. unfold iv_model, iv_model_scalar, fmax. cbv zeta.
  destruct (flt (iv_raw m r v) (fz 0)) eqn:E1, (flt (fz 0) (iv_raw m r v)) eqn:E2.
  - exfalso. apply flt_x in E1; [|exact N|now apply fin_nan]. apply flt_x in E2; [|now apply fin_nan|exact N]. lra.
  - now right.
  - now right.
  - left. apply flt_x_false in E1; [|exact N|now apply fin_nan]. apply flt_x_false in E2; [|now apply fin_nan|exact N].
    rewrite (xR_fin (fz 0)), R0 in * by exact F0. pose proof Top_pos.
    assert (F : fin (iv_raw m r v) = true) by (apply fin_of_x; [exact N|lra]).
    rewrite (xR_fin _ F) in *. apply feq_R; [exact F|exact F0|]. rewrite R0. lra.
Qed.

(** ** argmax *)

Definition peak (l : list f64) (k : nat) : Prop :=
  (k < List.length l)%nat
  /\ (forall j, (j < List.length l)%nat -> (xR (nth j l (fz 0)) <= xR (nth k l (fz 0)))%R)
  /\ (forall j, (j < k)%nat -> (xR (nth j l (fz 0)) < xR (nth k l (fz 0)))%R).

Lemma argmax_from_peak (l : list f64) : forall (pre : list f64) k, Forall (fun x : f64 => isnan x = false) (pre ++ l) -> peak pre k ->
  peak (pre ++ l) (argmax_from (nth k pre (fz 0)) k (List.length pre) l).
Proof.
  induction l as [|x l IH]; intros pre k N P; [now rewrite app_nil_r|].
  assert (N' := N). apply Forall_app in N'. destruct N' as [Np Nx]. inversion Nx as [|? ? Nx0 _]. subst.
  destruct P as (P1 & P2 & P3).
  assert (Nb : isnan (nth k pre (fz 0)) = false) by (rewrite Forall_forall in Np; apply Np, nth_In, P1).
  cbn [argmax_from]. rewrite Nb.
  replace (pre ++ x :: l) with ((pre ++ [x]) ++ l) in * by (now rewrite <- app_assoc).
  replace (S (List.length pre)) with (List.length (pre ++ [x])) by (rewrite app_length; cbn; lia).
  destruct (fle x (nth k pre (fz 0))) eqn:E; cbn [negb].
  - apply fle_x in E; [|exact Nx0|exact Nb].
    replace (nth k pre (fz 0)) with (nth k (pre ++ [x]) (fz 0)) by (now rewrite app_nth1).
    apply IH; [exact N|]. split; [rewrite app_length; cbn; lia|]. split.
    + intros j Hj. rewrite app_length in Hj; cbn in Hj. rewrite (app_nth1 _ _ _ P1).
      destruct (Nat.lt_ge_cases j (List.length pre)); [rewrite app_nth1 by assumption; now apply P2|].
      rewrite app_nth2 by assumption. replace (j - List.length pre)%nat with 0%nat by lia. exact E.
    + intros j Hj. rewrite !app_nth1 by lia. now apply P3.
  - assert (E' : (xR (nth k pre (fz 0)) < xR x)%R).
    { apply Rnot_le_lt. intros H. apply (fle_x x _ Nx0 Nb) in H. congruence. }
    assert (X : nth (List.length pre) (pre ++ [x]) (fz 0) = x) by (rewrite app_nth2, Nat.sub_diag by lia; reflexivity).
    pose proof (IH (pre ++ [x]) (List.length pre) N) as Q. rewrite X in Q. apply Q. clear Q. split; [rewrite app_length; cbn; lia|]. split.
    + intros j Hj. rewrite app_length in Hj; cbn in Hj. rewrite X.
      destruct (Nat.lt_ge_cases j (List.length pre)) as [L|L].
      * rewrite app_nth1 by exact L. specialize (P2 j L). lra.
      * replace j with (List.length pre) by lia. rewrite X. lra.
    + intros j Hj. rewrite X, app_nth1 by exact Hj. specialize (P2 j Hj). lra.
Qed.

Lemma argmax_peak (l : list f64) : l <> [] -> Forall (fun x : f64 => isnan x = false) l -> exists k, argmax l = Ok k /\ peak l k.
Proof.
  destruct l as [|x l]; [congruence|]. intros _ N. exists (argmax_from x 0 1 l). split; [reflexivity|].
  apply (argmax_from_peak l [x] 0); [exact N|]. split; [cbn; lia|]. split; intros j Hj; cbn in Hj; [|lia].
  replace j with 0%nat by lia. lra.
Qed.

(** ** The optimal tracker *)

Lemma at_pos_nth {A} (l : list A) k d : (k < List.length l)%nat -> at_pos l k = Ok (nth k l d).
Proof. intros H. unfold at_pos. now rewrite (nth_error_nth' l d H). Qed.

Lemma map_nth_in {A B} (f : A -> B) (l : list A) k a b : (k < List.length l)%nat -> nth k (map f l) b = f (nth k l a).
Proof. intros H. rewrite (nth_indep _ b (f a)) by (now rewrite map_length). apply map_nth. Qed.

Lemma power_nth m r grid j : (j < List.length grid)%nat ->
  nth j (map (fun vi => fmul (fst vi) (snd vi)) (combine grid (map (iv_model m r) grid))) (fz 0)
  = fmul (nth j grid (fz 0)) (iv_model m r (nth j grid (fz 0))).
Proof.
  revert j. induction grid as [|v grid IH]; intros j Hj; [cbn in Hj; lia|]. destruct j; [reflexivity|]. cbn [combine map nth]. apply IH. cbn in Hj. lia.
Qed.

Lemma optimal m r top grid : exp_ok m -> solar r -> voltages top grid -> grid <> [] ->
  exists k, (k < List.length grid)%nat
    /\ let v := nth k grid (fz 0) in
       optimal_row m grid r = Ok (v, iv_model m r v)
       /\ forall u, In u grid -> fle (fmul u (iv_model m r u)) (fmul v (iv_model m r v)) = true
            /\ ((fR u < fR v)%R -> flt (fmul u (iv_model m r u)) (fmul v (iv_model m r v)) = true).
Proof.
  intros He Hr [Ha Hv] Hg. set (P := map (fun vi => fmul (fst vi) (snd vi)) (combine grid (map (iv_model m r) grid))).
  assert (L : List.length P = List.length grid).
  { unfold P. rewrite map_length, combine_length, map_length. lia. }
  assert (Nn : forall j, (j < List.length grid)%nat -> isnan (nth j P (fz 0)) = false).
  { intros j Hj. unfold P. rewrite power_nth by exact Hj. rewrite Forall_forall in Hv. destruct (Hv _ (nth_In grid (fz 0) Hj)) as [Fv [Pv _]].
    destruct (model_x m r He Hr _ Fv Pv) as [Fi _]. now apply fmul_x. }
  destruct (argmax_peak P) as (k & Ek & K1 & K2 & K3).
  { intros E. rewrite E in L. destruct grid; [congruence|discriminate L]. }
  { rewrite Forall_forall. intros x Hx. destruct (In_nth _ _ (fz 0) Hx) as (j & Hj & <-). apply Nn. lia. }
  rewrite L in K1, K2. exists k. split; [exact K1|]. cbv zeta. split.
  - unfold optimal_row. cbv zeta. fold P. rewrite Ek. cbn [bind].
    rewrite (at_pos_nth _ k (fz 0)) by (now rewrite map_length). cbn [bind].
    rewrite (at_pos_nth _ k (fz 0)) by exact K1. cbn [bind]. now rewrite (map_nth_in _ _ _ (fz 0)).
  - intros w Hw. destruct (In_nth _ _ (fz 0) Hw) as (j & Hj & <-).
    unfold P in K2, K3, Nn. pose proof (Nn j Hj) as Nj. pose proof (Nn k K1) as Nk. rewrite power_nth in Nj, Nk by assumption.
    specialize (K2 j Hj). rewrite !power_nth in K2 by assumption. split.
    + now apply fle_x.
    + intros Hlt. destruct (Nat.lt_ge_cases j k) as [J|J].
      * specialize (K3 j J). rewrite !power_nth in K3 by assumption. now apply flt_x.
      * specialize (Ha k j ltac:(lia)). lra.
Qed.

(** ** The open-circuit tracker *)

Lemma filter_prefix (p : f64 -> bool) l :
  (forall j k, (j <= k < List.length l)%nat -> p (nth k l (fz 0)) = true -> p (nth j l (fz 0)) = true) ->
  exists n, (n <= List.length l)%nat /\ filter p l = firstn n l
    /\ (forall j, (j < n)%nat -> p (nth j l (fz 0)) = true)
    /\ (forall j, (n <= j < List.length l)%nat -> p (nth j l (fz 0)) = false).
Proof.
  induction l as [|x l IH]; intros H.
  - exists 0%nat. repeat split; cbn; try lia; intros j Hj; lia.
  - destruct IH as (n & Hn & E & H1 & H2).
    { intros j k Hjk. apply (H (S j) (S k)). cbn. lia. }
    cbn [filter]. destruct (p x) eqn:Px.
    + exists (S n). cbn [firstn List.length]. split; [lia|]. split; [now rewrite E|]. split.
      * intros [|j] Hj; [exact Px|]. apply H1. lia.
      * intros [|j] Hj; [lia|]. apply H2. lia.
    + assert (n = 0)%nat.
      { destruct n; [reflexivity|]. exfalso. specialize (H 0%nat 1%nat ltac:(cbn; lia)). cbn [nth] in H.
        rewrite H in Px; [discriminate|]. apply (H1 0%nat). lia. }
      subst n. exists 0%nat. cbn [firstn] in *. split; [lia|]. split; [now rewrite E|]. split; [intros; lia|].
      intros [|j] Hj; [exact Px|]. apply H2. cbn in Hj. lia.
Qed.

Lemma oc m r top grid ratio voc : exp_ok m -> solar r -> voltages top grid -> grid <> [] -> fR (hd (fz 0) grid) = 0%R ->
  let w := fmul ratio voc in
  (isnan w = false /\ (0 < xR w)%R ->
     exists v, In v grid /\ oc_row m grid ratio r voc = Ok (v, iv_model m r v)
       /\ flt v w = true /\ forall u, In u grid -> flt u w = true -> fle u v = true)
  /\ (isnan w = true \/ (xR w <= 0)%R -> oc_row m grid ratio r voc = Err ValueError).
Proof.
  intros He Hr [Ha Hv] Hg H0 w. rewrite Forall_forall in Hv.
  assert (Fg : forall j, (j < List.length grid)%nat -> fin (nth j grid (fz 0)) = true /\ (0 <= fR (nth j grid (fz 0)))%R).
  { intros j Hj. destruct (Hv _ (nth_In grid (fz 0) Hj)) as [F [P _]]. now split. }
  assert (Lg : (0 < List.length grid)%nat) by (destruct grid; [congruence|cbn; lia]).
  split.
  - intros [Nw Pw]. unfold oc_row. cbv zeta. fold w.
    destruct (filter_prefix (fun v => flt v w) grid) as (n & Hn & E & H1 & H2).
    { intros j k Hjk Hk. destruct (Fg j ltac:(lia)) as [Fj _], (Fg k ltac:(lia)) as [Fk _].
      apply flt_x in Hk; [|now apply fin_nan|exact Nw]. apply flt_x; [now apply fin_nan|exact Nw|].
      specialize (Ha j k Hjk). rewrite (xR_fin _ Fj). rewrite (xR_fin _ Fk) in Hk. lra. }
    rewrite E.
    assert (n1 : (1 <= n)%nat).
    { destruct n; [|lia]. exfalso. specialize (H2 0%nat ltac:(lia)). destruct (Fg 0%nat Lg) as [F _].
      apply flt_x_false in H2; [|now apply fin_nan|exact Nw]. rewrite (xR_fin _ F) in H2.
      destruct grid; [congruence|]. cbn in H0, H2. lra. }
    destruct (argmax_peak (firstn n grid)) as (k & Ek & K1 & K2 & K3).
    { destruct n; [lia|]. destruct grid; [congruence|]. discriminate. }
    { rewrite Forall_forall. intros x Hx.
      assert (Hi : In x grid) by (rewrite <- (firstn_skipn n grid); apply in_or_app; now left).
      destruct (Hv _ Hi) as [F _]. now apply fin_nan. }
    rewrite firstn_length, Nat.min_l in K1 by lia. rewrite firstn_length, Nat.min_l in K2 by lia.
    assert (Nf : forall j, (j < n)%nat -> nth j (firstn n grid) (fz 0) = nth j grid (fz 0)).
    { intros j Hj. rewrite <- (firstn_skipn n grid) at 2. rewrite app_nth1; [reflexivity|]. rewrite firstn_length. lia. }
    exists (nth k grid (fz 0)). split; [apply nth_In; lia|]. split.
    + rewrite Ek. cbn [bind]. rewrite (at_pos_nth _ k (fz 0)) by (rewrite map_length; lia). cbn [bind].
      rewrite (at_pos_nth _ k (fz 0)) by lia. cbn [bind]. rewrite (map_nth_in _ _ _ (fz 0)) by lia. reflexivity.
    + split; [now apply H1|]. intros u Hu Lu. destruct (In_nth _ _ (fz 0) Hu) as (j & Hj & <-).
      destruct (Nat.lt_ge_cases j n) as [J|J]; [|now rewrite H2 in Lu by lia].
      specialize (K2 j J). rewrite !Nf in K2 by assumption. destruct (Fg j Hj) as [Fj _], (Fg k ltac:(lia)) as [Fk _].
      apply fle_x; [now apply fin_nan|now apply fin_nan|exact K2].
  - intros H. unfold oc_row. cbv zeta. fold w.
    assert (E : filter (fun v => flt v w) grid = []).
    { assert (A : forall u, In u grid -> flt u w = false).
      { intros u Hu. destruct (Hv u Hu) as [F [P _]]. destruct (isnan w) eqn:Nw.
        - apply nan_eq in Nw. rewrite Nw. apply flt_nan_r.
        - destruct H as [H|H]; [discriminate|]. apply flt_x_false; [now apply fin_nan|exact Nw|]. rewrite (xR_fin _ F). lra. }
      clear - A. induction grid as [|a l IHl]; [reflexivity|]. cbn [filter]. rewrite (A a) by now left. apply IHl. intros u Hu. apply A. now right. }
    rewrite E. reflexivity.
Qed.

(** A row without light has no open-circuit voltage; the tracker fails. *)
Lemma oc_dark m r v_max t_max pts ratio rows : np_log m (fz 1) = fz 0 -> fin ratio = true ->
  fR (c_a r) = 0%R -> (fin (c_a r) = true /\ fin (c_b r) = true /\ 0 < fR (c_b r) /\ fin (c_c r) = true /\ 0 < fR (c_c r))%R ->
  fin v_max = true -> (0 < fR v_max)%R ->
  exp_ok m -> solar r ->
  forall grid, linspace t_max pts = Ok grid -> voltages t_max grid -> grid <> [] -> fR (hd (fz 0) grid) = 0%R ->
  track_oc m v_max t_max pts ratio (r :: rows) = Err ValueError.
Proof.
  intros Hl Frat Ra (Fa & Fb & Pb & Fc & Pc) Fm Pm He Hr grid Eg Hv Hg H0.
  destruct fz0 as [F0 R0], fz1 as [F1 R1].
  destruct (idiv_Big (c_a r) (c_b r) Fa) as [Fq Rq]; [lra|unfold Rdiv; rewrite Ra, Rmult_0_l, Rabs_R0; left; apply Big_pos|].
  unfold Rdiv in Rq. rewrite Ra, Rmult_0_l, rnd_0 in Rq.
  assert (E1 : fadd (idiv (c_a r) (c_b r)) (fz 1) = fz 1).
  { destruct (idiv (c_a r) (c_b r)) as [s|s| |s mm e B] eqn:E; try discriminate Fq.
    - destruct s; reflexivity.
    - exfalso. cbn in Rq. unfold F2R in Rq; cbn in Rq. apply Rmult_integral in Rq. destruct Rq as [Rq|Rq].
      + apply eq_IZR in Rq. destruct s; discriminate.
      + pose proof (bpow_gt_0 radix2 e). cbn in *. lra. }
  assert (Ev : fin (get_voc m r) = true /\ fR (get_voc m r) = 0%R).
  { unfold get_voc. rewrite E1, Hl. destruct (idiv_Big (fz 0) (c_c r) F0) as [F R]; [lra|unfold Rdiv; rewrite R0, Rmult_0_l, Rabs_R0; left; apply Big_pos|].
    split; [exact F|]. rewrite R. unfold Rdiv. now rewrite R0, Rmult_0_l, rnd_0. }
  destruct Ev as [Fv Rv].
  assert (El : limited_voc m v_max r = get_voc m r).
  { unfold limited_voc. cbv zeta. destruct (fle v_max (get_voc m r)) eqn:E; [|reflexivity]. apply fle_R in E; [lra|exact Fm|exact Fv]. }
  unfold track_oc, oc_process. rewrite Eg. cbn [bind map combine map_res fst snd]. rewrite El.
  assert (W : oc_row m grid ratio r (get_voc m r) = Err ValueError).
  { apply (oc m r t_max grid ratio (get_voc m r) He Hr Hv Hg H0). right.
    destruct (fmul_x ratio (get_voc m r) Frat Fv) as [_ ->]. rewrite Rv, Rmult_0_r, rnd_0, clampR_in; [lra|]. rewrite Rabs_R0. apply Top_pos. }
  rewrite W. reflexivity.
Qed.

(** ** The simple search for the open-circuit voltage *)

Lemma first_true_spec l : forall n, match first_true n l with
  | Some k => (n <= k < n + List.length l)%nat /\ nth (k - n) l false = true /\ forall j, (j < k - n)%nat -> nth j l false = false
  | None => forall j, nth j l false = false end.
Proof.
  induction l as [|b l IH]; intros n; cbn [first_true]; [intros [|j]; reflexivity|].
  destruct b.
  - cbn [List.length]. split; [lia|]. rewrite Nat.sub_diag. split; [reflexivity|]. intros; lia.
  - specialize (IH (S n)). destruct (first_true (S n) l) as [k|].
    + destruct IH as (H1 & H2 & H3). cbn [List.length]. split; [lia|]. replace (k - n)%nat with (S (k - S n)) by lia. split; [exact H2|].
      intros [|j] Hj; [reflexivity|]. apply H3. lia.
    + intros [|j]; [reflexivity|]. apply IH.
Qed.

Lemma find_oc_spec vs is ratio : is <> [] -> List.length vs = List.length is ->
  let low i := flt i (fmul (hd (fz 0) is) ratio) in
  (exists k, (k < List.length is)%nat /\ find_oc vs is ratio = Ok (nth k vs (fz 0)) /\ low (nth k is (fz 0)) = true
     /\ forall j, (j < k)%nat -> low (nth j is (fz 0)) = false)
  \/ (find_oc vs is ratio = Ok (hd (fz 0) vs) /\ forall j, (j < List.length is)%nat -> low (nth j is (fz 0)) = false).
Proof.
  intros Hi Hl low. destruct is as [|i0 is]; [congruence|]. cbn [hd] in low. clear Hi.
  unfold find_oc. rewrite (at_pos_nth _ 0 (fz 0)) by (cbn; lia). cbn [bind nth].
  change (map (fun i => flt i (fmul i0 ratio)) (i0 :: is)) with (map low (i0 :: is)).
  assert (Bm : forall j, (j < List.length (i0 :: is))%nat -> nth j (map low (i0 :: is)) false = low (nth j (i0 :: is) (fz 0))) by (intros j Hj; now apply map_nth_in).
  pose proof (first_true_spec (map low (i0 :: is)) 0) as F. unfold argmax_b. cbn [map]. change (low i0 :: map low is) with (map low (i0 :: is)).
  destruct (first_true 0 (map low (i0 :: is))) as [k|]; cbn [bind].
  - left. destruct F as (H1 & H2 & H3). rewrite map_length in H1. rewrite Nat.sub_0_r in *. exists k. split; [lia|].
    rewrite (at_pos_nth _ k (fz 0)) by lia. split; [reflexivity|]. rewrite Bm in H2 by lia. split; [exact H2|].
    intros j Hj. exact (eq_trans (eq_sym (Bm j ltac:(lia))) (H3 j Hj)).
  - right. rewrite (at_pos_nth _ 0 (fz 0)) by (rewrite Hl; cbn; lia). split; [now destruct vs|]. intros j Hj. exact (eq_trans (eq_sym (Bm j Hj)) (F j)).
Qed.
