(** The three converters for whole recordings. *)
From Coq Require Import ZArith QArith Qround Qabs Bool Reals Lia Lra Lqa List.
From Flocq Require Import Core IEEE754.BinarySingleNaN.
From Verif Require Import PyBase F64 F64x IvoModel IvoSpec IvoUpProofs IvoProofs IvoGridProofs.
From Verif Require FileSiProofs.
Import ListNotations.
Open Scope Z_scope.

Lemma runtime_near rate n : 1 <= rate -> (Qabs (ivo_runtime rate n - inject_Z (Z.of_nat n) / inject_Z rate) <= 1 # 2000)%Q.
Proof.
  intros H. unfold ivo_runtime. set (x := (inject_Z (Z.of_nat n) / inject_Z rate)%Q).
  pose proof (FileSiProofs.qround_half (x * inject_Z 1000)) as Q. set (k := UartModel.qround (x * inject_Z 1000)) in *. clearbody k.
  apply Qabs_Qle_condition in Q. apply Qabs_Qle_condition.
  change (inject_Z 1000) with (1000 # 1) in *. assert (E : (inject_Z k / (1000 # 1) == inject_Z k * (1 # 1000))%Q) by (field; discriminate).
  rewrite E. split; lra.
Qed.

Lemma covers_covered rate n s c : 1 <= rate -> covers rate n s c -> covered rate n s = c.
Proof.
  intros Hr. unfold covers, covered, used_rows. destruct s as [s|].
  - intros (P & H). pose proof (runtime_near rate n Hr) as R. apply Qabs_Qle_condition in R.
    set (all := (inject_Z (Z.of_nat n) / inject_Z rate)%Q) in *. set (rt := ivo_runtime rate n) in *.
    destruct H as [[L ->]|[L ->]].
    + destruct (Qle_bool rt s) eqn:E; [apply Qle_bool_iff in E; exfalso; lra|]. cbn [negb].
      assert (Pq : (0 <= s * inject_Z rate)%Q).
      { apply Qmult_le_0_compat; [exact P|]. change 0%Q with (inject_Z 0). rewrite <- Zle_Qle. lia. }
      unfold qint. apply Qle_bool_iff in Pq. rewrite Pq. lia.
    + destruct (Qle_bool rt s) eqn:E; [cbn [negb]; lia|]. exfalso.
      assert (~ (rt <= s)%Q) by (intros B; apply Qle_bool_iff in B; congruence). lra.
  - intros ->. lia.
Qed.

(** Every converter, in terms of what it does with one row. *)
Lemma convert_covers {A V} (f : list A -> res (list V)) (g : A -> V) spline d u t0 xs rate s c M :
  0 < d -> (1 <= u)%nat -> (forall l, incl l xs -> f l = Ok (map g l)) -> 1 <= rate <= 100000 ->
  covers rate (List.length xs) s c -> slice_rows rate = Ok M ->
  let rest := Z.of_nat c mod M in
  ((u = 1%nat \/ (rest <> 1 /\ rest <> 2)) ->
     exists out, convert f spline d rate s (stamp t0 (Z.of_nat u * d) xs) = Ok out
       /\ steady t0 d u (c * u) (map g xs) out)
  /\ ((1 < u)%nat -> (rest = 1 \/ rest = 2) -> convert f spline d rate s (stamp t0 (Z.of_nat u * d) xs) = Err ValueError).
Proof.
  intros Hd Hu Hf Hr Hc HM. rewrite <- (covers_covered rate (List.length xs) s c) by (lia || assumption).
  now apply convert_stamp.
Qed.

Lemma steady_map {V W} (h : V -> W) t d u n vs out : (forall k, (k * u < n)%nat -> (k < List.length vs)%nat) -> steady t d u n vs out ->
  steady t d u n (map h vs) (map (fun tc => (fst tc, h (snd tc))) out).
Proof.
  intros B (L & T & K). repeat split.
  - now rewrite map_length.
  - intros j Hj. specialize (T j Hj). rewrite nth_error_map. destruct (nth_error out j); [exact T|discriminate T].
  - intros k Hk. specialize (K k Hk). rewrite !nth_error_map. destruct (nth_error out (k * u)) as [[a b]|] eqn:E; cbn in *.
    + rewrite <- K. reflexivity.
    + rewrite <- K. reflexivity.
Qed.

Lemma covers_le rate n s c : covers rate n s c -> (c <= n - 1)%nat.
Proof. unfold covers. destruct s; [intros (_ & [[_ ->]|[_ ->]]); lia|lia]. Qed.

(** Curves. *)
Lemma curves m spline rate v_max pts s u t0 xs c grid M :
  1 <= rate <= 100000 -> 1 <= pts -> (1 <= u)%nat -> linspace v_max pts = Ok grid ->
  covers rate (List.length xs) s c -> slice_rows rate = Ok M ->
  let d := shp_interval * pts in
  let rest := Z.of_nat c mod M in
  ((u = 1%nat \/ (rest <> 1 /\ rest <> 2)) ->
     exists out, convert_2_ivcurves m spline rate v_max pts s (stamp t0 (Z.of_nat u * d) xs) = Ok out
       /\ steady t0 d u (c * u) (map (fun r => map (fun v => (v, iv_model m r v)) grid) xs) out)
  /\ ((1 < u)%nat -> (rest = 1 \/ rest = 2) ->
        convert_2_ivcurves m spline rate v_max pts s (stamp t0 (Z.of_nat u * d) xs) = Err ValueError).
Proof.
  intros Hr Hp Hu Hg Hc HM d rest.
  destruct (convert_covers (fun l => Ok l) (fun x => x) spline d u t0 xs rate s c M) as [H1 H2]; try assumption.
  { unfold d. change shp_interval with 10000. lia. }
  { intros l _. now rewrite map_id. }
  fold rest in H1, H2. unfold convert_2_ivcurves. rewrite Hg. cbn [bind]. fold d. split.
  - intros H. destruct (H1 H) as (out & E & S). rewrite E. cbn [bind]. eexists. split; [reflexivity|]. rewrite map_id in S.
    apply (steady_map (fun r => map (fun v => (v, iv_model m r v)) grid)); [|exact S].
    intros k Hk. pose proof (covers_le _ _ _ _ Hc). nia.
  - intros Hu1 H. rewrite (H2 Hu1 H). reflexivity.
Qed.

(** Rows that a row-wise function accepts. *)
Lemma map_res_all {A B} (f : A -> res B) (dflt : B) (l : list A) : Forall (fun x => exists y, f x = Ok y) l ->
  map_res f l = Ok (map (fun x => match f x with Ok y => y | Err _ => dflt end) l).
Proof.
  induction 1 as [|x l [y E] _ IH]; [reflexivity|]. cbn [map_res map]. rewrite E, IH. reflexivity.
Qed.

(** Operating points of the optimal tracker. *)
Definition opt_point (m : npmath) (grid : list f64) (r : coef) : f64 * f64 :=
  match optimal_row m grid r with Ok y => y | Err _ => (fz 0, fz 0) end.

Lemma opt_point_best m grid top r : exp_ok m -> solar r -> voltages top grid -> grid <> [] ->
  optimal_row m grid r = Ok (opt_point m grid r) /\ best_point m grid r (opt_point m grid r).
Proof.
  intros He Hr Hv Hg. destruct (optimal m r top grid He Hr Hv Hg) as (k & Hk & E & B). unfold opt_point. rewrite E. split; [reflexivity|].
  split; [now apply nth_In|]. split; [reflexivity|exact B].
Qed.

Lemma optimal_all m v_max pts rows : exp_ok m -> Forall solar rows -> fin v_max = true -> (bpow radix2 (-900) <= fR v_max)%R ->
  2 <= pts <= 2 ^ 50 ->
  exists grid, linspace v_max pts = Ok grid /\ optimal_process m v_max pts rows = Ok (map (opt_point m grid) rows)
    /\ Forall (fun r => best_point m grid r (opt_point m grid r)) rows.
Proof.
  intros He Hr Fv Pv Hp. destruct (lin_ok v_max pts Fv Pv Hp) as (grid & Eg & Lg & Vg & _). exists grid. split; [exact Eg|].
  assert (Ng : grid <> []) by (intros ->; cbn in Lg; lia). split.
  - unfold optimal_process. rewrite Eg. cbn [bind]. rewrite (map_res_all _ (fz 0, fz 0)); [reflexivity|].
    eapply Forall_impl; [|exact Hr]. intros r S. eexists. apply (opt_point_best m grid v_max r He S Vg Ng).
  - eapply Forall_impl; [|exact Hr]. intros r S. apply (opt_point_best m grid v_max r He S Vg Ng).
Qed.

Lemma samples m spline rate v_max pts s u t0 xs c M : exp_ok m -> Forall solar xs -> fin v_max = true -> (bpow radix2 (-900) <= fR v_max)%R ->
  2 <= pts <= 2 ^ 50 -> 1 <= rate <= 100000 -> (1 <= u)%nat -> covers rate (List.length xs) s c -> slice_rows rate = Ok M ->
  let rest := Z.of_nat c mod M in
  exists grid, linspace v_max pts = Ok grid
  /\ ((u = 1%nat \/ (rest <> 1 /\ rest <> 2)) ->
     exists out pts_, convert_2_ivsamples (track_optimal m v_max pts) spline rate s (stamp t0 (Z.of_nat u * shp_interval) xs) = Ok out
       /\ Forall2 (best_point m grid) xs pts_
       /\ steady t0 shp_interval u (c * u) pts_ out)
  /\ ((1 < u)%nat -> (rest = 1 \/ rest = 2) ->
        convert_2_ivsamples (track_optimal m v_max pts) spline rate s (stamp t0 (Z.of_nat u * shp_interval) xs) = Err ValueError).
Proof.
  intros He Hx Fv Pv Hp Hr Hu Hc HM rest.
  destruct (optimal_all m v_max pts xs He Hx Fv Pv Hp) as (grid & Eg & _ & Bp). exists grid. split; [exact Eg|].
  destruct (convert_covers (track_optimal m v_max pts) (opt_point m grid) spline shp_interval u t0 xs rate s c M) as [H1 H2]; try assumption.
  { reflexivity. }
  { intros l Hl. unfold track_optimal.
    assert (Sl : Forall solar l) by (rewrite Forall_forall in *; intros r Hrl; apply Hx, Hl, Hrl).
    destruct (optimal_all m v_max pts l He Sl Fv Pv Hp) as (grid' & Eg' & E & _). rewrite Eg in Eg'. injection Eg' as <-. exact E. }
  split; [|exact H2]. intros H. destruct (H1 H) as (out & E & S). exists out, (map (opt_point m grid) xs).
  split; [exact E|]. split; [|exact S]. clear - Bp. induction Bp; cbn; constructor; assumption.
Qed.

Lemma isc_voc m spline rate v_max s u t0 xs c M : 1 <= rate <= 100000 -> (1 <= u)%nat ->
  covers rate (List.length xs) s c -> slice_rows rate = Ok M ->
  let rest := Z.of_nat c mod M in
  ((u = 1%nat \/ (rest <> 1 /\ rest <> 2)) ->
     exists out, upsample_2_isc_voc m spline rate v_max s (stamp t0 (Z.of_nat u * shp_interval) xs) = Ok out
       /\ steady t0 shp_interval u (c * u) (map (fun r => (limited_voc m v_max r, c_a r)) xs) out)
  /\ ((1 < u)%nat -> (rest = 1 \/ rest = 2) ->
        upsample_2_isc_voc m spline rate v_max s (stamp t0 (Z.of_nat u * shp_interval) xs) = Err ValueError).
Proof. intros Hr Hu Hc HM. apply convert_covers; try assumption; [reflexivity|]. intros l _. reflexivity. Qed.

(** The open-circuit tracker for all rows. *)
Lemma oc_all m v_max t_max pts ratio rows : exp_ok m -> Forall solar rows -> fin t_max = true -> (bpow radix2 (-900) <= fR t_max)%R ->
  2 <= pts <= 2 ^ 50 ->
  let w r := fmul ratio (limited_voc m v_max r) in
  exists grid, linspace t_max pts = Ok grid
    /\ (Forall (fun r => isnan (w r) = false /\ (0 < xR (w r))%R) rows ->
          exists out, track_oc m v_max t_max pts ratio rows = Ok out /\ Forall2 (fun r vi => highest_below m grid (w r) r vi) rows out)
    /\ (Exists (fun r => isnan (w r) = true \/ (xR (w r) <= 0)%R) rows -> track_oc m v_max t_max pts ratio rows = Err ValueError).
Proof.
  intros He Hr Fv Pv Hp w. destruct (lin_ok t_max pts Fv Pv Hp) as (grid & Eg & Lg & Vg & H0 & _). exists grid. split; [exact Eg|].
  assert (Ng : grid <> []) by (intros ->; cbn in Lg; lia).
  assert (O : forall r, solar r -> (isnan (w r) = false /\ (0 < xR (w r))%R -> exists vi, oc_row m grid ratio r (limited_voc m v_max r) = Ok vi /\ highest_below m grid (w r) r vi)
     /\ (isnan (w r) = true \/ (xR (w r) <= 0)%R -> oc_row m grid ratio r (limited_voc m v_max r) = Err ValueError)).
  { intros r S. destruct (oc m r t_max grid ratio (limited_voc m v_max r) He S Vg Ng H0) as [A B]. split; [|exact B].
    intros Hw. destruct (A Hw) as (v & I & E & L & H). exists (v, iv_model m r v). split; [exact E|]. now repeat split. }
  unfold track_oc, oc_process. rewrite Eg. cbn [bind]. split.
  - intros Hw. induction rows as [|r rows IH]; [exists []; split; [reflexivity|constructor]|].
    inversion Hr as [|? ? Sr Sl]; inversion Hw as [|? ? Wr Wl]; subst. destruct (O r Sr) as [A _]. destruct (A Wr) as (vi & E & HB).
    destruct (IH Sl Wl) as (out & Eo & Fo). exists (vi :: out). cbn [map combine map_res fst snd]. rewrite E. cbn [bind]. rewrite Eo. cbn [bind].
    split; [reflexivity|]. now constructor.
  - intros Hw. induction Hw as [r rows Wr|r rows Hw IH]; inversion Hr as [|? ? Sr Sl]; subst; cbn [map combine map_res fst snd].
    + destruct (O r Sr) as [_ B]. now rewrite (B Wr).
    + specialize (IH Sl). destruct (O r Sr) as [A B].
      destruct (isnan (w r)) eqn:Nw; [now rewrite (B (or_introl eq_refl))|].
      destruct (Rle_lt_dec (xR (w r)) 0) as [L|L]; [now rewrite (B (or_intror L))|].
      destruct (A (conj eq_refl L)) as (vi & E & _). rewrite E. cbn [bind]. rewrite IH. reflexivity.
Qed.

(** Slices per second of recording. *)
Lemma slice_rows_val rate : 1 <= rate <= 100000 -> slice_rows rate = Ok (4000000 / (10 ^ 9 / rate / 10000)).
Proof.
  intros H. pose proof (interval_bounds rate H) as B. unfold slice_rows, ivo_interval in *. cbv zeta.
  change shp_interval with 10000. change shp_max_elements with 4000000.
  assert (U : 1 <= 10 ^ 9 / rate / 10000) by (apply Z.div_le_lower_bound; lia).
  destruct (Z.eqb_spec (10 ^ 9 / rate / 10000) 0); [lia|reflexivity].
Qed.
