(** Up-sampling of IVonne recordings. *)
From Coq Require Import ZArith QArith Qround Bool List Lia.
From Verif Require Import PyBase IvoModel IvoSpec.
Import ListNotations.
Open Scope Z_scope.

Lemma stamp_len {A} (l : list A) : forall t dt, List.length (stamp t dt l) = List.length l.
Proof. induction l; intros; cbn [stamp List.length]; [reflexivity|]. now rewrite IHl. Qed.
Lemma stamp_fst {A} (l : list A) : forall t dt, map snd (stamp t dt l) = l.
Proof. induction l; intros; cbn [stamp map snd]; [reflexivity|]. now rewrite IHl. Qed.
Lemma stamp_skip {A} (l : list A) : forall t dt n, skipn n (stamp t dt l) = stamp (t + Z.of_nat n * dt) dt (skipn n l).
Proof.
  induction l; intros t dt n; destruct n; cbn [stamp skipn]; try reflexivity.
  - replace (t + Z.of_nat 0 * dt) with t by lia. reflexivity.
  - rewrite IHl. f_equal. lia.
Qed.
Lemma stamp_take {A} (l : list A) : forall t dt n, firstn n (stamp t dt l) = stamp t dt (firstn n l).
Proof. induction l; intros t dt n; destruct n; cbn [stamp firstn]; try reflexivity. now rewrite IHl. Qed.
Lemma stamp_map {A B} (g : A -> B) (l : list A) : forall t dt,
  combine (map fst (stamp t dt l)) (map g l) = stamp t dt (map g l).
Proof. induction l; intros; cbn; [reflexivity|]. now rewrite IHl. Qed.
Lemma stamp_last {A} (l : list A) : forall t dt x z, last (map fst (stamp t dt (x :: l))) z = t + Z.of_nat (List.length l) * dt.
Proof.
  induction l; intros t dt x z.
  - cbn. lia.
  - change (map fst (stamp t dt (x :: a :: l))) with (t :: map fst (stamp (t + dt) dt (a :: l))).
    assert (E : map fst (stamp (t + dt) dt (a :: l)) <> []) by (cbn; discriminate).
    destruct (map fst (stamp (t + dt) dt (a :: l))) eqn:F; [contradiction|].
    change (last (t :: z0 :: l0) z) with (last (z0 :: l0) z). rewrite <- F, IHl. cbn [List.length]. lia.
Qed.

Lemma row_at_stamp {V} (vs : list V) dt : 0 < dt -> forall t z,
  row_at (t + z) (stamp t dt vs) = if (z mod dt =? 0) && (0 <=? z) then nth_error vs (Z.to_nat (z / dt)) else None.
Proof.
  intros Hd. induction vs as [|x vs IH]; intros t z.
  - cbn. now destruct ((z mod dt =? 0) && (0 <=? z)); [destruct (Z.to_nat (z / dt))|].
  - cbn [stamp row_at]. destruct (Z.eqb_spec t (t + z)) as [E|E].
    + assert (z = 0) by lia. subst z. rewrite Zmod_0_l, Zdiv_0_l. reflexivity.
    + replace (t + z) with (t + dt + (z - dt)) by lia. rewrite IH.
      replace ((z - dt) mod dt) with (z mod dt) by (rewrite <- (Z_mod_plus_full (z - dt) 1 dt); replace (z - dt + 1 * dt) with z by lia; reflexivity).
      replace ((z - dt) / dt) with (z / dt - 1) by (replace (z - dt) with (z + (-1) * dt) by lia; rewrite Z.div_add by lia; reflexivity).
      destruct (Z.eqb_spec (z mod dt) 0) as [M|M]; cbn [andb]; [|reflexivity].
      pose proof (Z.div_mod z dt ltac:(lia)) as D. rewrite M in D.
      destruct (Z.leb_spec 0 z).
      * assert (1 <= z / dt) by nia. destruct (Z.leb_spec 0 (z - dt)); [|nia].
        replace (Z.to_nat (z / dt)) with (S (Z.to_nat (z / dt - 1))) by lia. reflexivity.
      * destruct (Z.leb_spec 0 (z - dt)); [lia|reflexivity].
Qed.

Section Grid.
Context {V : Type} (d : Z) (u : nat) (Hd : 0 < d) (Hu : (1 <= u)%nat).
Let dt := Z.of_nat u * d.

Lemma on_grid (vs : list V) t j :
  row_at (t + Z.of_nat j * d) (stamp t dt vs) = if (j mod u =? 0)%nat then nth_error vs (j / u) else None.
Proof.
  rewrite row_at_stamp by (unfold dt; nia). unfold dt.
  rewrite Z.mul_mod_distr_r by lia. rewrite Z.div_mul_cancel_r by lia.
  rewrite <- Nat2Z.inj_mod, <- Nat2Z.inj_div, Nat2Z.id.
  destruct (Z.leb_spec 0 (Z.of_nat j * d)); [|nia]. rewrite andb_true_r.
  destruct (Nat.eqb_spec (j mod u) 0) as [E|E].
  - rewrite E. reflexivity.
  - destruct (Z.eqb_spec (Z.of_nat (j mod u) * d) 0); [nia|reflexivity].
Qed.

Lemma grid_stamp (x : V) vs t : grid_times (stamp t dt (x :: vs)) d
  = map (fun j => t + Z.of_nat j * d) (seq 0 (List.length vs * u + 1)).
Proof.
  unfold grid_times. cbn [stamp]. change ((t, x) :: stamp (t + dt) dt vs) with (stamp t dt (x :: vs)).
  rewrite stamp_last. unfold dt. replace (t + Z.of_nat (List.length vs) * (Z.of_nat u * d) - t) with (Z.of_nat (List.length vs) * Z.of_nat u * d) by lia.
  rewrite Z.div_mul by lia. do 2 f_equal. lia.
Qed.

Lemma block_none (vs : list V) t k : forall n, (1 <= k)%nat -> (k + n <= u)%nat ->
  flat_map (fun j => match row_at (t + Z.of_nat j * d) (stamp t dt vs) with Some x => [(t + Z.of_nat j * d, x)] | None => [] end) (seq k n) = [].
Proof.
  intros n; revert k; induction n; intros k Hk Hn; [reflexivity|]. cbn [seq flat_map].
  rewrite on_grid, Nat.mod_small by lia. destruct (Nat.eqb_spec k 0); [lia|]. apply IHn; lia.
Qed.

Lemma known_stamp (vs : list V) : forall x t,
  known (stamp t dt (x :: vs)) (map (fun j => t + Z.of_nat j * d) (seq 0 (List.length vs * u + 1))) = stamp t dt (x :: vs).
Proof.
  induction vs as [|y vs IH]; intros x t.
  - cbn [List.length Nat.mul Nat.add seq map]. unfold known. cbn [flat_map]. rewrite on_grid.
    rewrite Nat.mod_0_l, Nat.div_0_l by lia. cbn [Nat.eqb nth_error app stamp]. now replace (t + Z.of_nat 0 * d) with t by lia.
  - unfold known. replace (List.length (y :: vs) * u + 1)%nat with (1 + (u - 1) + (List.length vs * u + 1))%nat by (cbn [List.length]; lia).
    rewrite seq_app, map_app, flat_map_app. rewrite (flat_map_concat_map _ (map _ _)), map_map, <- flat_map_concat_map.
    rewrite seq_app, flat_map_app. cbn [seq flat_map Nat.add]. rewrite block_none by lia.
    rewrite on_grid, Nat.mod_0_l, Nat.div_0_l by lia. cbn [Nat.eqb nth_error app].
    replace (t + Z.of_nat 0 * d) with t by lia. cbn [stamp]. f_equal.
    change ((t + dt, y) :: stamp (t + dt + dt) dt vs) with (stamp (t + dt) dt (y :: vs)).
    etransitivity; [|apply (IH y (t + dt))]. unfold known.
    replace (S (u - 1)) with (u + 0)%nat by lia.
    replace (seq (u + 0) (List.length vs * u + 1)) with (map (fun j => (u + j)%nat) (seq 0 (List.length vs * u + 1))).
    2:{ clear. generalize 0%nat (List.length vs * u + 1)%nat. intros a n; revert a. induction n; intros; cbn; [reflexivity|]. rewrite IHn. do 2 f_equal. lia. }
    rewrite !flat_map_concat_map, !map_map. f_equal. apply map_ext. intros j.
    replace (t + Z.of_nat (u + j) * d) with (t + dt + Z.of_nat j * d) by (unfold dt; lia).
    cbn [row_at stamp]. destruct (Z.eqb_spec t (t + dt + Z.of_nat j * d)); [unfold dt in *; nia|reflexivity].
Qed.

(** Resampling in terms of the number of rows. *)
Lemma resample_stamp spline (x : V) vs t :
  resample spline (stamp t dt (x :: vs)) d
  = let n := List.length vs in
    if ((n =? 0) || (u =? 1))%nat || (3 <=? n)%nat
    then Ok (map (fun j => (t + Z.of_nat j * d,
                            match (if (j mod u =? 0)%nat then nth_error (x :: vs) (j / u) else None) with
                            | Some y => y | None => spline (stamp t dt (x :: vs)) (t + Z.of_nat j * d) end)) (seq 0 (n * u + 1)))
    else Err ValueError.
Proof.
  unfold resample. rewrite grid_stamp, known_stamp. cbv zeta. rewrite stamp_len, map_length, seq_length. cbn [List.length].
  assert (E : forall l, map (fun t0 => (t0, match row_at t0 (stamp t dt (x :: vs)) with Some y => y | None => spline (stamp t dt (x :: vs)) t0 end))
            (map (fun j => t + Z.of_nat j * d) l)
          = map (fun j => (t + Z.of_nat j * d,
                            match (if (j mod u =? 0)%nat then nth_error (x :: vs) (j / u) else None) with
                            | Some y => y | None => spline (stamp t dt (x :: vs)) (t + Z.of_nat j * d) end)) l).
  { intros l. rewrite map_map. apply map_ext. intros j. now rewrite on_grid. }
  destruct (Nat.eqb_spec (S (List.length vs)) (List.length vs * u + 1)) as [E1|E1].
  - assert (C : ((List.length vs =? 0) || (u =? 1))%nat = true).
    { destruct (Nat.eqb_spec (List.length vs) 0); [reflexivity|]. destruct (Nat.eqb_spec u 1); [reflexivity|]. nia. }
    rewrite C. cbn [orb]. f_equal. rewrite <- E. rewrite <- known_stamp at 1. unfold known.
    rewrite flat_map_concat_map, !map_map. rewrite map_ext_in with (g := fun j => [(t + Z.of_nat j * d,
        match row_at (t + Z.of_nat j * d) (stamp t dt (x :: vs)) with Some y => y | None => spline (stamp t dt (x :: vs)) (t + Z.of_nat j * d) end)]).
    + induction (seq 0 (List.length vs * u + 1)) as [|j l IHl]; cbn [map concat app]; [reflexivity|]. f_equal. exact IHl.
    + intros j Hj. apply in_seq in Hj. rewrite on_grid.
      assert (J : (j mod u = 0)%nat /\ (j / u < S (List.length vs))%nat).
      { apply orb_true_iff in C. destruct C as [C|C]; apply Nat.eqb_eq in C.
        - rewrite C in Hj |- *. assert (j = 0%nat) by lia. subst j. rewrite Nat.mod_0_l, Nat.div_0_l by lia. lia.
        - rewrite C in Hj |- *. rewrite Nat.mod_1_r, Nat.div_1_r. lia. }
      destruct J as [-> J]. cbn [Nat.eqb]. destruct (nth_error (x :: vs) (j / u)) eqn:F; [reflexivity|].
      apply nth_error_None in F. cbn [List.length] in F. lia.
  - assert (C : ((List.length vs =? 0) || (u =? 1))%nat = false).
    { destruct (Nat.eqb_spec (List.length vs) 0) as [C|]; [rewrite C in E1; lia|]. destruct (Nat.eqb_spec u 1) as [C|]; [subst u; nia|reflexivity]. }
    rewrite C. cbn [orb]. destruct (Nat.leb_spec 4 (S (List.length vs))), (Nat.leb_spec 3 (List.length vs)); try lia; [|reflexivity].
    f_equal. apply E.
Qed.
End Grid.

Lemma nth_error_map_seq {B} (h : nat -> B) n : forall j, (j < n)%nat -> nth_error (map h (seq 0 n)) j = Some (h j).
Proof.
  intros j Hj. rewrite nth_error_map, (nth_error_nth' _ 0%nat) by (now rewrite seq_length). rewrite seq_nth by exact Hj. reflexivity.
Qed.
Lemma nth_error_skip {B} (l : list B) : forall a k, nth_error (skipn a l) k = nth_error l (a + k).
Proof. induction l; intros a0 k; destruct a0; cbn; try reflexivity; [now destruct k|apply IHl]. Qed.
Lemma nth_error_take {B} (l : list B) : forall a k, (k < a)%nat -> nth_error (firstn a l) k = nth_error l k.
Proof. induction l; intros a0 k H; destruct a0, k; cbn; try reflexivity; try lia. apply IHl. lia. Qed.

Lemma skip_skip {B} (l : list B) : forall a b, skipn b (skipn a l) = skipn (a + b) l.
Proof. induction l; intros a0 b; destruct a0; cbn; try reflexivity; [now destruct b|apply IHl]. Qed.

Lemma steady_app {V} t d u w r (vs : list V) out1 out2 : (1 <= u)%nat ->
  steady t d u (w * u) vs out1 -> steady (t + Z.of_nat (w * u) * d) d u (r * u) (skipn w vs) out2 ->
  steady t d u ((w + r) * u) vs (out1 ++ out2).
Proof.
  intros Hu (L1 & T1 & V1) (L2 & T2 & V2). repeat split.
  - rewrite app_length. lia.
  - intros j Hj. destruct (Nat.lt_ge_cases j (w * u)).
    + rewrite nth_error_app1 by lia. apply T1. lia.
    + rewrite nth_error_app2 by lia. rewrite L1, T2 by lia. f_equal.
      replace (Z.of_nat j) with (Z.of_nat (w * u) + Z.of_nat (j - w * u)) by lia. ring.
  - intros k Hk. destruct (Nat.lt_ge_cases k w).
    + rewrite nth_error_app1 by nia. apply V1. nia.
    + rewrite nth_error_app2 by nia. rewrite L1. replace (k * u - w * u)%nat with ((k - w) * u)%nat by nia.
      rewrite V2 by nia. rewrite nth_error_skip. f_equal. lia.
Qed.

Section Slices.
Context {A V : Type} (f : list A -> res (list V)) (g : A -> V) (spline : list (Z * V) -> Z -> V) (d : Z) (u : nat) (t0 : Z) (xs : list A).
Hypothesis Hd : 0 < d.
Hypothesis Hu : (1 <= u)%nat.
Hypothesis Hf : forall l, incl l xs -> f l = Ok (map g l).
Let dt := Z.of_nat u * d.
Variable used M : nat.
Hypothesis HM : (1 <= M)%nat.
Hypothesis Hn : (used <= List.length xs)%nat.
(** Number of intervals between rows that are covered. *)
Let cov := Nat.min used (List.length xs - 1).

Definition fits (w : nat) : bool := ((w =? 0) || (u =? 1) || (3 <=? w))%nat.

Lemma slice i : (i < used)%nat ->
  let w := Nat.min M (cov - i) in
  if fits w
  then exists out, one_slice f spline d (stamp t0 dt xs) used M i = Ok out
         /\ steady (t0 + Z.of_nat i * dt) d u (w * u) (map g (skipn i xs)) out
  else one_slice f spline d (stamp t0 dt xs) used M i = Err ValueError.
Proof.
  intros Hi w. unfold one_slice. cbv zeta.
  assert (Lw : (Nat.min (i + M) used + 1 - i = w + 1 \/ w + 1 = List.length xs - i /\ w + 1 <= Nat.min (i + M) used + 1 - i)%nat).
  { subst w cov. lia. }
  rewrite stamp_skip, stamp_take, stamp_fst.
  assert (F : firstn (Nat.min (i + M) used + 1 - i) (skipn i xs) = firstn (w + 1) (skipn i xs)).
  { destruct Lw as [->|[E L]]; [reflexivity|]. rewrite !firstn_all2; [reflexivity| |]; rewrite skipn_length; lia. }
  rewrite F. clear F.
  rewrite Hf. 2:{ intros x Hx. rewrite <- (firstn_skipn i xs). apply in_or_app. right.
                 rewrite <- (firstn_skipn (w + 1) (skipn i xs)). apply in_or_app. now left. }
  cbn [bind]. rewrite stamp_map.
  assert (Ll : List.length (firstn (w + 1) (skipn i xs)) = (w + 1)%nat).
  { rewrite firstn_length, skipn_length. subst w cov. lia. }
  destruct (firstn (w + 1) (skipn i xs)) as [|x l] eqn:Fx; [cbn in Ll; lia|]. cbn [map].
  unfold dt. rewrite resample_stamp by (exact Hd || exact Hu). cbv zeta. rewrite map_length. cbn [List.length] in Ll.
  assert (Lx : List.length l = w) by lia. rewrite Lx. change (((w =? 0) || (u =? 1))%nat || (3 <=? w)%nat) with (fits w).
  destruct (fits w); [|reflexivity]. cbn [bind].
  eexists. split; [reflexivity|].
  rewrite Nat.add_1_r, seq_S, map_app, removelast_app by discriminate. cbn [map removelast]. rewrite app_nil_r.
  assert (N : forall k, (k < w)%nat -> nth_error (g x :: map g l) k = nth_error (map g (skipn i xs)) k).
  { intros k Hk. change (g x :: map g l) with (map g (x :: l)). rewrite <- Fx, <- firstn_map, nth_error_take by lia. reflexivity. }
  repeat split.
  - now rewrite map_length, seq_length.
  - intros j Hj. rewrite nth_error_map_seq by exact Hj. reflexivity.
  - intros k Hk. rewrite nth_error_map_seq by exact Hk. cbn [option_map snd].
    rewrite Nat.mod_mul, Nat.div_mul by lia. cbn [Nat.eqb]. assert (k < w)%nat by nia.
    rewrite (N k) by assumption. destruct (nth_error (map g (skipn i xs)) k) eqn:E; [reflexivity|].
    apply nth_error_None in E. rewrite map_length, skipn_length in E. subst w cov. lia.
Qed.

Lemma slices_ok cnt : forall a, (a + cnt = (used + M - 1) / M)%nat ->
  (forall b, (b * M < used)%nat -> fits (Nat.min M (cov - b * M)) = true) ->
  exists out, all_slices f spline d (stamp t0 dt xs) used M (map (fun j => (j * M)%nat) (seq a cnt)) = Ok out
    /\ steady (t0 + Z.of_nat (a * M) * dt) d u ((cov - a * M) * u) (map g (skipn (a * M) xs)) out.
Proof.
  induction cnt; intros a Ha Hfit.
  - exists []. split; [reflexivity|].
    assert (used <= a * M)%nat.
    { pose proof (Nat.div_mod (used + M - 1) M ltac:(lia)). pose proof (Nat.mod_upper_bound (used + M - 1) M ltac:(lia)). nia. }
    replace (cov - a * M)%nat with 0%nat by (subst cov; lia). repeat split; intros; lia.
  - cbn [seq map all_slices].
    assert (Ai : (a * M < used)%nat).
    { pose proof (Nat.div_mod (used + M - 1) M ltac:(lia)). nia. }
    pose proof (slice (a * M) Ai) as S. cbv zeta in S. rewrite (Hfit a Ai) in S. destruct S as (o1 & E1 & S1).
    destruct (IHcnt (S a) ltac:(lia) Hfit) as (o2 & E2 & S2). rewrite E1, E2. cbn [bind].
    eexists. split; [reflexivity|].
    destruct (Nat.le_gt_cases M (cov - a * M)).
    + rewrite Nat.min_l in S1 by lia. replace (cov - a * M)%nat with (M + (cov - S a * M))%nat by lia.
      apply steady_app; [exact Hu|exact S1|].
      replace (t0 + Z.of_nat (a * M) * dt + Z.of_nat (M * u) * d) with (t0 + Z.of_nat (S a * M) * dt) by (unfold dt; lia).
      rewrite skipn_map, skip_skip. replace (a * M + M)%nat with (S a * M)%nat by lia. exact S2.
    + rewrite Nat.min_r in S1 by lia. assert (Z0 : (cov - S a * M = 0)%nat) by lia. rewrite Z0 in S2.
      destruct S2 as (L2 & _). destruct o2; [|discriminate L2]. rewrite app_nil_r. exact S1.
Qed.

Lemma slices_err cnt : forall a, (a + cnt = (used + M - 1) / M)%nat ->
  (exists b, (a <= b)%nat /\ (b * M < used)%nat /\ fits (Nat.min M (cov - b * M)) = false) ->
  all_slices f spline d (stamp t0 dt xs) used M (map (fun j => (j * M)%nat) (seq a cnt)) = Err ValueError.
Proof.
  induction cnt; intros a Ha (b & Hb & Hbu & Hfit).
  - exfalso.
    pose proof (Nat.div_mod (used + M - 1) M ltac:(lia)). pose proof (Nat.mod_upper_bound (used + M - 1) M ltac:(lia)). nia.
  - cbn [seq map all_slices].
    assert (Ai : (a * M < used)%nat) by nia.
    pose proof (slice (a * M) Ai) as S. cbv zeta in S.
    destruct (fits (Nat.min M (cov - a * M))) eqn:Fa.
    + destruct S as (o1 & E1 & _). rewrite E1. cbn [bind]. rewrite (IHcnt (S a) ltac:(lia)); [reflexivity|].
      exists b. assert (b <> a) by (intros ->; congruence). repeat split; [lia|assumption|assumption].
    + rewrite S. reflexivity.
Qed.

(** When [M] is at least 3, a slice is too short exactly when one or two intervals remain for the last one. *)
Lemma fits_all : (3 <= M)%nat -> (u = 1 \/ (cov mod M <> 1 /\ cov mod M <> 2))%nat ->
  forall b, (b * M < used)%nat -> fits (Nat.min M (cov - b * M)) = true.
Proof.
  intros H3 [E|[H1 H2]] b Hb; unfold fits; [rewrite E; cbn [Nat.eqb]; now destruct (_ =? 0)%nat|].
  destruct (Nat.leb_spec 3 (Nat.min M (cov - b * M))); [now rewrite orb_true_r|].
  destruct (Nat.eqb_spec (Nat.min M (cov - b * M)) 0); [reflexivity|]. exfalso.
  assert (R : (cov - b * M < M)%nat) by lia. assert (L : (b * M <= cov)%nat) by lia.
  assert (E : (cov mod M = cov - b * M)%nat).
  { symmetry. apply (Nat.mod_unique cov M b); lia. }
  lia.
Qed.
Lemma fits_not : (3 <= M)%nat -> (1 < u)%nat -> (cov mod M = 1 \/ cov mod M = 2)%nat ->
  exists b, (0 <= b)%nat /\ (b * M < used)%nat /\ fits (Nat.min M (cov - b * M)) = false.
Proof.
  intros H3 Hu1 H. exists (cov / M)%nat. pose proof (Nat.div_mod cov M ltac:(lia)) as D.
  assert (E : (cov - cov / M * M = cov mod M)%nat) by lia. split; [lia|]. split.
  - assert (cov <= used)%nat by (subst cov; lia). lia.
  - rewrite E, Nat.min_r by lia. unfold fits. destruct (Nat.eqb_spec u 1); [lia|]. destruct H as [->| ->]; reflexivity.
Qed.
End Slices.

(** ** The converters *)

Lemma interval_bounds rate : 1 <= rate <= 100000 -> 10000 <= ivo_interval rate <= 10 ^ 9.
Proof.
  intros H. unfold ivo_interval. split; [apply Z.div_le_lower_bound|apply Z.div_le_upper_bound]; nia.
Qed.
Lemma slice_rows_ok rate : 1 <= rate <= 100000 -> exists M, slice_rows rate = Ok M /\ 40 <= M <= 4000000.
Proof.
  intros H. pose proof (interval_bounds rate H) as B. unfold slice_rows. cbv zeta.
  change shp_interval with 10000. change shp_max_elements with 4000000.
  assert (U : 1 <= ivo_interval rate / 10000 <= 100000).
  { split; [apply Z.div_le_lower_bound|apply Z.div_le_upper_bound]; lia. }
  destruct (Z.eqb_spec (ivo_interval rate / 10000) 0); [lia|]. cbn [negb].
  eexists. split; [reflexivity|]. split; [apply Z.div_le_lower_bound|apply Z.div_le_upper_bound]; nia.
Qed.
Lemma slice_rows_fast rate : 100000 < rate -> slice_rows rate = Err ZeroDivisionError.
Proof.
  intros H. unfold slice_rows. cbv zeta. change shp_interval with 10000.
  rewrite Z.div_small; [reflexivity|]. unfold ivo_interval. split; [apply Z.div_pos; lia|].
  apply Z.div_lt_upper_bound; lia.
Qed.

Lemma used_le rate n s : used_rows rate n s <= Z.of_nat n.
Proof. unfold used_rows. destruct s; [|lia]. destruct (negb _); lia. Qed.

(** Rows between which the output lies. *)
Definition covered (rate : Z) (n : nat) (s : option Q) : nat := Nat.min (Z.to_nat (used_rows rate n s)) (n - 1).

Lemma convert_stamp {A V} (f : list A -> res (list V)) (g : A -> V) spline d u t0 xs rate s M :
  0 < d -> (1 <= u)%nat -> (forall l, incl l xs -> f l = Ok (map g l)) -> 1 <= rate <= 100000 ->
  slice_rows rate = Ok M ->
  let c := covered rate (List.length xs) s in
  let rest := Z.of_nat c mod M in
  ((u = 1%nat \/ (rest <> 1 /\ rest <> 2)) ->
     exists out, convert f spline d rate s (stamp t0 (Z.of_nat u * d) xs) = Ok out
       /\ steady t0 d u (c * u) (map g xs) out)
  /\ ((1 < u)%nat -> (rest = 1 \/ rest = 2) -> convert f spline d rate s (stamp t0 (Z.of_nat u * d) xs) = Err ValueError).
Proof.
  intros Hd Hu Hf Hr HM c rest. destruct (slice_rows_ok rate Hr) as (M' & E & B). rewrite HM in E. injection E as <-.
  assert (Hn : (Z.to_nat (used_rows rate (List.length xs) s) <= List.length xs)%nat) by (pose proof (used_le rate (List.length xs) s); lia).
  assert (C : convert f spline d rate s (stamp t0 (Z.of_nat u * d) xs)
     = all_slices f spline d (stamp t0 (Z.of_nat u * d) xs) (Z.to_nat (used_rows rate (List.length xs) s)) (Z.to_nat M)
         (map (fun j => (j * Z.to_nat M)%nat) (seq 0 ((Z.to_nat (used_rows rate (List.length xs) s) + Z.to_nat M - 1) / Z.to_nat M)))).
  { unfold convert. rewrite stamp_len, HM. cbv zeta. cbn [bind]. destruct (Z.eqb_spec M 0); [lia|]. reflexivity. }
  rewrite C. clear C.
  assert (R : rest = Z.of_nat (c mod Z.to_nat M)) by (unfold rest; rewrite Nat2Z.inj_mod, Z2Nat.id; lia).
  split.
  - intros H.
    destruct (slices_ok f g spline d u t0 xs Hd Hu Hf (Z.to_nat (used_rows rate (List.length xs) s)) (Z.to_nat M) ltac:(lia) Hn
       ((Z.to_nat (used_rows rate (List.length xs) s) + Z.to_nat M - 1) / Z.to_nat M) 0 ltac:(lia)) as (out & E & S).
    { eapply fits_all; try eassumption; try lia. destruct H as [->|H]; [now left|right]. fold (covered rate (List.length xs) s). fold c. lia. }
    exists out. split; [exact E|]. cbn [Nat.mul skipn] in S. rewrite Nat.sub_0_r in S.
    replace (t0 + Z.of_nat 0 * (Z.of_nat u * d)) with t0 in S by lia. exact S.
  - intros Hu1 H. apply (slices_err f g spline d u t0 xs Hd Hu Hf); [lia|assumption|lia|].
    eapply fits_not; try eassumption; try lia. fold (covered rate (List.length xs) s). fold c. lia.
Qed.
