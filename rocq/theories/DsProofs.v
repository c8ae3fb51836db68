(** Proofs about [downsample]. *)
From Coq Require Import QArith Qabs Qround String Lqa.
From Verif Require Import PyBase UartModel FileModel FileReadProofs FileSiProofs DsModel DsSpec.
Open Scope Z_scope.

(* ------------------------------------------------------------------ lists *)

Lemma nth_error_every_from {A} : forall (l : list A) k n j, (1 <= n)%nat ->
  nth_error (every_from k n l) j = nth_error l (k + j * n)%nat.
Proof.
  induction l as [|x l IH]; intros k n j Hn.
  - destruct j; destruct (k + _)%nat; simpl; auto; destruct k; auto.
  - destruct k as [|k]; simpl.
    + destruct j as [|j]; simpl; [reflexivity|].
      rewrite IH by assumption.
      replace (n + j * n)%nat with (S (n - 1 + j * n)) by lia. reflexivity.
    + apply IH; assumption.
Qed.
Lemma nth_error_every {A} n (l : list A) j : (1 <= n)%nat ->
  nth_error (every n l) j = nth_error l (j * n)%nat.
Proof. intros Hn. unfold every. rewrite nth_error_every_from by assumption. reflexivity. Qed.

Lemma every_length {A} n (l : list A) : (1 <= n)%nat ->
  List.length (every n l) = ceil_div (List.length l) n.
Proof.
  intros Hn.
  assert (H : forall j, (j < List.length (every n l) <-> j < ceil_div (List.length l) n)%nat).
  { intros j. rewrite <- nth_error_Some, nth_error_every, nth_error_Some by assumption.
    unfold ceil_div. split; intros Hj.
    - apply Nat.div_le_lower_bound; nia.
    - assert (H := Nat.mul_div_le (List.length l + n - 1) n ltac:(lia)).
      assert (S j <= (List.length l + n - 1) / n)%nat as Hj' by lia.
      apply (Nat.mul_le_mono_l _ _ n) in Hj'. nia. }
  specialize (H (List.length (every n l))) as H1.
  specialize (H (ceil_div (List.length l) n)) as H2. lia.
Qed.

Lemma nth_error_slice {A} a b (l : list A) j : (j < b - a)%nat ->
  nth_error (slice a b l) j = nth_error l (a + j)%nat.
Proof.
  intros Hj. unfold slice.
  assert (H : forall n (m : list A) k, (k < n)%nat -> nth_error (firstn n m) k = nth_error m k).
  { induction n; intros m k Hk; [lia|]. destruct m; [destruct k; reflexivity|].
    destruct k; simpl; [reflexivity|]. apply IHn. lia. }
  rewrite H by assumption.
  revert l. induction a; intros l; simpl; [reflexivity|].
  destruct l; simpl; [destruct j; reflexivity|]. apply IHa. lia.
Qed.

Lemma nth_error_firstn' {A} : forall n (m : list A) k, (k < n)%nat -> nth_error (firstn n m) k = nth_error m k.
Proof.
  induction n; intros m k Hk; [lia|]. destruct m; [destruct k; reflexivity|].
  destruct k; simpl; [reflexivity|]. apply IHn. lia.
Qed.
Lemma nth_error_skipn' {A} : forall n (m : list A) k, nth_error (skipn n m) k = nth_error m (n + k)%nat.
Proof.
  induction n; intros m k; simpl; [reflexivity|].
  destruct m; simpl; [destruct k; reflexivity|]. apply IHn.
Qed.

Lemma assign_slice_fits {A} e a b (new dst : list A) :
  (a <= b)%nat -> List.length new = (Nat.min b (List.length dst) - Nat.min a (List.length dst))%nat ->
  exists d, assign_slice e a b new dst = Ok d /\ List.length d = List.length dst /\
    (forall j, (j < a)%nat -> nth_error d j = nth_error dst j) /\
    (forall j, (a <= j < Nat.min b (List.length dst))%nat -> nth_error d j = nth_error new (j - a)).
Proof.
  intros Hab Hl. unfold assign_slice.
  replace (List.length new =? _)%nat with true by (symmetry; apply Nat.eqb_eq; exact Hl).
  eexists. split; [reflexivity|].
  set (lo := Nat.min a (List.length dst)) in *. set (hi := Nat.min b (List.length dst)) in *.
  assert (Hlo : (lo <= hi <= List.length dst)%nat) by (subst lo hi; lia).
  split; [|split].
  - rewrite !app_length, firstn_length, skipn_length. lia.
  - intros j Hj. destruct (Nat.lt_ge_cases j lo) as [H|H].
    + rewrite nth_error_app1 by (rewrite firstn_length; lia). apply nth_error_firstn'. exact H.
    + assert (lo = List.length dst) by (subst lo; lia).
      transitivity (@None A); [|symmetry; apply nth_error_None; lia].
      apply nth_error_None. rewrite !app_length, firstn_length, skipn_length. lia.
  - intros j Hj. assert (lo = a) by (subst lo hi; lia).
    rewrite nth_error_app2 by (rewrite firstn_length; lia).
    rewrite firstn_length, Nat.min_l by lia.
    rewrite nth_error_app1 by lia. rewrite H. reflexivity.
Qed.

Lemma assign_slice_misfit {A} e a b (new dst : list A) :
  List.length new <> (Nat.min b (List.length dst) - Nat.min a (List.length dst))%nat ->
  List.length new <> 1%nat -> assign_slice e a b new dst = Err e.
Proof.
  intros H1 H2. unfold assign_slice.
  replace (List.length new =? _)%nat with false by (symmetry; apply Nat.eqb_neq; exact H1).
  destruct new as [|x [|y t]]; simpl in *; try reflexivity. congruence.
Qed.

(* ------------------------------------------------------------------ filter *)

Lemma after_app {S X W} (step : S -> X -> S * W) st a b :
  after step st (a ++ b) = after step (after step st a) b.
Proof. apply fold_left_app. Qed.

Lemma sosfilt_spec {S X W} (step : S -> X -> S * W) : forall l st,
  fst (sosfilt step st l) = after step st l /\
  List.length (snd (sosfilt step st l)) = List.length l /\
  forall j, nth_error (snd (sosfilt step st l)) j = response step st l j.
Proof.
  induction l as [|x l IH]; intros st; cbn [sosfilt].
  - split; [reflexivity|]. split; [reflexivity|]. intros [|j]; reflexivity.
  - destruct (step st x) as [st1 y] eqn:E. specialize (IH st1).
    destruct (sosfilt step st1 l) as [st2 ys]. cbn [fst snd List.length] in *.
    destruct IH as (H1 & H2 & H3).
    split; [|split; [congruence|]].
    + rewrite H1. unfold after. cbn [fold_left]. rewrite E. reflexivity.
    + intros [|j]; unfold response; cbn [nth_error firstn].
      * unfold after; cbn [fold_left]. rewrite E. reflexivity.
      * rewrite H3. unfold response. unfold after; cbn [fold_left]. rewrite E. reflexivity.
Qed.

Lemma response_prefix {S X W} (step : S -> X -> S * W) st pre l j :
  response step (after step st pre) l j = response step st (pre ++ l) (List.length pre + j)%nat.
Proof.
  unfold response. rewrite nth_error_app2 by lia.
  replace (List.length pre + j - List.length pre)%nat with j by lia.
  destruct (nth_error l j) eqn:E; [|reflexivity].
  rewrite firstn_app. rewrite (@firstn_all2 _ (List.length pre + j) pre) by lia.
  replace (List.length pre + j - List.length pre)%nat with j by lia.
  rewrite after_app. reflexivity.
Qed.
Lemma response_shorter {S X W} (step : S -> X -> S * W) st a b j : (j < List.length a)%nat ->
  response step st a j = response step st (a ++ b) j.
Proof.
  intros Hj. unfold response. rewrite nth_error_app1 by assumption.
  destruct (nth_error a j); [|reflexivity].
  rewrite firstn_app. replace (j - List.length a)%nat with 0%nat by lia.
  rewrite firstn_O, app_nil_r. reflexivity.
Qed.

(* ------------------------------------------------------------------ rounding *)

Lemma oblock_bounds (m d : nat) : (1 <= d)%nat ->
  let o := qround (inject_Z (Z.of_nat m) / inject_Z (Z.of_nat d)) in
  2 * Z.of_nat m - Z.of_nat d <= 2 * (o * Z.of_nat d) <= 2 * Z.of_nat m + Z.of_nat d.
Proof.
  intros Hd o. pose proof (qround_half (inject_Z (Z.of_nat m) / inject_Z (Z.of_nat d))) as H.
  fold o in H. clearbody o. apply Qabs_Qle_condition in H. destruct H as [H1 H2].
  assert (Hp : (0 < inject_Z (Z.of_nat d))%Q) by (change 0%Q with (inject_Z 0); rewrite <- Zlt_Qlt; lia).
  set (x := (inject_Z (Z.of_nat m) / inject_Z (Z.of_nat d))%Q) in *.
  assert (Hx : (x * inject_Z (Z.of_nat d) == inject_Z (Z.of_nat m))%Q)
    by (unfold x; field; intro E; rewrite E in Hp; discriminate Hp).
  clearbody x.
  apply (Qmult_le_compat_r _ _ (inject_Z (Z.of_nat d) * 2)) in H1; [|lra].
  apply (Qmult_le_compat_r _ _ (inject_Z (Z.of_nat d) * 2)) in H2; [|lra].
  split; rewrite Zle_Qle; repeat (rewrite inject_Z_plus || rewrite inject_Z_mult || unfold Z.sub || rewrite inject_Z_opp);
    change (inject_Z 2) with 2%Q; nra.
Qed.

Lemma oblock_floor_ceil (m d : nat) : (1 <= d)%nat ->
  let o := qround (inject_Z (Z.of_nat m) / inject_Z (Z.of_nat d)) in
  0 <= o /\ (m / d <= Z.to_nat o <= ceil_div m d)%nat.
Proof.
  intros Hd o. pose proof (oblock_bounds m d Hd) as H. cbn zeta in H. fold o in H. clearbody o.
  assert (H0 : 0 <= o) by nia.
  split; [exact H0|]. rewrite <- (Z2Nat.id o) in H by exact H0. set (k := Z.to_nat o) in *. clearbody k.
  unfold ceil_div.
  pose proof (Nat.div_mod m d ltac:(lia)) as E. pose proof (Nat.mod_upper_bound m d ltac:(lia)).
  split.
  - nia.
  - apply Nat.div_le_lower_bound; nia.
Qed.

(* ------------------------------------------------------------------ blocks *)

Section Blocks.
Context {S X W : Type} (env : dsenv S X W) (is_time : bool) (ds start M o D : nat) (src : list X).
Hypothesis (Hds : (1 <= ds)%nat) (HM : (1 <= M)%nat).
Let range := skipn start src.
Let filtering := negb is_time && (1 <? ds)%nat.
Let blk it := slice (start + it * M) (start + (it + 1) * M) src.
Let blen it := List.length (blk it).
Let sl it := Nat.min (D - it * o) o.

(** Sample number [j] of the output is taken from this position of the selected range. *)
Let pos j := (j / o * M + j mod o * ds)%nat.

Let inv (it : nat) (dst : list W) (st : S) : Prop :=
  List.length dst = D /\
  (filtering = true -> st = after (e_step env ds) (e_zero env) (firstn (it * M) range)) /\
  forall j, (j < it * o)%nat -> (j < D)%nat ->
    nth_error dst j = signal env is_time ds range (pos j).

Lemma blk_range it : blk it = firstn M (skipn (it * M) range).
Proof.
  unfold blk, slice, range. rewrite FileReadProofs.skipn_skipn.
  f_equal; [lia|]. f_equal; lia.
Qed.

Lemma range_split it : (it * M <= List.length range)%nat ->
  range = firstn (it * M) range ++ blk it ++ skipn M (skipn (it * M) range).
Proof.
  intros H. rewrite blk_range, firstn_skipn, firstn_skipn. reflexivity.
Qed.

Lemma firstn_next it : firstn ((it + 1) * M) range = firstn (it * M) range ++ blk it.
Proof.
  rewrite blk_range.
  replace ((it + 1) * M)%nat with (it * M + M)%nat by lia.
  generalize (it * M)%nat. intros n. revert n. clear. 
  generalize range as l. induction l as [|x l IH]; intros n.
  - rewrite !firstn_nil, skipn_nil, firstn_nil. reflexivity.
  - destruct n; simpl; [reflexivity|]. f_equal. apply IH.
Qed.

Lemma blk_signal it st : (it * M <= List.length range)%nat ->
  (filtering = true -> st = after (e_step env ds) (e_zero env) (firstn (it * M) range)) ->
  let r := if filtering then sosfilt (e_step env ds) st (blk it)
           else (st, map (e_copy env) (blk it)) in
  List.length (snd r) = blen it /\
  (forall j, (j < blen it)%nat -> nth_error (snd r) j = signal env is_time ds range (it * M + j)) /\
  (filtering = true -> fst r = after (e_step env ds) (e_zero env) (firstn ((it + 1) * M) range)).
Proof.
  intros Hit Hst r. unfold blen.
  assert (Hl : List.length (firstn (it * M) range) = (it * M)%nat) by (rewrite firstn_length; lia).
  assert (Hsig : is_time || (ds <=? 1)%nat = negb filtering).
  { unfold filtering. destruct is_time; simpl; [reflexivity|].
    destruct (Nat.leb_spec ds 1), (Nat.ltb_spec 1 ds); try reflexivity; lia. }
  unfold signal. rewrite Hsig. unfold r. destruct filtering; cbn [negb].
  - destruct (sosfilt_spec (e_step env ds) (blk it) st) as (H1 & H2 & H3).
    split; [exact H2|]. split.
    + intros j Hj. rewrite H3. rewrite (Hst eq_refl).
      rewrite response_prefix, Hl.
      rewrite (response_shorter _ _ _ (skipn M (skipn (it * M) range)))
        by (rewrite app_length; lia).
      rewrite <- app_assoc, <- range_split by exact Hit. reflexivity.
    + intros _. rewrite H1, (Hst eq_refl), firstn_next, after_app. reflexivity.
  - cbn [fst snd]. rewrite map_length. split; [reflexivity|]. split; [|discriminate].
    intros j Hj. rewrite nth_error_map. f_equal.
    rewrite (range_split it Hit) at 1.
    rewrite nth_error_app2 by lia. rewrite Hl.
    replace (it * M + j - it * M)%nat with j by lia.
    rewrite nth_error_app1 by exact Hj. reflexivity.
Qed.

Lemma block_step it dst st : (it * M <= List.length range)%nat -> (it * o <= D)%nat ->
  (sl it <= ceil_div (blen it) ds)%nat -> inv it dst st ->
  exists dst' st', ds_block env is_time ds start M (Z.of_nat o) (Z.of_nat D) src it dst st = Ok (dst', st')
    /\ inv (it + 1) dst' st'.
Proof.
  intros Hit Ho Hsl (Hlen & Hst & Hval).
  destruct (blk_signal it st Hit Hst) as (L1 & L2 & L3).
  unfold ds_block. fold (blk it). fold filtering.
  destruct (if filtering then sosfilt (e_step env ds) st (blk it) else (st, map (e_copy env) (blk it)))
    as [st' ys] eqn:E. cbn [fst snd] in L1, L2, L3.
  rewrite Nat2Z.id.
  set (new := py_first _ _).
  assert (Hmin : Z.min (Z.of_nat D - Z.of_nat it * Z.of_nat o) (Z.of_nat o) = Z.of_nat (sl it))
    by (unfold sl; lia).
  assert (Hnew : new = firstn (sl it) (every ds ys)).
  { unfold new, py_first. rewrite Hmin.
    destruct (Z.ltb_spec (Z.of_nat (sl it)) 0); [lia|]. rewrite Nat2Z.id. reflexivity. }
  assert (Hnl : List.length new = sl it)
    by (rewrite Hnew, firstn_length, every_length, L1 by assumption; lia).
  destruct (assign_slice_fits (e_exn env) (it * o) ((it + 1) * o) new dst) as (d & Hd & Hd1 & Hd2 & Hd3).
  { lia. }
  { rewrite Hnl, Hlen. unfold sl. lia. }
  rewrite Hd. cbn [bind]. exists d, st'. split; [reflexivity|].
  split; [lia|]. split; [exact L3|].
  intros j Hj HjD.
  destruct (Nat.lt_ge_cases j (it * o)) as [Hlt|Hge].
  - rewrite Hd2 by exact Hlt. apply Hval; assumption.
  - rewrite Hd3 by lia. rewrite Hnew.
    assert (Hin : (j - it * o < sl it)%nat) by (unfold sl; lia).
    rewrite nth_error_firstn' by exact Hin.
    rewrite nth_error_every by assumption.
    assert (Hb : ((j - it * o) * ds < blen it)%nat).
    { apply (FileReadProofs.ceil_div_lt (blen it) ds); lia. }
    rewrite L2 by exact Hb. f_equal. unfold pos.
    assert (Hdiv : (j / o)%nat = it) by (symmetry; apply (Nat.div_unique j o it (j - it * o)); lia).
    rewrite (Nat.mod_eq j o), Hdiv by lia. nia.
Qed.

Lemma block_misfit it dst st : (it * o <= D)%nat -> List.length dst = D ->
  (ceil_div (blen it) ds < sl it)%nat -> ceil_div (blen it) ds <> 1%nat ->
  ds_block env is_time ds start M (Z.of_nat o) (Z.of_nat D) src it dst st = Err (e_exn env).
Proof.
  intros Ho Hlen Hsl H1. unfold ds_block. fold (blk it). fold filtering.
  destruct (if filtering then sosfilt (e_step env ds) st (blk it) else (st, map (e_copy env) (blk it)))
    as [st' ys] eqn:E.
  assert (L1 : List.length ys = blen it).
  { destruct filtering.
    - pose proof (sosfilt_spec (e_step env ds) (blk it) st) as H. rewrite E in H. apply H.
    - inversion E. apply map_length. }
  rewrite Nat2Z.id.
  set (new := py_first _ _).
  assert (Hmin : Z.min (Z.of_nat D - Z.of_nat it * Z.of_nat o) (Z.of_nat o) = Z.of_nat (sl it))
    by (unfold sl; lia).
  assert (Hnew : new = firstn (sl it) (every ds ys)).
  { unfold new, py_first. rewrite Hmin.
    destruct (Z.ltb_spec (Z.of_nat (sl it)) 0); [lia|]. rewrite Nat2Z.id. reflexivity. }
  assert (Hnl : List.length new = ceil_div (blen it) ds)
    by (rewrite Hnew, firstn_length, every_length, L1 by assumption; lia).
  rewrite assign_slice_misfit; [reflexivity| |].
  - rewrite Hnl, Hlen. unfold sl in Hsl. lia.
  - rewrite Hnl. exact H1.
Qed.

(** All full blocks in front of block [n]. *)
Lemma full_blocks : forall n it m dst st,
  (o <= ceil_div M ds)%nat -> ((it + n) * M <= List.length range)%nat ->
  ((it + n) * o <= D)%nat -> inv it dst st ->
  exists dst' st', inv (it + n) dst' st' /\
    ds_loop env is_time ds start M (Z.of_nat o) (Z.of_nat D) src (n + m) it dst st
    = ds_loop env is_time ds start M (Z.of_nat o) (Z.of_nat D) src m (it + n) dst' st'.
Proof.
  induction n as [|n IH]; intros it m dst st Hc HM' HD Hinv.
  - exists dst, st. rewrite Nat.add_0_r. split; [exact Hinv|]. reflexivity.
  - assert (Hb : blen it = M).
    { unfold blen. rewrite blk_range, firstn_length, skipn_length. nia. }
    destruct (block_step it dst st) as (d1 & s1 & H1 & H2).
    + nia.
    + nia.
    + rewrite Hb. unfold sl. lia.
    + exact Hinv.
    + cbn [Nat.add ds_loop]. rewrite H1.
      replace (it + Datatypes.S n)%nat with (it + 1 + n)%nat in * by lia.
      apply IH; auto.
Qed.

Lemma inv_start dst : List.length dst = D -> inv 0 dst (e_zero env).
Proof. intros H. split; [exact H|]. split; [reflexivity|]. intros j Hj. lia. Qed.

(** The whole loop over [k + 1] blocks. *)
Lemma loop_ok k dst : (k = 0 \/ o <= ceil_div M ds)%nat -> (k * M <= List.length range)%nat ->
  (k * o <= D)%nat -> (sl k <= ceil_div (blen k) ds)%nat -> List.length dst = D ->
  exists d, ds_loop env is_time ds start M (Z.of_nat o) (Z.of_nat D) src (k + 1) 0 dst (e_zero env) = (d, None)
    /\ List.length d = D
    /\ forall j, (j < k * o + sl k)%nat -> nth_error d j = signal env is_time ds range (pos j).
Proof.
  intros Hc Hk HD Hs Hd.
  assert (exists dst' st', inv k dst' st' /\
    ds_loop env is_time ds start M (Z.of_nat o) (Z.of_nat D) src (k + 1) 0 dst (e_zero env)
    = ds_loop env is_time ds start M (Z.of_nat o) (Z.of_nat D) src 1 k dst' st') as (d1 & s1 & I1 & E1).
  { destruct Hc as [->|Hc].
    - exists dst, (e_zero env). split; [apply inv_start; exact Hd|reflexivity].
    - apply (full_blocks k 0 1); auto. apply inv_start; exact Hd. }
  destruct (block_step k d1 s1 Hk HD Hs I1) as (d2 & s2 & E2 & I2).
  rewrite E1. cbn [ds_loop]. rewrite E2. exists d2. destruct I2 as (L & _ & V).
  split; [reflexivity|]. split; [exact L|].
  intros j Hj. apply V; unfold sl in Hj; lia.
Qed.

Lemma loop_fails k dst : (k = 0 \/ o <= ceil_div M ds)%nat -> (k * M <= List.length range)%nat ->
  (k * o <= D)%nat -> (ceil_div (blen k) ds < sl k)%nat -> ceil_div (blen k) ds <> 1%nat ->
  List.length dst = D ->
  exists d, ds_loop env is_time ds start M (Z.of_nat o) (Z.of_nat D) src (k + 1) 0 dst (e_zero env)
    = (d, Some (e_exn env)).
Proof.
  intros Hc Hk HD Hs H1 Hd.
  assert (exists dst' st', inv k dst' st' /\
    ds_loop env is_time ds start M (Z.of_nat o) (Z.of_nat D) src (k + 1) 0 dst (e_zero env)
    = ds_loop env is_time ds start M (Z.of_nat o) (Z.of_nat D) src 1 k dst' st') as (d1 & s1 & I1 & E1).
  { destruct Hc as [->|Hc].
    - exists dst, (e_zero env). split; [apply inv_start; exact Hd|reflexivity].
    - apply (full_blocks k 0 1); auto. apply inv_start; exact Hd. }
  rewrite E1. cbn [ds_loop]. rewrite block_misfit; auto. { exists d1. reflexivity. }
  apply I1.
Qed.
End Blocks.

(* ------------------------------------------------------------------ downsample *)

Lemma resize_to_length {A} z n (l : list A) : List.length (resize_to z n l) = n.
Proof. unfold resize_to. rewrite app_length, firstn_length, repeat_length. lia. Qed.
Lemma resize_to_nth {A} z n (l : list A) j : (j < n)%nat -> (j < List.length l)%nat ->
  nth_error (resize_to z n l) j = nth_error l j.
Proof.
  intros H1 H2. unfold resize_to. rewrite nth_error_app1 by (rewrite firstn_length; lia).
  apply nth_error_firstn'. exact H1.
Qed.

Lemma signal_prefix {S X W} (env : dsenv S X W) is_time n l m j : (j < m)%nat -> (m <= List.length l)%nat ->
  signal env is_time n (firstn m l) j = signal env is_time n l j.
Proof.
  intros Hj Hm. unfold signal.
  pose proof (firstn_skipn m l) as E.
  assert (Hl : List.length (firstn m l) = m) by (rewrite firstn_length; lia).
  destruct (is_time || _).
  - rewrite <- E at 2. rewrite nth_error_app1 by lia. reflexivity.
  - rewrite <- E at 2. apply response_shorter. lia.
Qed.

Section Downsample.
Context {S X W : Type} (env : dsenv S X W) (max_elements : nat) (src : list X) (dst : option (list W))
  (start_n : nat) (end_n : option nat) (factor : Q) (is_time : bool) (n : nat).
Hypothesis (Hn : Z.of_nat n = Z.max 1 (Qfloor factor)) (Hmax : (1 <= max_elements)%nat).
Let e := match end_n with Some e => Nat.min (List.length src) e | None => List.length src end.
Let s := Nat.min e start_n.
Let len := (e - s)%nat.
Hypothesis (Hlen : (1 <= len)%nat).
Let run := downsample env max_elements src dst start_n end_n factor is_time.

Lemma e_le : (e <= List.length src)%nat.
Proof. subst e. destruct end_n; lia. Qed.

Lemma run_unfold : run =
  let iblock := Nat.min max_elements len in
  let oblock := qround (inject_Z (Z.of_nat iblock) / inject_Z (Z.of_nat n)) in
  let iterations := ceil_div len iblock in
  let dest := Z.of_nat (len / n) in
  let dst0 := resize_to (e_fill env) (len / n) (match dst with Some d => d | None => [] end) in
  match ds_loop env is_time n s iblock oblock dest src iterations 0 dst0 (e_zero env) with
  | (d, Some x) => (Some d, Some x)
  | (d, None) =>
    let slice_len := Z.min (dest - Z.of_nat (iterations - 1) * oblock) oblock in
    (Some (resize_to (e_fill env) (Z.to_nat (oblock * Z.of_nat (iterations - 1) + slice_len)) d), None)
  end.
Proof.
  unfold run, downsample. rewrite <- Hn, Nat2Z.id. fold e. fold s. fold len.
  destruct (Nat.eqb_spec len 0) as [H|H]; [lia|]. reflexivity.
Qed.

Lemma run_single : (len <= max_elements)%nat ->
  exists out, run = (Some out, None) /\
    every_nth n len (signal env is_time n (skipn s src)) out.
Proof.
  intros Hle. rewrite run_unfold. cbv zeta.
  rewrite (Nat.min_r _ _ Hle).
  assert (Hn1 : (1 <= n)%nat) by lia.
  destruct (oblock_floor_ceil len n Hn1) as (O0 & O1).
  set (o := qround _) in *. clearbody o.
  rewrite <- (Z2Nat.id o O0). set (o' := Z.to_nat o) in *. clearbody o'. clear o O0.
  assert (Hc : ceil_div len len = 1%nat).
  { unfold ceil_div. symmetry. apply (Nat.div_unique _ _ 1 (len - 1)); lia. }
  rewrite Hc. pose proof e_le as He.
  assert (Hb : List.length (slice (s + 0 * len) (s + (0 + 1) * len) src) = len).
  { rewrite slice_length_min. lia. }
  destruct (loop_ok env is_time n s len o' (len / n) src Hn1 Hlen 0
              (resize_to (e_fill env) (len / n) (match dst with Some d => d | None => [] end)))
    as (d & E & L & V).
  - auto.
  - lia.
  - lia.
  - rewrite Hb. rewrite Nat.mul_0_l, Nat.sub_0_r. unfold ceil_div in *.
    etransitivity; [apply Nat.le_min_l|]. apply Nat.div_le_mono; lia.
  - apply resize_to_length.
  - cbn [Nat.add] in E. rewrite E. clear E.
    eexists. split; [reflexivity|].
    replace (Z.to_nat _) with (len / n)%nat by lia.
    split; [apply resize_to_length|].
    intros j Hj. rewrite resize_to_nth by lia. rewrite V by lia.
    f_equal. rewrite Nat.div_small, Nat.mod_small by lia. lia.
Qed.

(** Several blocks, the block length of the output rounded down. *)
Section Multi.
Context (k o : nat).
Hypothesis (Hk : (1 <= k)%nat) (Hk1 : (k * max_elements < len)%nat) (Hk2 : (len <= (k + 1) * max_elements)%nat)
  (Ho : Z.of_nat o = qround (inject_Z (Z.of_nat max_elements) / inject_Z (Z.of_nat n)))
  (Hdown : (o * n <= max_elements)%nat).
Let avail := ceil_div (Nat.min max_elements (List.length src - s - k * max_elements)) n.
Let sl := Nat.min (len / n - k * o) o.

Lemma iterations_multi : ceil_div len max_elements = (k + 1)%nat.
Proof.
  unfold ceil_div. symmetry.
  apply (Nat.div_unique _ _ (k + 1) (len + max_elements - 1 - max_elements * (k + 1))); nia.
Qed.
Lemma ko_le : (k * o <= len / n)%nat.
Proof. apply Nat.div_le_lower_bound; nia. Qed.
Lemma blen_multi : List.length (slice (s + k * max_elements) (s + (k + 1) * max_elements) src)
  = Nat.min max_elements (List.length src - s - k * max_elements).
Proof. rewrite slice_length_min. f_equal; lia. Qed.

Lemma run_multi : (sl <= avail)%nat ->
  exists out, run = (Some out, None) /\ List.length out = Nat.min (len / n) ((k + 1) * o) /\
    forall j, (j < List.length out)%nat ->
      nth_error out j = signal env is_time n (skipn s src) (j / o * max_elements + j mod o * n)%nat.
Proof.
  intros Hsl. rewrite run_unfold. cbv zeta.
  rewrite (Nat.min_l max_elements len) by nia.
  assert (Hn1 : (1 <= n)%nat) by lia.
  pose proof (oblock_floor_ceil max_elements n Hn1) as OB. cbn zeta in OB. destruct OB as (_ & O1).
  rewrite <- Ho in O1 |- *. rewrite Nat2Z.id in O1.
  rewrite iterations_multi. pose proof e_le as He. pose proof ko_le as Hko.
  destruct (loop_ok env is_time n s max_elements o (len / n) src Hn1 Hmax k
              (resize_to (e_fill env) (len / n) (match dst with Some d => d | None => [] end)))
    as (d & E & L & V).
  - right. lia.
  - rewrite skipn_length. lia.
  - exact Hko.
  - rewrite blen_multi. exact Hsl.
  - apply resize_to_length.
  - rewrite E. clear E. eexists. split; [reflexivity|].
    replace (Z.to_nat _) with (k * o + sl)%nat by (unfold sl; lia).
    split; [rewrite resize_to_length; unfold sl; lia|].
    intros j Hj. rewrite resize_to_length in Hj.
    rewrite resize_to_nth by (unfold sl in *; lia). apply V. exact Hj.
Qed.

Lemma run_multi_fails : (avail < sl)%nat -> avail <> 1%nat ->
  exists d, run = (Some d, Some (e_exn env)).
Proof.
  intros Hsl H1. rewrite run_unfold. cbv zeta.
  rewrite (Nat.min_l max_elements len) by nia.
  assert (Hn1 : (1 <= n)%nat) by lia.
  pose proof (oblock_floor_ceil max_elements n Hn1) as OB. cbn zeta in OB. destruct OB as (_ & O1).
  rewrite <- Ho in O1 |- *. rewrite Nat2Z.id in O1.
  rewrite iterations_multi. pose proof e_le as He. pose proof ko_le as Hko.
  destruct (loop_fails env is_time n s max_elements o (len / n) src Hn1 Hmax k
              (resize_to (e_fill env) (len / n) (match dst with Some d => d | None => [] end)))
    as (d & E).
  - right. lia.
  - rewrite skipn_length. lia.
  - exact Hko.
  - rewrite blen_multi. exact Hsl.
  - rewrite blen_multi. exact H1.
  - apply resize_to_length.
  - rewrite E. eexists. reflexivity.
Qed.
End Multi.

Lemma run_divides : (max_elements < len)%nat -> Nat.divide n max_elements ->
  exists out, run = (Some out, None) /\
    every_nth n len (signal env is_time n (skipn s src)) out.
Proof.
  intros Hlt (o & Hdiv).
  assert (Hn1 : (1 <= n)%nat) by lia. assert (Ho1 : (1 <= o)%nat) by nia.
  assert (Ho : Z.of_nat o = qround (inject_Z (Z.of_nat max_elements) / inject_Z (Z.of_nat n))).
  { pose proof (oblock_floor_ceil max_elements n Hn1) as OB. cbn zeta in OB. destruct OB as (O0 & O1).
    rewrite Hdiv in O1 at 1. rewrite Nat.div_mul in O1 by lia.
    assert (ceil_div max_elements n = o) as Hc.
    { unfold ceil_div. symmetry. apply (Nat.div_unique _ _ o (n - 1)); nia. }
    lia. }
  set (k := ((len - 1) / max_elements)%nat).
  assert (Hk : (k * max_elements < len <= (k + 1) * max_elements)%nat).
  { pose proof (Nat.div_mod (len - 1) max_elements ltac:(lia)) as E.
    pose proof (Nat.mod_upper_bound (len - 1) max_elements ltac:(lia)) as U. fold k in E. nia. }
  assert (Hk1 : (1 <= k)%nat) by nia.
  clearbody k.
  pose proof e_le as He.
  set (q := (len - k * max_elements)%nat).
  assert (HD : (len / n = k * o + q / n)%nat).
  { replace len with (q + k * o * n)%nat by nia. rewrite Nat.div_add by lia. lia. }
  assert (Hq : (q / n <= o)%nat).
  { apply Nat.div_le_upper_bound; nia. }
  destruct (run_multi k o ltac:(lia) ltac:(lia) ltac:(lia) Ho ltac:(lia)) as (out & E & L & V).
  - unfold ceil_div. rewrite HD. replace (k * o + q / n - k * o)%nat with (q / n)%nat by lia.
    rewrite Nat.min_l by exact Hq. apply Nat.div_le_mono; lia.
  - exists out. split; [exact E|]. assert (Hl : List.length out = (len / n)%nat) by nia.
    split; [exact Hl|]. intros j Hj. rewrite V by lia. f_equal.
    pose proof (Nat.div_mod j o ltac:(lia)). nia.
Qed.

Lemma run_every : (len <= max_elements \/ Nat.divide n max_elements)%nat ->
  exists out, run = (Some out, None) /\
    every_nth n len (signal env is_time n (slice s e src)) out.
Proof.
  intros H. pose proof e_le as He.
  assert (exists out, run = (Some out, None) /\
    every_nth n len (signal env is_time n (skipn s src)) out) as (out & E & L & V).
  { destruct H as [H|H]; [apply run_single; exact H|].
    destruct (Nat.le_gt_cases len max_elements); [apply run_single; assumption|].
    apply run_divides; assumption. }
  exists out. split; [exact E|]. split; [exact L|]. intros j Hj. rewrite V by exact Hj.
  symmetry. unfold slice. apply signal_prefix.
  - pose proof (Nat.mul_div_le len n ltac:(lia)). fold len. nia.
  - rewrite skipn_length. lia.
Qed.
End Downsample.
