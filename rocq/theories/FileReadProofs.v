(** Proofs about reading recordings: buffers, statistics, energy, time checks, voltage step. *)
From Coq Require Import QArith Qabs Qround Lqa Qfield String.
From Verif Require Import PyBase UartModel UartProofs FileModel FileSpec.
Open Scope Z_scope.

(* ------------------------------------------------------------------ slices *)

Lemma slice_length {A} a b (l : list A) : (a <= b)%nat -> (b <= length l)%nat -> length (slice a b l) = (b - a)%nat.
Proof. intros. unfold slice. rewrite firstn_length, skipn_length. lia. Qed.

Lemma skipn_skipn {A} x y (l : list A) : skipn x (skipn y l) = skipn (x + y) l.
Proof.
  revert l. induction y as [|y IH]; intros l; [now rewrite Nat.add_0_r|].
  rewrite Nat.add_succ_r. destruct l; cbn; [now rewrite skipn_nil | apply IH].
Qed.

Lemma slice_app {A} a b c (l : list A) : (a <= b)%nat -> (b <= c)%nat ->
  slice a b l ++ slice b c l = slice a c l.
Proof.
  intros H1 H2. unfold slice.
  replace (c - a)%nat with ((b - a) + (c - b))%nat by lia.
  replace b with ((b - a) + a)%nat at 3 by lia. rewrite <- skipn_skipn.
  generalize (skipn a l) as l'. generalize (b - a)%nat as x, (c - b)%nat as y. clear.
  intros x y. induction x as [|x IH]; intros l'; [reflexivity|].
  destruct l' as [|h l']; cbn; [now rewrite firstn_nil | now rewrite IH].
Qed.

Lemma slice_nil {A} a (l : list A) : slice a a l = [].
Proof. unfold slice. now rewrite Nat.sub_diag. Qed.

Lemma slice_clip {A} a b n (l : list A) : n = length l -> slice a (Nat.min b n) l = slice a b l.
Proof.
  intros ->. unfold slice. destruct (Nat.le_gt_cases b (length l)); [now rewrite Nat.min_l by lia|].
  rewrite Nat.min_r by lia. rewrite !firstn_all2 by (rewrite skipn_length; lia). reflexivity.
Qed.

Lemma slice_full {A} b (l : list A) : (length l <= b)%nat -> slice 0 b l = l.
Proof. intros. unfold slice. cbn. apply firstn_all2. lia. Qed.

Lemma slice_map {A B} (g : A -> B) a b l : slice a b (map g l) = map g (slice a b l).
Proof. unfold slice. rewrite skipn_map, firstn_map. reflexivity. Qed.

Lemma concat_slices {A} n s c (l : list A) :
  concat (map (fun k => slice ((s + k) * n) ((s + k) * n + n) l) (seq 0 c)) = slice (s * n) ((s + c) * n) l.
Proof.
  induction c as [|c IH]; [cbn [seq map concat]; rewrite Nat.add_0_r, slice_nil; reflexivity|].
  rewrite seq_S, map_app, concat_app, IH. cbn [map concat Nat.add]. rewrite app_nil_r.
  rewrite slice_app by nia. f_equal. nia.
Qed.

(** Blocks of [range(0, n, m)] cover the list. *)
Lemma ceil_div_cover n m : (0 < m)%nat -> (n <= ceil_div n m * m)%nat.
Proof.
  intros Hm. unfold ceil_div. pose proof (Nat.div_mod (n + m - 1) m ltac:(lia)).
  pose proof (Nat.mod_upper_bound (n + m - 1) m ltac:(lia)). nia.
Qed.
Lemma ceil_div_lt n m k : (0 < m)%nat -> (k < ceil_div n m)%nat <-> (k * m < n)%nat.
Proof.
  intros Hm. unfold ceil_div. pose proof (Nat.div_mod (n + m - 1) m ltac:(lia)).
  pose proof (Nat.mod_upper_bound (n + m - 1) m ltac:(lia)). split; intros; nia.
Qed.

Lemma range_in n m a : (0 < m)%nat -> In a (range_step n m) <-> exists k, a = (k * m)%nat /\ (a < n)%nat.
Proof.
  intros Hm. unfold range_step. rewrite in_map_iff. split.
  - intros (k & <- & Hk). apply in_seq in Hk. exists k. split; [reflexivity|]. apply ceil_div_lt; lia.
  - intros (k & -> & Hk). exists k. split; [reflexivity|]. apply in_seq. apply ceil_div_lt in Hk; lia.
Qed.

Lemma blocks_concat {A} m (l : list A) : (0 < m)%nat ->
  concat (map (fun a => slice a (a + m) l) (range_step (length l) m)) = l.
Proof.
  intros Hm. unfold range_step. rewrite map_map.
  rewrite (map_ext _ (fun k => slice ((0 + k) * m) ((0 + k) * m + m) l)) by reflexivity.
  rewrite concat_slices. cbn [Nat.mul Nat.add]. apply slice_full. now apply ceil_div_cover.
Qed.

(* ------------------------------------------------------------------ read_buffers *)

Lemma read_buffers_spec r start stop n raw omit :
  let f := r_file r in
  let len := length (f_voltage f) in
  length (f_time f) = len -> length (f_current f) = len -> (0 < n)%nat ->
  exists bs,
    read_buffers r start stop (Some n) raw omit
    = Ok (map (if raw then tup_raw omit else tup_si (r_cal r) omit) bs)
    /\ let e := match stop with None => (len / n)%nat | Some e => Nat.min e (len / n) end in
       length bs = (e - start)%nat
    /\ (forall t v i, In (t, v, i) bs -> length t = n /\ length v = n /\ length i = n)
    /\ let whole l := firstn ((e - start) * n) (skipn (start * n) l) in
       concat (map (fun x => fst (fst x)) bs) = whole (f_time f)
    /\ concat (map (fun x => snd (fst x)) bs) = whole (f_voltage f)
    /\ concat (map snd bs) = whole (f_current f).
Proof.
  intros f len Ht Hc Hn.
  set (e := match stop with None => (len / n)%nat | Some e => Nat.min e (len / n) end).
  set (cut l k := slice ((start + k) * n) ((start + k) * n + n) l : list Z).
  exists (map (fun k => (cut (f_time f) k, cut (f_voltage f) k, cut (f_current f) k)) (seq 0 (e - start))).
  assert (He : (e * n <= len)%nat).
  { assert ((len / n) * n <= len)%nat by (rewrite Nat.mul_comm; apply Nat.mul_div_le; lia).
    assert (e <= len / n)%nat by (unfold e; destruct stop; lia). nia. }
  split.
  { unfold read_buffers. destruct (Nat.eqb_spec n 0); [lia|]. fold f. fold len. fold e.
    f_equal. rewrite map_map. apply map_ext. intros k. unfold cut. destruct raw; reflexivity. }
  cbn zeta. split; [now rewrite map_length, seq_length|]. split.
  { intros t v i Hin. apply in_map_iff in Hin. destruct Hin as (k & [= <- <- <-] & Hk).
    apply in_seq in Hk. assert ((start + k) * n + n <= len)%nat by nia.
    unfold cut. rewrite !slice_length by lia. lia. }
  assert (W : forall l : list Z, firstn ((e - start) * n) (skipn (start * n) l)
              = slice (start * n) ((start + (e - start)) * n) l).
  { intros l. unfold slice. f_equal. nia. }
  rewrite !W, !map_map. cbn [fst snd]. unfold cut.
  rewrite !(concat_slices n start (e - start)). auto.
Qed.

Lemma read_buffers_zero r start stop raw omit :
  read_buffers r start stop (Some 0%nat) raw omit = Err ZeroDivisionError.
Proof. reflexivity. Qed.

(* ------------------------------------------------------------------ energy *)

Lemma qsum_app a b : (qsum (a ++ b) == qsum a + qsum b)%Q.
Proof. unfold qsum. induction a as [|x a IH]; cbn [app fold_right]; [ring | rewrite IH; ring]. Qed.

Lemma qsum_scale {A} (g h : A -> Q) k l : (forall x, g x == h x * k)%Q -> (qsum (map g l) == qsum (map h l) * k)%Q.
Proof. intros H. unfold qsum. induction l as [|x l IH]; cbn [map fold_right]; [ring | rewrite H, IH; ring]. Qed.

Lemma qsum_concat l : (qsum (concat l) == qsum (map qsum l))%Q.
Proof. induction l as [|x l IH]; cbn [concat map]; [reflexivity | rewrite qsum_app, IH; reflexivity]. Qed.

Lemma dot_app a a' b b' : length a = length b -> dot (a ++ a') (b ++ b') = dot a b ++ dot a' b'.
Proof. revert b; induction a as [|x a IH]; intros [|y b] H; cbn in *; try discriminate; [reflexivity|]. f_equal. apply IH. lia. Qed.

Lemma dot_slices m n (v i : list Q) : length v = n -> length i = n -> forall c,
  concat (map (fun k => dot (slice (k * m) (k * m + m) v) (slice (k * m) (k * m + m) i)) (seq 0 c))
  = dot (slice 0 (c * m) v) (slice 0 (c * m) i).
Proof.
  intros Hv Hi. induction c as [|c IH]; [reflexivity|].
  rewrite seq_S, map_app, concat_app, IH. cbn [map concat Nat.add]. rewrite app_nil_r.
  rewrite <- dot_app by (unfold slice; rewrite !firstn_length, !skipn_length; lia).
  rewrite !slice_app by lia. do 2 f_equal; lia.
Qed.

Lemma power_sum_dot cv ci v : forall i, length v = length i ->
  (qsum (dot (map (raw_to_si cv) v) (map (raw_to_si ci) i)) == power_sum cv ci v i)%Q.
Proof. induction v as [|x v IH]; intros [|y i] H; cbn [length] in *; try discriminate; [reflexivity|]. cbn [map dot power_sum]. rewrite <- IH by lia. reflexivity. Qed.

Lemma energy_spec r :
  let f := r_file r in
  length (f_voltage f) = length (f_current f) -> 0 < r_max_elements r ->
  (energy r == st_interval_s (r_stats r)
     * power_sum (c_voltage (r_cal r)) (c_current (r_cal r)) (f_voltage f) (f_current f))%Q.
Proof.
  intros f HL Hm. unfold energy. fold f.
  set (m := Z.to_nat (r_max_elements r)). assert (0 < m)%nat by (unfold m; lia).
  set (n := length (f_voltage f)).
  set (V := map (raw_to_si (c_voltage (r_cal r))) (f_voltage f)).
  set (I := map (raw_to_si (c_current (r_cal r))) (f_current f)).
  rewrite (map_ext _ (fun a => (qsum (dot (slice a (a + m) V) (slice a (a + m) I)) * st_interval_s (r_stats r))%Q)).
  2:{ intros a. unfold V, I. rewrite !slice_map, !slice_clip by (unfold n; congruence). reflexivity. }
  rewrite (qsum_scale _ (fun a => qsum (dot (slice a (a + m) V) (slice a (a + m) I))) (st_interval_s (r_stats r)))
    by reflexivity.
  assert (E : (qsum (map (fun a => qsum (dot (slice a (a + m) V) (slice a (a + m) I))) (range_step n m))
               == qsum (dot V I))%Q).
  { unfold range_step. rewrite map_map.
    rewrite <- (map_map (fun k => dot (slice (k * m) (k * m + m) V) (slice (k * m) (k * m + m) I)) qsum).
    rewrite <- qsum_concat.
    rewrite (dot_slices m n) by (unfold V, I; rewrite map_length; unfold n; congruence).
    pose proof (ceil_div_cover n m ltac:(lia)).
    rewrite !slice_full by (unfold V, I; rewrite map_length; unfold n in *; lia). reflexivity. }
  rewrite E. unfold V, I. rewrite power_sum_dot by assumption. ring.
Qed.

(* ------------------------------------------------------------------ statistics *)

Lemma qmin2_le a b : (qmin2 a b <= a /\ qmin2 a b <= b)%Q /\ (qmin2 a b = a \/ qmin2 a b = b).
Proof.
  unfold qmin2. destruct (Qle_bool a b) eqn:E; [apply Qle_bool_iff in E; split; [split|]; auto; apply Qle_refl|].
  assert (~ (a <= b)%Q) by (intros C; apply Qle_bool_iff in C; congruence).
  apply Qnot_le_lt in H. split; [split|auto]; [lra | apply Qle_refl].
Qed.
Lemma qmax2_ge a b : (a <= qmax2 a b /\ b <= qmax2 a b)%Q /\ (qmax2 a b = a \/ qmax2 a b = b).
Proof.
  unfold qmax2. destruct (Qle_bool b a) eqn:E; [apply Qle_bool_iff in E; split; [split|]; auto; apply Qle_refl|].
  assert (~ (b <= a)%Q) by (intros C; apply Qle_bool_iff in C; congruence).
  apply Qnot_le_lt in H. split; [split|auto]; [lra | apply Qle_refl].
Qed.

Lemma fold_min l : forall x, (In (fold_left qmin2 l x) (x :: l)
  /\ forall y, In y (x :: l) -> fold_left qmin2 l x <= y)%Q.
Proof.
  induction l as [|a l IH]; intros x; cbn [fold_left].
  - split; [now left|]. intros y [<-|[]]. apply Qle_refl.
  - destruct (IH (qmin2 x a)) as [H1 H2]. destruct (qmin2_le x a) as [[Hx Ha] He]. split.
    + destruct H1 as [H1|H1]; [|now right; right]. rewrite <- H1.
      destruct He as [-> | ->]; [now left | now right; left].
    + intros y [<-|[<-|Hy]]; [eapply Qle_trans; [apply H2; now left | exact Hx]
        | eapply Qle_trans; [apply H2; now left | exact Ha] | apply H2; now right].
Qed.
Lemma fold_max l : forall x, (In (fold_left qmax2 l x) (x :: l)
  /\ forall y, In y (x :: l) -> y <= fold_left qmax2 l x)%Q.
Proof.
  induction l as [|a l IH]; intros x; cbn [fold_left].
  - split; [now left|]. intros y [<-|[]]. apply Qle_refl.
  - destruct (IH (qmax2 x a)) as [H1 H2]. destruct (qmax2_ge x a) as [[Hx Ha] He]. split.
    + destruct H1 as [H1|H1]; [|now right; right]. rewrite <- H1.
      destruct He as [-> | ->]; [now left | now right; left].
    + intros y [<-|[<-|Hy]]; [eapply Qle_trans; [exact Hx | apply H2; now left]
        | eapply Qle_trans; [exact Ha | apply H2; now left] | apply H2; now right].
Qed.
Lemma qmin_spec l : l <> [] -> (In (qmin l) l /\ forall y, In y l -> qmin l <= y)%Q.
Proof. destruct l as [|x l]; [congruence|]. intros _. apply fold_min. Qed.
Lemma qmax_spec l : l <> [] -> (In (qmax l) l /\ forall y, In y l -> y <= qmax l)%Q.
Proof. destruct l as [|x l]; [congruence|]. intros _. apply fold_max. Qed.

(** The blocks: non-empty and together the dataset. *)
Definition blocks {A} m (l : list A) := map (fun a => slice a (a + m) l) (range_step (length l) m).
Lemma blocks_nonempty {A} m (l : list A) b : (0 < m)%nat -> In b (blocks m l) -> b <> [].
Proof.
  intros Hm Hb. apply in_map_iff in Hb. destruct Hb as (a & <- & Ha). apply range_in in Ha; [|exact Hm].
  destruct Ha as (k & -> & Hk). intros C. apply (f_equal (@length A)) in C. unfold slice in C.
  rewrite firstn_length, skipn_length in C. cbn in C. lia.
Qed.
Lemma blocks_in {A} m (l : list A) x : (0 < m)%nat -> In x l <-> exists b, In b (blocks m l) /\ In x b.
Proof.
  intros Hm. rewrite <- (blocks_concat m l Hm) at 1. rewrite in_concat. reflexivity.
Qed.
Lemma blocks_nil {A} m (l : list A) : (0 < m)%nat -> blocks m l = [] <-> l = [].
Proof.
  intros Hm. split; intros H.
  - rewrite <- (blocks_concat m l Hm). fold (blocks m l). now rewrite H.
  - subst. unfold blocks, range_step, ceil_div. cbn [length].
    rewrite Nat.div_small by lia. reflexivity.
Qed.

Lemma statistics_blocks m c data :
  dset_statistics m c data =
  let st := map (fun b => let x := map (raw_to_si c) b in mkDstats (qmean x) (qmin x) (qmax x)) (blocks m data) in
  match st with
  | [] => None
  | _ => Some (mkDstats (qmean (map s_mean st)) (qmin (map s_min st)) (qmax (map s_max st)))
  end.
Proof.
  unfold dset_statistics, blocks. cbn zeta.
  rewrite (map_map (fun a => slice a (a + m) data)
    (fun b => mkDstats (qmean (map (raw_to_si c) b)) (qmin (map (raw_to_si c) b)) (qmax (map (raw_to_si c) b)))).
  reflexivity.
Qed.

Lemma statistics_some m c data : (0 < m)%nat -> data <> [] ->
  dset_statistics m c data = Some (mkDstats
    (qmean (map (fun b => qmean (map (raw_to_si c) b)) (blocks m data)))
    (qmin (map (fun b => qmin (map (raw_to_si c) b)) (blocks m data)))
    (qmax (map (fun b => qmax (map (raw_to_si c) b)) (blocks m data)))).
Proof.
  intros Hm Hd. rewrite statistics_blocks. cbn zeta. rewrite !map_map. cbn [s_mean s_min s_max].
  destruct (blocks m data) as [|b bs] eqn:E; [|reflexivity].
  exfalso. apply Hd. now apply (blocks_nil m).
Qed.

Lemma statistics_minmax m c data st : (0 < m)%nat -> dset_statistics m c data = Some st ->
  ((exists x, In x data /\ s_min st == raw_to_si c x) /\ (forall x, In x data -> s_min st <= raw_to_si c x)
  /\ (exists x, In x data /\ s_max st == raw_to_si c x) /\ (forall x, In x data -> raw_to_si c x <= s_max st))%Q.
Proof.
  intros Hm H.
  assert (Hd : data <> []).
  { intros ->. rewrite statistics_blocks in H. rewrite (proj2 (blocks_nil m [] Hm) eq_refl) in H. discriminate. }
  rewrite (statistics_some m c data Hm Hd) in H. injection H as <-. cbn [s_min s_max].
  set (mins := map (fun b => qmin (map (raw_to_si c) b)) (blocks m data)).
  set (maxs := map (fun b => qmax (map (raw_to_si c) b)) (blocks m data)).
  assert (Nb : blocks m data <> []) by (rewrite (blocks_nil m data Hm); exact Hd).
  assert (N1 : mins <> []) by (unfold mins; destruct (blocks m data); cbn; congruence).
  assert (N2 : maxs <> []) by (unfold maxs; destruct (blocks m data); cbn; congruence).
  destruct (qmin_spec mins N1) as [A1 A2]. destruct (qmax_spec maxs N2) as [B1 B2].
  assert (NE : forall b, In b (blocks m data) -> map (raw_to_si c) b <> []).
  { intros b Hb. pose proof (blocks_nonempty m data b Hm Hb). destruct b; cbn; congruence. }
  repeat split.
  - apply in_map_iff in A1. destruct A1 as (b & E & Hb).
    destruct (qmin_spec _ (NE b Hb)) as [C1 _]. apply in_map_iff in C1. destruct C1 as (x & Ex & Hx).
    exists x. split; [apply (blocks_in m data x Hm); eauto|]. rewrite <- E, <- Ex. reflexivity.
  - intros x Hx. apply (blocks_in m data x Hm) in Hx. destruct Hx as (b & Hb & Hx).
    destruct (qmin_spec _ (NE b Hb)) as [_ C2].
    apply Qle_trans with (qmin (map (raw_to_si c) b)).
    + apply A2. unfold mins. apply in_map_iff. eauto.
    + apply C2. now apply in_map.
  - apply in_map_iff in B1. destruct B1 as (b & E & Hb).
    destruct (qmax_spec _ (NE b Hb)) as [C1 _]. apply in_map_iff in C1. destruct C1 as (x & Ex & Hx).
    exists x. split; [apply (blocks_in m data x Hm); eauto|]. rewrite <- E, <- Ex. reflexivity.
  - intros x Hx. apply (blocks_in m data x Hm) in Hx. destruct Hx as (b & Hb & Hx).
    destruct (qmax_spec _ (NE b Hb)) as [_ C2].
    apply Qle_trans with (qmax (map (raw_to_si c) b)).
    + apply C2. now apply in_map.
    + apply B2. unfold maxs. apply in_map_iff. eauto.
Qed.

Lemma statistics_empty m c : (0 < m)%nat -> dset_statistics m c [] = None.
Proof. intros Hm. rewrite statistics_blocks, (proj2 (blocks_nil m [] Hm) eq_refl). reflexivity. Qed.

Lemma si_sum_qsum c l : (si_sum c l == qsum (map (raw_to_si c) l))%Q.
Proof. induction l as [|x l IH]; cbn [si_sum map]; [reflexivity | rewrite IH; reflexivity]. Qed.

Lemma qsum_map_app {A} (g : A -> Q) l1 l2 : (qsum (map g (l1 ++ l2)) == qsum (map g l1) + qsum (map g l2))%Q.
Proof. rewrite map_app. apply qsum_app. Qed.

(** All blocks have the same size: the mean of means is the mean. *)
Lemma statistics_mean m c data k st :
  (0 < m)%nat -> (0 < k)%nat -> length data = (k * m)%nat -> dset_statistics m c data = Some st ->
  (s_mean st == si_sum c data / inject_Z (Z.of_nat (length data)))%Q.
Proof.
  intros Hm Hk HL H.
  assert (Hd : data <> []) by (intros ->; cbn in HL; nia).
  rewrite (statistics_some m c data Hm Hd) in H. injection H as <-. cbn [s_mean].
  assert (Hc : ceil_div (length data) m = k).
  { unfold ceil_div. rewrite HL. symmetry. apply (Nat.div_unique _ _ _ (m - 1)); nia. }
  assert (Lb : length (blocks m data) = k) by (unfold blocks, range_step; rewrite !map_length, seq_length; exact Hc).
  assert (Each : forall b, In b (blocks m data) -> length b = m).
  { intros b Hb. apply in_map_iff in Hb. destruct Hb as (a & <- & Ha). apply range_in in Ha; [|exact Hm].
    destruct Ha as (j & -> & Hj). rewrite HL in Hj. apply Nat.mul_lt_mono_pos_r in Hj; [|exact Hm].
    rewrite slice_length; [lia | lia | rewrite HL; nia]. }
  unfold qmean at 1. rewrite map_length, Lb.
  assert (E : (qsum (map (fun b => qmean (map (raw_to_si c) b)) (blocks m data))
               == qsum (map (raw_to_si c) (concat (blocks m data))) / inject_Z (Z.of_nat m))%Q).
  { revert Each. generalize (blocks m data) as bs. induction bs as [|b bs IH]; intros Each; cbn [map concat qsum fold_right].
    - unfold Qdiv. rewrite Qmult_0_l. reflexivity.
    - fold (qsum (map (fun b0 => qmean (map (raw_to_si c) b0)) bs)). rewrite IH by (intros; apply Each; now right).
      rewrite qsum_map_app. unfold qmean. rewrite map_length, (Each b) by now left.
      unfold Qdiv. ring. }
  rewrite E. unfold blocks. rewrite (blocks_concat m data Hm), si_sum_qsum, HL, Nat2Z.inj_mul, inject_Z_mult.
  assert (~ inject_Z (Z.of_nat m) == 0)%Q by (change 0%Q with (inject_Z 0); rewrite inject_Z_injective; lia).
  assert (~ inject_Z (Z.of_nat k) == 0)%Q by (change 0%Q with (inject_Z 0); rewrite inject_Z_injective; lia).
  field. auto.
Qed.

(** The mean in general: mean over the block means. *)
Lemma blocks_cons {A} m (a b : list A) : (0 < m)%nat -> length a = m -> blocks m (a ++ b) = a :: blocks m b.
Proof.
  intros Hm Ha. unfold blocks, range_step. rewrite app_length, Ha.
  assert (E : ceil_div (m + length b) m = S (ceil_div (length b) m)).
  { unfold ceil_div. replace (m + length b + m - 1)%nat with (length b + m - 1 + 1 * m)%nat by lia.
    rewrite Nat.div_add by lia. lia. }
  rewrite E. cbn [seq map]. f_equal.
  - unfold slice. cbn [Nat.mul Nat.add skipn]. rewrite Nat.sub_0_r, firstn_app, Ha, Nat.sub_diag. cbn [firstn].
    rewrite app_nil_r. apply firstn_all2. lia.
  - rewrite <- seq_shift, !map_map. apply map_ext. intros k. unfold slice.
    replace (S k * m)%nat with (m + k * m)%nat by lia.
    replace (m + k * m + m - (m + k * m))%nat with (k * m + m - k * m)%nat by lia. f_equal.
    rewrite skipn_app, Ha. replace (m + k * m - m)%nat with (k * m)%nat by lia.
    rewrite skipn_all2 by lia. reflexivity.
Qed.

(* ------------------------------------------------------------------ time differences *)

Lemma udiffs_in bits l d : In d (udiffs bits l) <->
  exists j, (S j < length l)%nat /\ d = (nth (S j) l 0 - nth j l 0) mod 2 ^ bits.
Proof.
  induction l as [|a l IH]; [cbn; split; [tauto | intros (j & H & _); lia]|].
  destruct l as [|b l]; [cbn; split; [tauto | intros (j & H & _); lia]|].
  cbn [udiffs In]. rewrite IH. split.
  - intros [<-|(j & Hj & ->)]; [exists 0%nat; cbn; split; [lia | reflexivity]|].
    exists (S j). cbn in *. split; [lia | reflexivity].
  - intros ([|j] & Hj & ->); [left; reflexivity|]. right. exists j. cbn in *. split; [lia | reflexivity].
Qed.

Lemma stride_length s l : length (stride s l) = ceil_div (length l) s.
Proof. unfold stride, range_step. now rewrite !map_length, seq_length. Qed.
Lemma stride_nth s l j : (j < ceil_div (length l) s)%nat -> nth j (stride s l) 0 = nth (j * s) l 0.
Proof.
  intros H. unfold stride, range_step. rewrite map_map.
  rewrite (nth_indep _ 0 (nth (0 * s) l 0)) by (rewrite map_length, seq_length; exact H).
  rewrite (map_nth (fun k => nth (k * s) l 0)). rewrite seq_nth by exact H. reflexivity.
Qed.

Lemma nth_slice a b l j : (j < b - a)%nat -> nth j (slice a b l) 0 = nth (a + j) l 0.
Proof.
  intros H. unfold slice.
  assert (E : nth (a + j) l 0 = nth j (skipn a l) 0).
  { clear. revert l. induction a as [|a IH]; intros l; [reflexivity|].
    destruct l; cbn; [destruct j; reflexivity | apply IH]. }
  rewrite E. generalize (skipn a l) as l'. intros l'. revert H. generalize (b - a)%nat as n. clear.
  revert j. induction l' as [|x l' IH]; intros j n H; [now rewrite firstn_nil|].
  destruct n as [|n]; [lia|]. destruct j as [|j]; [reflexivity|]. cbn. apply IH. lia.
Qed.

Lemma slice_length_min {A} a b (l : list A) : length (slice a b l) = Nat.min (b - a) (length l - a).
Proof. unfold slice. now rewrite firstn_length, skipn_length. Qed.

(** Which buffer distances are looked at: those inside of a block of [q] buffers. *)
Lemma timediffs_in q s time d : (0 < q)%nat -> (0 < s)%nat ->
  In d (flat_map (fun a => udiffs 64 (stride s (slice a (a + q * s) time))) (range_step (length time) (q * s)))
  <-> exists b, ((b + 1) * s < length time)%nat /\ ((b + 1) mod q <> 0)%nat
      /\ d = (nth ((b + 1) * s) time 0 - nth (b * s) time 0) mod 2 ^ 64.
Proof.
  intros Hq Hs. rewrite in_flat_map. split.
  - intros (a & Ha & Hd). apply range_in in Ha; [|nia]. destruct Ha as (k & -> & Hk).
    apply udiffs_in in Hd. destruct Hd as (j & Hj & ->).
    rewrite stride_length, ceil_div_lt, slice_length_min in Hj by lia.
    assert (Hj1 : (S j < q)%nat) by nia.
    exists (k * q + j)%nat. split; [nia|]. split.
    + replace (k * q + j + 1)%nat with (S j + k * q)%nat by lia. rewrite Nat.mod_add by lia.
      rewrite Nat.mod_small by lia. lia.
    + rewrite !stride_nth by (rewrite ceil_div_lt, slice_length_min by lia; nia).
      rewrite !nth_slice by nia. do 2 f_equal; f_equal; nia.
  - intros (b & Hb & Hm & ->).
    pose proof (Nat.div_mod (b + 1) q ltac:(lia)) as E. set (k := ((b + 1) / q)%nat) in *.
    set (i := ((b + 1) mod q)%nat) in *. assert (i < q)%nat by (apply Nat.mod_upper_bound; lia).
    exists (k * (q * s))%nat. split; [apply range_in; [nia|]; exists k; split; [reflexivity | nia]|].
    apply udiffs_in. exists (i - 1)%nat.
    assert (Hlen : (S (i - 1) < length (stride s (slice (k * (q * s)) (k * (q * s) + q * s) time)))%nat).
    { rewrite stride_length, ceil_div_lt, slice_length_min by lia. nia. }
    split; [exact Hlen|]. rewrite stride_length in Hlen.
    rewrite !stride_nth by lia. rewrite !nth_slice by nia. do 2 f_equal; f_equal; nia.
Qed.

Lemma qset_nil l : qset l = [] <-> l = [].
Proof.
  split; [|intros ->; reflexivity]. induction l as [|x l IH]; [reflexivity|]. cbn.
  destruct (existsb (Qeq_bool x) l) eqn:E; [|discriminate]. intros H. rewrite (IH H) in E. discriminate.
Qed.

Lemma qset_one l e :
  (match qset l with [] => false | [d] => Qeq_bool d e | _ => false end = true)
  <-> l <> [] /\ forall x, In x l -> (x == e)%Q.
Proof.
  induction l as [|x l IH]; [cbn; split; [discriminate | tauto]|]. cbn [qset].
  destruct (existsb (Qeq_bool x) l) eqn:E.
  - rewrite IH. apply existsb_exists in E. destruct E as (y & Hy & Exy). apply Qeq_bool_eq in Exy. split.
    + intros [_ H]. split; [discriminate|]. intros z [<-|Hz]; [rewrite Exy|]; auto.
    + intros [_ H]. split; [intros ->; destruct Hy|]. intros z Hz. apply H. now right.
  - destruct (qset l) as [|d ds] eqn:Q.
    + apply (proj1 (qset_nil l)) in Q. subst l. rewrite Qeq_bool_iff. split.
      * intros H. split; [discriminate|]. intros z [<-|[]]. exact H.
      * intros [_ H]. apply H. now left.
    + split; [discriminate|]. intros [_ H]. exfalso.
      assert (C : existsb (Qeq_bool x) l = true).
      { destruct l as [|y l]; [discriminate|]. cbn. apply orb_true_iff. left. apply Qeq_bool_iff.
        rewrite (H x), (H y) by (cbn; auto). reflexivity. }
      congruence.
Qed.

(** Rounding to an even number. *)
Lemma qround_even q n : Z.even n = true -> (qround q = n <-> Qabs (q - inject_Z n) <= 1 # 2)%Q.
Proof.
  intros He. pose proof (Qfloor_le q) as F1. pose proof (Qlt_floor q) as F2.
  unfold qround. set (f := Qfloor q) in *. rewrite inject_Z_plus in F2. change (inject_Z 1) with 1%Q in F2.
  assert (P : forall a b, (inject_Z (a - b) == inject_Z a - inject_Z b)%Q).
  { intros a b. unfold Z.sub. rewrite inject_Z_plus. rewrite inject_Z_opp. reflexivity. }
  rewrite Qabs_Qle_condition.
  destruct (Qle_bool (1 # 2) (q - inject_Z f)) eqn:A; [apply Qle_bool_iff in A|].
  - destruct (Qle_bool (q - inject_Z f) (1 # 2)) eqn:B; [apply Qle_bool_iff in B|].
    + assert (Eq : (q == inject_Z f + (1 # 2))%Q) by lra.
      destruct (Z.even f) eqn:Ef.
      * split; [intros <-; lra|]. intros [H1 H2].
        assert (n = f \/ n = f + 1) as [->| ->]; [|reflexivity|].
        { assert (inject_Z f <= inject_Z n /\ inject_Z n <= inject_Z (f + 1))%Q as [X1 X2].
          { rewrite inject_Z_plus. change (inject_Z 1) with 1%Q. lra. }
          rewrite <- Zle_Qle in X1, X2. lia. }
        rewrite Z.even_add, Ef in He. discriminate.
      * split; [intros <-; rewrite inject_Z_plus; change (inject_Z 1) with 1%Q; lra|]. intros [H1 H2].
        assert (n = f \/ n = f + 1) as [->| ->]; [|congruence|reflexivity].
        { assert (inject_Z f <= inject_Z n /\ inject_Z n <= inject_Z (f + 1))%Q as [X1 X2].
          { rewrite inject_Z_plus. change (inject_Z 1) with 1%Q. lra. }
          rewrite <- Zle_Qle in X1, X2. lia. }
    + assert (B' : ~ (q - inject_Z f <= 1 # 2)%Q) by (intros C; apply Qle_bool_iff in C; congruence).
      apply Qnot_le_lt in B'. split; [intros <-; rewrite inject_Z_plus; change (inject_Z 1) with 1%Q; lra|].
      intros [H1 H2].
      assert (inject_Z f < inject_Z n /\ inject_Z n < inject_Z (f + 2))%Q as [X1 X2].
      { rewrite inject_Z_plus. change (inject_Z 2) with 2%Q. lra. }
      rewrite <- Zlt_Qlt in X1, X2. lia.
  - assert (A' : ~ (1 # 2 <= q - inject_Z f)%Q) by (intros C; apply Qle_bool_iff in C; congruence).
    apply Qnot_le_lt in A'. split; [intros <-; lra|]. intros [H1 H2].
    assert (inject_Z (f - 1) < inject_Z n /\ inject_Z n < inject_Z (f + 1))%Q as [X1 X2].
    { rewrite P, inject_Z_plus. change (inject_Z 1) with 1%Q. lra. }
    rewrite <- Zlt_Qlt in X1, X2. lia.
Qed.

Lemma round6_ok x : (round6 x == round6 ((1 # 10) / inject_Z samples_per_buffer)
                     <-> Qabs (x * 1000000 - 10) <= 1 # 2)%Q.
Proof.
  rewrite <- (qround_even (x * 1000000) 10 eq_refl).
  assert (E : (round6 ((1 # 10) / inject_Z samples_per_buffer) == 10 / 1000000)%Q) by reflexivity.
  rewrite E. unfold round6. change (inject_Z (10 ^ 6)) with 1000000%Q.
  set (k := qround (x * 1000000)). split.
  - intros H. assert (inject_Z k == inject_Z 10)%Q as X.
    { assert (inject_Z k == (inject_Z k / 1000000) * 1000000)%Q by field.
      rewrite H0, H. reflexivity. }
    exact (proj1 (inject_Z_injective k 10) X).
  - intros ->. reflexivity.
Qed.

Lemma qround_compat a b : (a == b)%Q -> qround a = qround b.
Proof.
  intros E. unfold qround. rewrite (Qfloor_comp _ _ E).
  assert (E1 : Qle_bool (1 # 2) (a - inject_Z (Qfloor b)) = Qle_bool (1 # 2) (b - inject_Z (Qfloor b))).
  { apply eq_true_iff_eq. rewrite !Qle_bool_iff, E. reflexivity. }
  assert (E2 : Qle_bool (a - inject_Z (Qfloor b)) (1 # 2) = Qle_bool (b - inject_Z (Qfloor b)) (1 # 2)).
  { apply eq_true_iff_eq. rewrite !Qle_bool_iff, E. reflexivity. }
  now rewrite E1, E2.
Qed.

Lemma check_spec r :
  r_max_elements r = 4000000 ->
  let time := f_time (r_file r) in
  (Z.of_nat (length time) <= 10000 -> check_timediffs r = Err IndexError)
  /\ (10000 < Z.of_nat (length time) ->
      exists b, check_timediffs r = Ok b
      /\ (b = true <-> forall k, (Z.of_nat k + 1) * 10000 < Z.of_nat (length time) ->
                                 (Z.of_nat k + 1) mod 400 <> 0 -> buffer_ok (c_time (r_cal r)) time k)).
Proof.
  intros Hmax time. unfold check_timediffs. rewrite Hmax. fold time.
  change (Z.to_nat samples_per_buffer) with (Z.to_nat 10000). set (s := Z.to_nat 10000).
  set (q := Z.to_nat 400).
  assert (Eqs : Z.to_nat 4000000 = (q * s)%nat).
  { unfold q, s. rewrite <- Z2Nat.inj_mul by lia. reflexivity. }
  rewrite Eqs. assert (Hs : (0 < s)%nat) by (unfold s; lia). assert (Hq : (1 < q)%nat) by (unfold q; lia).
  assert (Zs : Z.of_nat s = 10000) by (unfold s; lia). assert (Zq : Z.of_nat q = 400) by (unfold q; lia).
  clearbody s q. unfold data_timediffs.
  set (D := flat_map _ _).
  assert (HD : forall d, In d D <-> exists b, ((b + 1) * s < length time)%nat /\ ((b + 1) mod q <> 0)%nat
      /\ d = (nth ((b + 1) * s) time 0 - nth (b * s) time 0) mod 2 ^ 64).
  { intros d. apply timediffs_in; lia. }
  clearbody D. set (g := fun d : Z => round6 (raw_to_si (c_time (r_cal r)) d / inject_Z (Z.of_nat s))).
  split.
  - intros HL. assert (D = []) as ->; [|reflexivity].
    destruct D as [|d D]; [reflexivity|]. exfalso.
    destruct (proj1 (HD d) (or_introl eq_refl)) as (b & Hb & _). nia.
  - intros HL. assert (N : map g D <> []).
    { assert (X : In ((nth ((0 + 1) * s) time 0 - nth (0 * s) time 0) mod 2 ^ 64) D).
      { apply HD. exists 0%nat. split; [nia|]. split; [rewrite Nat.mod_small by lia; lia | reflexivity]. }
      destruct D; [destruct X | discriminate]. }
    set (e := round6 ((1 # 10) / inject_Z samples_per_buffer)).
    exists (match qset (map g D) with [] => false | [d] => Qeq_bool d e | _ => false end).
    split.
    { destruct (qset (map g D)) as [|d [|d' ds]] eqn:E; try reflexivity. apply (proj1 (qset_nil _)) in E. congruence. }
    rewrite qset_one. split.
    + intros [_ H] k Hk Hmod. unfold buffer_ok.
      replace (Z.to_nat 10000) with s by lia.
      set (d := (nth ((k + 1) * s) time 0 - nth (k * s) time 0) mod 2 ^ 64).
      assert (Hin : In d D).
      { apply HD. exists k. split; [nia|]. split; [|reflexivity].
        intros C. apply Hmod. rewrite <- Zq. replace (Z.of_nat k + 1) with (Z.of_nat (k + 1)) by lia.
        rewrite <- Nat2Z.inj_mod, C. reflexivity. }
      pose proof (H (g d) (in_map g _ _ Hin)) as R. unfold g, e in R. rewrite Zs in R.
      apply (proj1 (round6_ok _)) in R. exact R.
    + intros H. split; [exact N|]. intros x Hx. apply in_map_iff in Hx. destruct Hx as (d & <- & Hd).
      apply HD in Hd. destruct Hd as (k & Hk & Hmod & ->).
      unfold g, e. apply (proj2 (round6_ok _)). rewrite Zs.
      assert (B : buffer_ok (c_time (r_cal r)) time k).
      { apply H; [nia|]. rewrite <- Zq. replace (Z.of_nat k + 1) with (Z.of_nat (k + 1)) by lia.
        rewrite <- Nat2Z.inj_mod. lia. }
      unfold buffer_ok in B. replace (Z.to_nat 10000) with s in B by lia. exact B.
Qed.

(* ------------------------------------------------------------------ sample rate *)

Lemma equi_last t0 d n : (0 < n)%nat -> last (equidistant t0 d n) 0 = t0 + d * (Z.of_nat n - 1).
Proof.
  intros H. destruct n as [|n]; [lia|]. unfold equidistant. rewrite seq_S, map_app. cbn [map].
  rewrite last_last. rewrite Nat.add_0_l. do 2 f_equal. lia.
Qed.

Lemma refresh_equidistant c t0 d n s :
  (2 <= n)%nat -> 0 < d -> (0 < gain (c_time c))%Q -> (offset (c_time c) == 0)%Q ->
  exists s', refresh c (equidistant t0 d n) s = Ok s'
    /\ st_rate s' = Z.max (qround (1 / (inject_Z d * gain (c_time c)))) 1
    /\ (st_interval_s s' == inject_Z (Z.of_nat n - 1) / inject_Z (Z.of_nat n) * (inject_Z d * gain (c_time c)))%Q.
Proof.
  intros Hn Hd Hg Ho.
  assert (E : refresh c (equidistant t0 d n) s =
    let m := Z.of_nat (length (equidistant t0 d n)) in
    let dr := last (equidistant t0 d n) 0 - t0 in
    if (0 <? m) && (0 <? dr) then
      let ds := raw_to_si (c_time c) dr in
      if Qeq_bool ds 0 then Err ZeroDivisionError else
      let iv := (ds / inject_Z m)%Q in
      Ok (mkStats (Z.max (qround (inject_Z (m - 1) / ds)) 1) (qround (inject_Z (10 ^ 9) * iv)) iv)
    else Ok s).
  { unfold refresh. destruct n as [|n]; [lia|]. unfold equidistant. cbn [seq map].
    change (Z.of_nat 0) with 0. rewrite Z.mul_0_r, Z.add_0_r. reflexivity. }
  rewrite E. cbn zeta. rewrite equi_last by lia.
  assert (L : length (equidistant t0 d n) = n) by (unfold equidistant; now rewrite map_length, seq_length).
  rewrite L. replace (t0 + d * (Z.of_nat n - 1) - t0) with (d * (Z.of_nat n - 1)) by lia.
  destruct (Z.ltb_spec 0 (Z.of_nat n)); [|lia].
  destruct (Z.ltb_spec 0 (d * (Z.of_nat n - 1))); [|nia]. cbn [andb].
  set (N := Z.of_nat n) in *. unfold raw_to_si.
  assert (Dpos : (0 < inject_Z d)%Q) by (change 0%Q with (inject_Z 0); rewrite <- Zlt_Qlt; lia).
  assert (Npos : (0 < inject_Z (N - 1))%Q) by (change 0%Q with (inject_Z 0); rewrite <- Zlt_Qlt; lia).
  assert (N0 : (0 < inject_Z N)%Q) by (change 0%Q with (inject_Z 0); rewrite <- Zlt_Qlt; lia).
  assert (DG : (0 < inject_Z d * gain (c_time c))%Q) by now apply Qmult_lt_0_compat.
  assert (Eds : (inject_Z (d * (N - 1)) * gain (c_time c) + offset (c_time c)
                 == inject_Z (N - 1) * (inject_Z d * gain (c_time c)))%Q).
  { rewrite Ho, inject_Z_mult. ring. }
  assert (P : (0 < inject_Z (N - 1) * (inject_Z d * gain (c_time c)))%Q) by now apply Qmult_lt_0_compat.
  destruct (Qeq_bool _ 0) eqn:Z0; [apply Qeq_bool_eq in Z0; lra|].
  eexists; split; [reflexivity|]. cbn [st_rate st_interval_s]. split.
  - f_equal. apply qround_compat. rewrite Eds. field. repeat split; lra.
  - rewrite Eds. field. lra.
Qed.

(* ------------------------------------------------------------------ voltage step *)

Lemma udiffs_adjacent P l : adjacent P l -> forall bits,
  Forall (fun d => exists a b, P a b /\ d = (b - a) mod 2 ^ bits) (udiffs bits l).
Proof.
  induction l as [|a l IH]; intros H bits; [constructor|].
  destruct l as [|b l]; [constructor|]. cbn [udiffs]. cbn [adjacent] in H. destruct H as [Hab H].
  constructor; [eauto | apply IH; exact H].
Qed.

Lemma fold_zmin l : forall x, In (fold_left Z.min l x) (x :: l) /\ forall y, In y (x :: l) -> fold_left Z.min l x <= y.
Proof.
  induction l as [|a l IH]; intros x; cbn [fold_left].
  - split; [now left|]. intros y [<-|[]]. lia.
  - destruct (IH (Z.min x a)) as [H1 H2]. split.
    + destruct H1 as [H1|H1]; [|now right; right]. rewrite <- H1.
      destruct (Z.min_spec x a) as [[_ ->]|[_ ->]]; [now left | now right; left].
    + intros y [<-|[<-|Hy]]; [pose proof (H2 _ (or_introl eq_refl)); lia
        | pose proof (H2 _ (or_introl eq_refl)); lia | apply H2; now right].
Qed.

(** Every neighbouring difference is a plateau, an upward step of [s], or a fall that does not wrap
    to less than [s]; at least one upward step. *)
Lemma voltage_step_raw r s :
  let dsv := firstn 2000 (f_voltage (r_file r)) in
  get_config (r_file r) = Ok [] -> 0 < s < 2 ^ 32 ->
  adjacent (fun a b => b = a \/ b = a + s \/ a - (2 ^ 32 - s) <= b < a) dsv ->
  (exists j, (S j < length dsv)%nat /\ nth (S j) dsv 0 = nth j dsv 0 + s) ->
  get_voltage_step r = Ok (Some ((1 # 1000) * inject_Z s)%Q).
Proof.
  intros dsv Hc Hs Hadj (j & Hj & Hstep). unfold get_voltage_step. rewrite Hc. cbn [bind assoc find].
  fold dsv. change 32 with 32 in *.
  set (ds := filter (fun d => 0 <? d) (udiffs 32 dsv)).
  assert (Hin : In s ds).
  { apply filter_In. split; [|destruct (Z.ltb_spec 0 s); [reflexivity | lia]].
    apply udiffs_in. exists j. split; [exact Hj|]. rewrite Hstep. rewrite Z.mod_small; lia. }
  assert (Hall : forall d, In d ds -> s <= d).
  { intros d Hd. apply filter_In in Hd. destruct Hd as [Hd Hpos].
    pose proof (udiffs_adjacent _ _ Hadj 32) as F. rewrite Forall_forall in F.
    destruct (F d Hd) as (a & b & Hab & ->). destruct (Z.ltb_spec 0 ((b - a) mod 2 ^ 32)); [|discriminate].
    destruct Hab as [-> | [-> | Hab]].
    - rewrite Z.sub_diag in *. change (0 mod 2 ^ 32) with 0 in *. lia.
    - rewrite Z.mod_small; lia.
    - rewrite <- (Z.mod_unique (b - a) (2 ^ 32) (-1) (b - a + 2 ^ 32)) by lia. lia. }
  destruct ds as [|x ds']; [destruct Hin|]. cbn [zmin_list].
  destruct (fold_zmin ds' x) as [M1 M2].
  assert (fold_left Z.min ds' x = s) as ->; [|reflexivity].
  apply Z.le_antisymm; [apply M2; exact Hin | apply Hall; exact M1].
Qed.

(* ------------------------------------------------------------------ means of short and uneven data *)

Lemma blocks_short {A} m (l : list A) : (0 < m)%nat -> (length l <= m)%nat -> l <> [] -> blocks m l = [l].
Proof.
  intros Hm HL Hl. unfold blocks, range_step.
  assert (E : ceil_div (length l) m = 1%nat).
  { assert (0 < length l)%nat by (destruct l; cbn; [congruence | lia]).
    unfold ceil_div. symmetry. apply (Nat.div_unique _ _ _ (length l - 1)); lia. }
  rewrite E. cbn [seq map Nat.mul Nat.add]. now rewrite slice_full.
Qed.

Lemma qmean_single x : (qmean [x] == x)%Q.
Proof. unfold qmean, qsum. cbn [fold_right length]. change (inject_Z (Z.of_nat 1)) with 1%Q. field. Qed.

Lemma statistics_mean_short m c data st :
  (length data <= m)%nat -> dset_statistics m c data = Some st ->
  (s_mean st == si_sum c data / inject_Z (Z.of_nat (length data)))%Q.
Proof.
  intros HL H. destruct (Nat.eq_dec m 0) as [->|Hm].
  { destruct data; [discriminate H | cbn in HL; lia]. }
  destruct data as [|x data']; [rewrite statistics_empty in H by lia; discriminate|].
  set (data := x :: data') in *. assert (Hd : data <> []) by discriminate.
  rewrite (statistics_some m c data) in H by (lia || exact Hd). injection H as <-. cbn [s_mean].
  rewrite blocks_short by (lia || assumption). cbn [map]. rewrite qmean_single.
  unfold qmean. rewrite map_length, si_sum_qsum. reflexivity.
Qed.

Lemma si_sum_zeros c n rest : (offset c == 0)%Q -> (si_sum c (repeat 0%Z n ++ rest) == si_sum c rest)%Q.
Proof.
  intros H. induction n as [|n IH]; [reflexivity|]. cbn [repeat app si_sum]. rewrite IH, H.
  change (inject_Z 0) with 0%Q. ring.
Qed.

Lemma statistics_outlier N : (0 < N)%nat ->
  exists st, dset_statistics N (mkPair 1 0) (repeat 0 N ++ [1]) = Some st
    /\ (s_mean st == 1 # 2)%Q /\ (si_sum (mkPair 1 0) (repeat 0%Z N ++ [1%Z]) == 1)%Q.
Proof.
  intros HN.
  assert (Hd : repeat 0 N ++ [1] <> []) by (destruct N; discriminate).
  rewrite (statistics_some N _ _ HN Hd). eexists. split; [reflexivity|]. cbn [s_mean].
  rewrite blocks_cons by (assumption || apply repeat_length).
  rewrite blocks_short by (assumption || discriminate || (cbn; lia)). cbn [map].
  split; [|rewrite si_sum_zeros by reflexivity; reflexivity].
  set (z := qmean (map (raw_to_si (mkPair 1 0)) (repeat 0 N))).
  assert (Hz : (z == 0)%Q).
  { unfold z, qmean. rewrite <- si_sum_qsum, <- (app_nil_r (repeat 0 N)), si_sum_zeros by reflexivity.
    cbn [si_sum]. unfold Qdiv. apply Qmult_0_l. }
  unfold qmean at 1. cbn [qsum fold_right length map]. rewrite Hz. reflexivity.
Qed.

(* ------------------------------------------------------------------ a missed time jump *)

Definition jump_time (k : nat) : Z :=
  10000 * Z.of_nat k + (if Z.of_nat k <? 4000000 then 0 else 1000000000).

Lemma nth_tabulate (g : nat -> Z) n j : (j < n)%nat -> nth j (map g (seq 0 n)) 0 = g j.
Proof.
  intros H. rewrite (nth_indep _ 0 (g 0%nat)) by (now rewrite map_length, seq_length).
  rewrite map_nth, seq_nth by exact H. reflexivity.
Qed.

Lemma raw_time d : (raw_to_si (c_time series_default) d / 10000 * 1000000 - 10
                    == inject_Z (d - 100000000) / 10000000)%Q.
Proof.
  unfold raw_to_si, series_default, c_time, gain, offset. unfold Z.sub. rewrite inject_Z_plus.
  change (inject_Z (- (100000000))) with (-100000000)%Q. field.
Qed.

Lemma check_misses_jump : exists time k,
  (Z.of_nat k + 1) * 10000 < Z.of_nat (length time)
  /\ ~ buffer_ok (c_time series_default) time k
  /\ check_timediffs (simple_reader series_default time [] []) = Ok true.
Proof.
  set (n := Z.to_nat 4020000). set (time := map jump_time (seq 0 n)).
  assert (Ln : Z.of_nat n = 4020000) by (unfold n; lia).
  assert (Lt : length time = n) by (unfold time; now rewrite map_length, seq_length).
  assert (Nt : forall j, (j < n)%nat -> nth j time 0 = jump_time j) by (intros; now apply nth_tabulate).
  clearbody n time. exists time, (Z.to_nat 399). rewrite Lt. split; [lia|].
  set (s := Z.to_nat 10000). assert (Zs : Z.of_nat s = 10000) by (unfold s; lia).
  split.
  - unfold buffer_ok. fold s.
    assert (Zk : Z.of_nat (Z.to_nat 399) = 399) by lia. set (k := Z.to_nat 399) in *. clearbody k s.
    rewrite !Nt by nia. unfold jump_time.
    replace (Z.of_nat ((k + 1) * s)) with 4000000 by nia. replace (Z.of_nat (k * s)) with 3990000 by nia.
    intros H. rewrite raw_time in H. revert H. vm_compute. intros H; apply H; reflexivity.
  - set (r := simple_reader series_default time [] []).
    destruct (check_spec r eq_refl) as [_ H].
    change (f_time (r_file r)) with time in H. change (r_cal r) with series_default in H.
    destruct H as (b & Hb & Hiff); [lia|]. rewrite Hb. f_equal. apply Hiff.
    intros k Hk Hmod. unfold buffer_ok. fold s. clearbody s. rewrite !Nt by nia. unfold jump_time.
    replace (Z.of_nat ((k + 1) * s)) with ((Z.of_nat k + 1) * 10000) by nia.
    replace (Z.of_nat (k * s)) with (Z.of_nat k * 10000) by nia.
    rewrite raw_time.
    match goal with |- context [?x mod 2 ^ 64] => assert (E : x = 100000000) end.
    { destruct (Z.ltb_spec ((Z.of_nat k + 1) * 10000) 4000000), (Z.ltb_spec (Z.of_nat k * 10000) 4000000); try lia.
      exfalso. apply Hmod. assert (Z.of_nat k + 1 = 400) as -> by lia. reflexivity. }
    rewrite E. vm_compute. discriminate.
Qed.
