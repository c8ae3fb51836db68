(** Proofs about BaudModel.v. *)
From Coq Require Import QArith Qround Qabs Lqa Lia.
From Coq Require Import String.
From Verif Require Import PyBase UartModel UartSpec UartProofs UartInitProofs PropsUart FileSiProofs FileReadProofs RepModel BaudModel BaudSpec.
From Coq Require Import List.
Import ListNotations.
Open Scope Z_scope.

Lemma f2_len {A B} {R : A -> B -> Prop} {l l'} : Forall2 R l l' -> length l = length l'.
Proof. induction 1; cbn; congruence. Qed.

(** * Sorting and the percentile *)

Fixpoint asc (l : list Q) : Prop :=
  match l with [] => True | a :: r => Forall (fun b => a <= b)%Q r /\ asc r end.

Lemma qinsert_forall (P : Q -> Prop) x l : P x -> Forall P l -> Forall P (qinsert x l).
Proof.
  intros Hx H. induction H as [|a r Ha Hr IH]; cbn [qinsert]; [auto|].
  destruct (Qle_bool x a); auto.
Qed.

Lemma qsort_forall (P : Q -> Prop) l : Forall P l -> Forall P (qsort l).
Proof. induction 1; cbn [qsort fold_right]; [constructor|]. apply qinsert_forall; auto. Qed.

Lemma qinsert_asc x l : asc l -> asc (qinsert x l).
Proof.
  induction l as [|a r IH]; intros H; cbn [qinsert]; [cbn; auto|].
  destruct H as [H1 H2]. destruct (Qle_bool x a) eqn:E.
  - apply Qle_bool_iff in E. cbn [asc]. split; [|split; auto]. constructor; [exact E|].
    eapply Forall_impl; [|exact H1]. cbn. intros b Hb. lra.
  - apply Qle_bool_false in E. cbn [asc]. split; [|auto]. apply qinsert_forall; [lra|exact H1].
Qed.

Lemma qsort_asc l : asc (qsort l).
Proof. induction l as [|x l IH]; cbn; [exact I|]. apply qinsert_asc, IH. Qed.

Lemma qinsert_filter (f : Q -> bool) x l :
  length (filter f (qinsert x l)) = length (filter f (x :: l)).
Proof.
  induction l as [|a r IH]; cbn [qinsert]; [reflexivity|].
  destruct (Qle_bool x a); [reflexivity|]. cbn [filter] in *. destruct (f a), (f x); cbn [length] in *; lia.
Qed.

Lemma qsort_filter (f : Q -> bool) l : length (filter f (qsort l)) = length (filter f l).
Proof.
  induction l as [|x l IH]; [reflexivity|]. cbn [qsort fold_right]. fold (qsort l).
  rewrite qinsert_filter. cbn [filter]. destruct (f x); cbn [length]; lia.
Qed.

Lemma filter_all {A} (f : A -> bool) l : (forall x, f x = true) -> filter f l = l.
Proof. intros H. induction l as [|a l IH]; cbn; [reflexivity|]. rewrite H, IH. reflexivity. Qed.

Lemma qsort_length l : length (qsort l) = length l.
Proof.
  rewrite <- (filter_all (fun _ => true) (qsort l)), <- (filter_all (fun _ => true) l) by reflexivity.
  rewrite qsort_filter. now rewrite !filter_all.
Qed.

Lemma asc_nth_le s B i : asc s -> (i < length (filter (fun d => Qle_bool d B) s))%nat ->
  (nth i s 0 <= B)%Q.
Proof.
  revert i. induction s as [|a r IH]; intros i HS Hi; [cbn in Hi; lia|]. destruct HS as [H1 H2].
  cbn [filter] in Hi. destruct (Qle_bool a B) eqn:E.
  - apply Qle_bool_iff in E. destruct i as [|i]; [exact E|]. cbn [nth]. apply IH; [exact H2|].
    cbn [length] in Hi. lia.
  - exfalso. apply Qle_bool_false in E.
    assert (HN : filter (fun d => Qle_bool d B) r = []).
    { clear -H1 E. induction H1 as [|b r Hb _ IH]; [reflexivity|]. cbn [filter].
      replace (Qle_bool b B) with false; [exact IH|]. symmetry. apply Qle_bool_false. lra. }
    rewrite HN in Hi. cbn in Hi. lia.
Qed.

Lemma asc_nth_ge s A i : asc s -> (length (filter (fun d => negb (Qle_bool A d)) s) <= i)%nat ->
  (i < length s)%nat -> (A <= nth i s 0)%Q.
Proof.
  revert i. induction s as [|a r IH]; intros i HS Hi HL; [cbn in HL; lia|]. destruct HS as [H1 H2].
  cbn [filter] in Hi. destruct (Qle_bool A a) eqn:E; cbn [negb] in Hi.
  - apply Qle_bool_iff in E. destruct i as [|i]; [exact E|]. cbn [nth].
    rewrite Forall_forall in H1. cbn [length] in HL.
    assert (G := H1 (nth i r 0%Q) ltac:(apply nth_In; lia)). lra.
  - cbn [length] in Hi, HL. destruct i as [|i]; [lia|]. cbn [nth]. apply IH; [exact H2|lia|lia].
Qed.

(** Where the values are that the percentile looks at. *)
Lemma percentile_small l A B g m :
  g = length (filter (fun d => negb (Qle_bool A d)) l) ->
  m = length (filter (fun d => Qle_bool d B) l) ->
  (g < m)%nat -> (10 * g <= length l - 1)%nat -> (length l - 1 <= 10 * (m - 1))%nat ->
  exists p, percentile10 l = Ok p /\ (A <= p)%Q /\ (p <= B)%Q.
Proof.
  intros Hg Hm H1 HL1 HL. unfold percentile10.
  assert (HS : length (qsort l) = length l) by apply qsort_length.
  assert (HC : length (filter (fun d => Qle_bool d B) (qsort l)) = m) by (rewrite qsort_filter; auto).
  assert (HG : length (filter (fun d => negb (Qle_bool A d)) (qsort l)) = g) by (rewrite qsort_filter; auto).
  pose proof (qsort_asc l) as HO.
  assert (Hml : (m <= length l)%nat).
  { rewrite Hm. clear. induction l as [|a l IH]; cbn; [lia|]. destruct (Qle_bool a B); cbn; lia. }
  destruct (qsort l) as [|q0 s0] eqn:ES; [cbn in HS; lia|].
  set (s := q0 :: s0) in *. clearbody s.
  set (top := (length s - 1)%nat). set (lo := (top / 10)%nat).
  assert (Htop : (top <= 10 * (m - 1))%nat) by (unfold top; lia).
  assert (Hdiv : (top = 10 * lo + top mod 10)%nat) by (apply Nat.div_mod; lia).
  assert (Hmod : (top mod 10 < 10)%nat) by (apply Nat.mod_upper_bound; lia).
  eexists. split; [reflexivity|].
  assert (Ha : (A <= nth lo s 0 /\ nth lo s 0 <= B)%Q).
  { split; [apply asc_nth_ge; [exact HO|rewrite HG; unfold top in *; lia|unfold top in *; lia]|].
    apply asc_nth_le; [exact HO|rewrite HC; lia]. }
  destruct (Nat.eq_dec (top mod 10) 0) as [E|E].
  - rewrite E. change (Z.of_nat 0 # 10) with (0 # 10).
    set (b := nth (Nat.min (lo + 1) top) s 0%Q). clearbody b.
    assert (Z0 : (0 # 10 == 0)%Q) by reflexivity. rewrite Z0. split; lra.
  - assert (Hb : (A <= nth (Nat.min (lo + 1) top) s 0 /\ nth (Nat.min (lo + 1) top) s 0 <= B)%Q).
    { split; [apply asc_nth_ge; [exact HO|rewrite HG; unfold top in *; lia|unfold top in *; lia]|].
      apply asc_nth_le; [exact HO|rewrite HC; lia]. }
    set (a := nth lo s 0%Q) in *. set (b := nth (Nat.min (lo + 1) top) s 0%Q) in *.
    set (w := (Z.of_nat (top mod 10) # 10)%Q).
    assert (Hw : (0 <= w /\ w <= 1)%Q).
    { unfold w, Qle; cbn [Qnum Qden]. split; lia. }
    clearbody a b w.
    assert (Heq : (a + (b - a) * w == (1 - w) * a + w * b)%Q) by ring.
    rewrite Heq. split; nra.
Qed.

(** * Detection *)

Definition step_class (T eps d : Q) : Prop :=
  ((0 <= d /\ d <= (1 # 2) * T) \/ ((1 - eps) * T <= d /\ d <= (1 + eps) * T) \/ (3 # 2) * T <= d)%Q.
Definition single (T eps d : Q) : bool :=
  Qle_bool ((1 - eps) * T) d && Qle_bool d ((1 + eps) * T).

Lemma filter_agree {A} (P : A -> Prop) (f g : A -> bool) l :
  Forall P l -> (forall x, P x -> f x = g x) -> filter f l = filter g l.
Proof.
  intros H Hfg. induction H as [|a l Ha _ IH]; [reflexivity|]. cbn. rewrite (Hfg a Ha), IH. reflexivity.
Qed.

Lemma filter_filter {A} (f g : A -> bool) l :
  filter f (filter g l) = filter (fun x => g x && f x) l.
Proof.
  induction l as [|a l IH]; [reflexivity|]. cbn. destruct (g a); cbn; [|exact IH].
  destruct (f a); rewrite IH; reflexivity.
Qed.

Lemma count_split {A} (P : A -> Prop) (f g h : A -> bool) l :
  Forall P l -> (forall x, P x -> f x = xorb (g x) (h x) /\ g x && h x = false) ->
  length (filter f l) = (length (filter g l) + length (filter h l))%nat.
Proof.
  intros H Hx. induction H as [|a l Ha _ IH]; [reflexivity|]. cbn.
  destruct (Hx a Ha) as [E1 E2]. rewrite E1. destruct (g a), (h a); cbn in *; try discriminate; lia.
Qed.

Lemma detect_steps T eps ds :
  (0 < T)%Q -> (0 <= eps)%Q -> (eps <= 12 # 100)%Q ->
  Forall (step_class T eps) ds ->
  let n := length (filter (fun d => negb (Qle_bool d 0)) ds) in
  let g := length (filter (fun d => negb (Qle_bool d 0) && Qle_bool d ((1 # 2) * T)) ds) in
  let m := length (filter (single T eps) ds) in
  (1 <= m)%nat -> (10 * g <= n - 1)%nat -> (n - 1 <= 10 * (g + m - 1))%nat ->
  exists p, percentile10 (filter (fun d => negb (Qle_bool d 0)) ds) = Ok p /\
    filter (fun d => Qle_bool (near_lo * p) d && Qle_bool d (near_hi * p))%Q ds
    = filter (single T eps) ds.
Proof.
  intros HT He0 He HC n g m Hm HL1 HL.
  assert (HeT : (0 <= eps * T)%Q) by nra. assert (HeT2 : (eps * T <= (12 # 100) * T)%Q) by nra.
  set (z := (eps * T)%Q) in *.
  assert (Ez1 : ((1 - eps) * T == T - z)%Q) by (unfold z; ring).
  assert (Ez2 : ((1 + eps) * T == T + z)%Q) by (unfold z; ring).
  assert (Hs : forall d, single T eps d = true <-> (T - z <= d /\ d <= T + z)%Q).
  { intros d. unfold single. rewrite andb_true_iff, !Qle_bool_iff, Ez1, Ez2. reflexivity. }
  assert (HC' : Forall (fun d => (0 <= d /\ d <= (1 # 2) * T) \/ (T - z <= d /\ d <= T + z) \/ (3 # 2) * T <= d)%Q ds).
  { eapply Forall_impl; [|exact HC]. intros d. unfold step_class. rewrite Ez1, Ez2. auto. }
  clear HC. clearbody z. clear Ez1 Ez2 He0 He.
  destruct (percentile_small (filter (fun d => negb (Qle_bool d 0)) ds) (T - z) (T + z) g (g + m))
    as [p [Hp [P1 P2]]].
  - unfold g. f_equal. rewrite filter_filter. eapply filter_agree; [exact HC'|].
    intros d Hd. apply eq_true_iff_eq.
    rewrite !andb_true_iff, !negb_true_iff, !Qle_bool_false, Qle_bool_iff.
    destruct Hd as [H|[H|H]]; split; intros; split; lra.
  - unfold g, m. rewrite filter_filter. symmetry. apply (count_split _ _ _ _ _ HC'). intros d Hd.
    assert (HP : Qle_bool d 0 = true <-> (d <= 0)%Q) by apply Qle_bool_iff.
    assert (HG : Qle_bool d ((1 # 2) * T) = true <-> (d <= (1 # 2) * T)%Q) by apply Qle_bool_iff.
    assert (HB : Qle_bool d (T + z) = true <-> (d <= T + z)%Q) by apply Qle_bool_iff.
    specialize (Hs d).
    destruct (single T eps d), (Qle_bool d 0), (Qle_bool d ((1 # 2) * T)), (Qle_bool d (T + z)); cbn;
      split; try reflexivity; exfalso.
    all: repeat match goal with
      | H : true = true <-> _ |- _ => destruct H as [H _]; specialize (H eq_refl)
      | H : false = true <-> _ |- _ => destruct H as [_ H]
      end; destruct Hd as [Hd|[Hd|Hd]];
      solve [ lra | discriminate (HG ltac:(lra)) | discriminate (HP ltac:(lra))
            | discriminate (HB ltac:(lra)) | discriminate (Hs ltac:(lra)) | discriminate (Hs Hd) ].
  - lia.
  - exact HL1.
  - exact HL.
  - exists p. split; [exact Hp|]. eapply filter_agree; [exact HC'|]. intros d Hd.
    apply eq_true_iff_eq. rewrite Hs, andb_true_iff, !Qle_bool_iff. unfold near_lo, near_hi.
    destruct Hd as [H|[H|H]]; split; intros [G1 G2]; split; lra.
Qed.

Lemma time_steps_firstn n : forall ts, time_steps (firstn (S n) ts) = firstn n (time_steps ts).
Proof.
  induction n as [|n IH]; intros ts.
  - destruct ts as [|a [|b ts]]; reflexivity.
  - destruct ts as [|a [|b ts]]; [reflexivity..|].
    change (time_steps (firstn (S (S n)) (a :: b :: ts)))
      with ((b - a)%Q :: time_steps (firstn (S n) (b :: ts))).
    rewrite IH. reflexivity.
Qed.

Lemma timed_steps tick edges evs : timed tick edges evs ->
  Forall2 (fun d e => (d == e * tick)%Q) (time_steps (map fst edges)) (map e_steps evs).
Proof.
  induction 1 as [t v|t v t' v' d edges evs Hd H IH]; [constructor|].
  change (time_steps (map fst ((t, v) :: (t', v') :: edges)))
    with ((t' - t)%Q :: time_steps (map fst ((t', v') :: edges))).
  cbn [map e_steps]. constructor; [lra|exact IH].
Qed.

Lemma fst_seen inv edges : map fst (map (seen inv) edges) = map fst edges.
Proof. rewrite map_map. apply map_ext. intros [t v]. reflexivity. Qed.

Section Scaled.
Variable T : Q.
Hypothesis HT : (0 < T)%Q.
Definition scaled (d e : Q) : Prop := (d == e * T)%Q.

Lemma single_scaled eps d e : scaled d e -> single T eps d = one_bit eps e.
Proof.
  intros H. unfold scaled in H. unfold single, one_bit. apply eq_true_iff_eq.
  rewrite andb_true_iff, !Qle_bool_iff, Qabs_Qle_condition, H. clear H.
  split; intros [H1 H2]; split; nra.
Qed.

Lemma zero_scaled d e : scaled d e -> Qle_bool d 0 = Qle_bool e 0.
Proof.
  intros H. unfold scaled in H. apply eq_true_iff_eq. rewrite !Qle_bool_iff, H. clear H.
  split; intros H; nra.
Qed.

Lemma half_scaled d e : scaled d e -> Qle_bool d ((1 # 2) * T) = Qle_bool e (1 # 2).
Proof.
  intros H. unfold scaled in H. apply eq_true_iff_eq. rewrite !Qle_bool_iff, H. clear H.
  split; intros H; nra.
Qed.

Lemma filter_scaled (f g : Q -> bool) ds es :
  (forall d e, scaled d e -> f d = g e) -> Forall2 scaled ds es ->
  Forall2 scaled (filter f ds) (filter g es).
Proof.
  intros Hfg H. induction H as [|d e ds es Hde _ IH]; [constructor|]. cbn [filter].
  rewrite (Hfg d e Hde). destruct (g e); auto.
Qed.

Lemma sum_scaled ds es : Forall2 scaled ds es ->
  (fold_right Qplus 0 ds == fold_right Qplus 0 es * T)%Q.
Proof.
  unfold scaled. induction 1 as [|d e ds es Hde _ IH]; cbn [fold_right]; [ring|]. rewrite Hde, IH. ring.
Qed.

Lemma mean_scaled ds es : Forall2 scaled ds es -> (qmean ds == T * average es)%Q.
Proof.
  intros H. unfold qmean, average. rewrite (sum_scaled ds es H), (f2_len H).
  unfold Qdiv. ring.
Qed.

Lemma class_scaled eps ds es : Forall2 scaled ds es ->
  Forall (known_length eps) es -> Forall (step_class T eps) ds.
Proof.
  intros H. induction H as [|d e ds es Hde _ IH]; intros HF; [constructor|].
  inversion HF as [|? ? H1 H2]; subst. constructor; [|auto]. unfold step_class.
  destruct H1 as [H1|[H1|H1]].
  - left. unfold scaled in Hde. unfold glitch in H1. rewrite Hde. clear Hde. split; nra.
  - right. left. rewrite <- (single_scaled eps d e Hde) in H1. unfold single in H1.
    rewrite andb_true_iff, !Qle_bool_iff in H1. exact H1.
  - right. right. unfold scaled in Hde. unfold longer in H1. rewrite Hde. nra.
Qed.
End Scaled.

(** The detected rate belongs to the average of the levels of one bit. *)
Lemma detect_edges tick eps inv edges evs :
  (0 < tick)%Q -> (0 <= eps)%Q -> (eps <= 12 # 100)%Q -> timed tick edges evs ->
  Forall (known_length eps) (looked_at evs) ->
  frequent_singles eps (looked_at evs) ->
  detect_baud_rate (map (seen inv) edges)
  = Ok (qround (1 / (tick * average (filter (one_bit eps) (looked_at evs))))%Q).
Proof.
  intros HT He0 He Htm HF [n [g [m [Hn' [Hg [Hm [Hm1 [Hg1 Hlm]]]]]]]].
  unfold detect_baud_rate.
  rewrite <- firstn_map, fst_seen, (time_steps_firstn 999).
  assert (HS : Forall2 (scaled tick) (firstn 999 (time_steps (map fst edges))) (looked_at evs)).
  { unfold looked_at. rewrite <- firstn_map. apply forall2_firstn. exact (timed_steps _ _ _ Htm). }
  set (ds := firstn 999 (time_steps (map fst edges))) in *. set (es := looked_at evs) in *.
  clearbody ds es.
  pose proof (filter_scaled tick (single tick eps) (one_bit eps) ds es
                (fun d e => single_scaled tick HT eps d e) HS) as HSf.
  assert (HSn : Forall2 (scaled tick) (filter (fun d => negb (Qle_bool d 0)) ds)
                        (filter (fun d => negb (Qle_bool d 0)) es)).
  { apply filter_scaled; [|exact HS]. intros d e H. rewrite (zero_scaled tick HT d e H). reflexivity. }
  assert (HSg : Forall2 (scaled tick) (filter (fun d => negb (Qle_bool d 0) && Qle_bool d ((1 # 2) * tick)) ds)
                        (filter (fun d => negb (Qle_bool d 0) && Qle_bool d (1 # 2)) es)).
  { apply filter_scaled; [|exact HS]. intros d e H.
    rewrite (zero_scaled tick HT d e H), (half_scaled tick HT d e H). reflexivity. }
  destruct (detect_steps tick eps ds HT He0 He (class_scaled tick HT eps ds es HS HF)) as [p [Hp Hn]].
  - rewrite (f2_len HSf). lia.
  - rewrite (f2_len HSn), (f2_len HSg). lia.
  - rewrite (f2_len HSn), (f2_len HSg), (f2_len HSf). lia.
  - rewrite Hp. cbn [bind]. rewrite Hn.
    assert (HNE : filter (single tick eps) ds <> []).
    { intros E. rewrite E in HSf. apply f2_len in HSf. cbn in HSf. lia. }
    pose proof (mean_scaled tick _ _ HSf) as HM.
    destruct (filter (single tick eps) ds) as [|n0 near]; [contradiction|].
    f_equal. apply qround_compat. rewrite HM. reflexivity.
Qed.

(** * The constructor *)

Lemma qfalling_ok {A} (rows : list (Q * A)) : ascending (map fst rows) -> falling (map fst rows) = false.
Proof.
  generalize (map fst rows) as ts. intros ts. induction ts as [|a [|b ts] IH]; intros H; [reflexivity..|].
  destruct H as [H1 H2]. cbn [falling] in *. rewrite (IH H2).
  apply Qle_bool_iff in H1. rewrite H1. reflexivity.
Qed.

(** With a given rate this is the constructor of UartModel.v. *)
Lemma uart_new_given b given rows : b <> 0 ->
  uart_new (Some b) given rows = let* evs := uart_init (1 / inject_Z b)%Q given rows in Ok (b, evs).
Proof.
  intros Hb. unfold uart_new, uart_init. destruct (Nat.ltb (length rows) 8); [reflexivity|].
  destruct (falling (map fst rows)); [reflexivity|].
  destruct (filter_redundant_states (analog2digital rows)) as [f|e]; [|reflexivity]. cbn [bind].
  apply Z.eqb_neq in Hb. rewrite Hb.
  set (evs := add_duration (1 / inject_Z b) f).
  destruct (match given with Some b0 => Ok b0 | None => detect_inversion evs end) as [i|e]; [|reflexivity].
  cbn [bind]. destruct (detect_inversion (if i then invert_events evs else evs)); reflexivity.
Qed.

(** Detecting a rate is the same as being told that rate. *)
Lemma uart_new_detect b given rows f :
  filter_redundant_states (analog2digital rows) = Ok f -> detect_baud_rate f = Ok b ->
  uart_new None given rows = uart_new (Some b) given rows.
Proof. intros H1 H2. unfold uart_new. rewrite H1. cbn [bind]. rewrite H2. reflexivity. Qed.

Lemma recorded_in edges rows : recorded edges rows -> forall e, In e edges -> In e rows.
Proof.
  induction 1 as [|t v again edges rows HA HR IH HN]; intros e He; [exact He|].
  destruct He as [<-|He]; [left; reflexivity|]. right. apply in_or_app. auto.
Qed.

(** A recording with two level changes has both levels. *)
Lemma both_levels inv edges rows e1 e2 l : recorded edges rows -> edges = e1 :: e2 :: l ->
  Exists (fun r => xorb inv (snd r) = true) rows.
Proof.
  intros H E. apply Exists_exists.
  assert (HN : snd e2 = negb (snd e1)).
  { inversion H as [|t v again ed rw HA HR HN E1 E2]; subst; [discriminate|].
    injection E1 as <- ->. exact HN. }
  pose proof (recorded_in _ _ H) as HI. subst edges.
  destruct (xorb inv (snd e1)) eqn:X1.
  - exists e1. split; [apply HI; left; reflexivity|exact X1].
  - exists e2. split; [apply HI; right; left; reflexivity|]. rewrite HN.
    destruct inv, (snd e1); cbn in *; congruence.
Qed.

Lemma timed_two tick edges evs : timed tick edges evs -> evs <> [] -> exists a b l, edges = a :: b :: l.
Proof. intros H Hne. inversion H; subst; [contradiction|]. eauto. Qed.

Lemma singles_events eps evs : frequent_singles eps (looked_at evs) -> evs <> [].
Proof. intros [n [g [m [_ [_ [Hm [H1 _]]]]]]] ->. cbn in Hm. lia. Qed.

Theorem detected tick eps lo hi inv edges rows evs given :
  (0 < tick)%Q -> (0 <= eps)%Q -> (eps <= 12 # 100)%Q -> (lo < hi)%Q -> recorded edges rows ->
  timed tick edges evs ->
  Forall (known_length eps) (looked_at evs) ->
  frequent_singles eps (looked_at evs) ->
  let V := map (fun r => (fst r, voltage lo hi inv (snd r))) rows in
  let b := qround (1 / (tick * average (filter (one_bit eps) (looked_at evs))))%Q in
  uart_new None given V = uart_new (Some b) given V.
Proof.
  intros HT He0 He Hlt HR Htm HF HS V b.
  pose proof (singles_events _ _ HS) as Hne. destruct (timed_two _ _ _ Htm Hne) as [e1 [e2 [l El]]].
  assert (HX := both_levels inv _ _ _ _ _ HR El).
  apply (uart_new_detect b given V (map (seen inv) edges)).
  - unfold V. rewrite (analog_levels lo hi inv rows Hlt HX). apply filter_recorded; [exact HR|].
    intros ->. inversion HX.
  - exact (detect_edges tick eps inv edges evs HT He0 He Htm HF HS).
Qed.

Theorem decodes B lo hi inv given edges rows lead msg evs eps :
  let tick := (1 / inject_Z B)%Q in
  let avg := average (filter (one_bit eps) (looked_at (lead ++ evs))) in
  0 < B -> (lo < hi)%Q -> recorded edges rows -> (8 <= length rows)%nat ->
  ascending (map fst rows) -> timed tick edges (lead ++ evs) ->
  pauses_high (lead ++ evs) ->
  given = Some inv \/ given = None /\ (inv = false \/ has_pause (lead ++ evs)) ->
  transmits msg evs -> Forall idle lead -> msg <> [] ->
  Forall (fun x => 1 <= snd (fst x) <= 127) msg ->
  (0 <= eps)%Q -> (eps <= 12 # 100)%Q ->
  Forall (known_length eps) (looked_at (lead ++ evs)) ->
  frequent_singles eps (looked_at (lead ++ evs)) ->
  (Qabs (inject_Z B / avg - inject_Z B) < 1 # 2)%Q ->
  decode None given (map (fun r => (fst r, voltage lo hi inv (snd r))) rows)
  = Ok (map (fun x => (fst (fst x), [snd (fst x)])) msg).
Proof.
  intros tick avg HB Hlt HR H8 HA Htm HP HG HX HI Hne Hb He0 He HF HS Hav.
  assert (HB' : (0 < inject_Z B)%Q) by (unfold Qlt, inject_Z; cbn; lia).
  assert (HT : (0 < tick)%Q).
  { unfold tick. apply Qlt_shift_div_l; [exact HB'|]. lra. }
  unfold decode. rewrite (detected tick eps lo hi inv edges rows (lead ++ evs) given); try assumption.
  fold avg.
  replace (qround (1 / (tick * avg))%Q) with B.
  - rewrite uart_new_given by lia.
    pose proof (uart_recording tick lo hi inv given edges rows lead msg evs HT Hlt HR H8 HA Htm HP HG HX HI Hne Hb) as H.
    unfold tick in H. destruct (uart_init (1 / inject_Z B) given _) as [e|e]; [exact H|discriminate H].
  - symmetry. apply qround_near.
    assert (E : (1 / (tick * avg) == inject_Z B / avg)%Q).
    { unfold tick. unfold Qdiv. rewrite Qinv_mult_distr, Qmult_1_l, Qmult_1_l, Qinv_involutive. reflexivity. }
    rewrite E. exact Hav.
Qed.

(** * What else can happen *)

Lemma detect_inversion_err evs e : detect_inversion evs = Err e -> e = ValueError.
Proof.
  unfold detect_inversion. destruct (pauses evs); [discriminate|]. cbv zeta.
  destruct (_ && _); [|discriminate]. congruence.
Qed.

Lemma get_symbols_err n evs e : get_symbols n evs = Err e -> e = ValueError.
Proof. unfold get_symbols. destruct (out _); [|discriminate]. congruence. Qed.

Lemma get_lines_err s e : get_lines s = Err e -> e = ValueError.
Proof. unfold get_lines. destruct (l_out _); [|discriminate]. congruence. Qed.

Lemma qsort_nil l : qsort l = [] -> l = [].
Proof. intros H. apply length_zero_iff_nil. rewrite <- qsort_length, H. reflexivity. Qed.

Lemma mean_pos l hi : l <> [] -> Forall (fun v => 0 < v /\ v < hi)%Q l -> (0 < qmean l /\ qmean l < hi)%Q.
Proof.
  intros Hne H.
  assert (S : (0 < fold_right Qplus 0 l /\ fold_right Qplus 0 l < qlen l * hi)%Q).
  { destruct H as [|a l [Ha1 Ha2] H]; [contradiction|]. cbn [fold_right]. rewrite qlen_cons.
    assert (G : (0 <= fold_right Qplus 0 l /\ fold_right Qplus 0 l <= qlen l * hi)%Q).
    { clear -H. induction H as [|b l [Hb1 Hb2] _ [IH1 IH2]]; cbn [fold_right]; [rewrite qlen_nil; lra|].
      rewrite qlen_cons. lra. }
    lra. }
  unfold qmean. split; [apply Qlt_shift_div_l|apply Qlt_shift_div_r]; try exact (len_pos l Hne).
  - lra.
  - fold (qlen l). lra.
Qed.


(** Detection on a line whose levels last less than 2 s. *)
Lemma detect_fast rows :
  Forall (fun d => 0 < d /\ d < 2)%Q (time_steps (map fst (firstn 1000 rows))) ->
  time_steps (map fst (firstn 1000 rows)) <> [] ->
  match detect_baud_rate rows with Ok b => 1 <= b | Err x => x = ValueError end.
Proof.
  unfold detect_baud_rate. set (ds := time_steps (map fst (firstn 1000 rows))). clearbody ds.
  intros HF Hne. destruct (percentile10 (filter (fun d => negb (Qle_bool d 0)) ds)) as [p|x] eqn:EP.
  - cbn [bind].
    set (near := filter _ ds).
    assert (HN : Forall (fun d => 0 < d /\ d < 2)%Q near).
    { unfold near. rewrite Forall_forall in *. intros d Hd. apply filter_In in Hd. apply HF, Hd. }
    clearbody near. destruct near as [|a near]; [reflexivity|].
    destruct (mean_pos (a :: near) 2) as [M1 M2]; [discriminate|exact HN|].
    apply qround_ge. change (inject_Z 1) with 1%Q.
    set (m := qmean (a :: near)) in *. clearbody m.
    apply Qlt_shift_div_l; [exact M1|]. lra.
  - exfalso. unfold percentile10 in EP.
    destruct (qsort _) as [|q s] eqn:ES; [|discriminate EP]. apply qsort_nil in ES.
    destruct ds as [|d ds]; [contradiction|]. inversion HF as [|? ? [H1 H2] _]; subst.
    cbn [filter] in ES. replace (Qle_bool d 0) with false in ES; [discriminate ES|].
    symmetry. apply Qle_bool_false. exact H1.
Qed.

Fixpoint switching (edges : list (Q * bool)) : Prop :=
  match edges with
  | a :: ((b :: _) as r) => snd b = negb (snd a) /\ switching r
  | _ => True
  end.

Lemma switching_recorded edges : switching edges -> recorded edges edges.
Proof.
  induction edges as [|[t v] edges IH]; intros H; [constructor|].
  change ((t, v) :: edges) with ((t, v) :: [] ++ edges) at 2. constructor; [constructor| |].
  - apply IH. destruct edges; [exact I|]. apply H.
  - destruct edges; [exact I|]. apply H.
Qed.

Lemma time_steps_ne a b ts : time_steps (a :: b :: ts) <> [].
Proof. discriminate. Qed.

Lemma fast_line edges given e :
  switching edges -> Forall (fun d => 0 < d /\ d < 2)%Q (time_steps (map fst edges)) ->
  uart_new None given (map (fun r => (fst r, voltage 0 1 false (snd r))) edges) = Err e ->
  e = TypeError \/ e = ValueError.
Proof.
  intros HS HF. unfold uart_new. rewrite map_length.
  destruct (Nat.ltb (length edges) 8) eqn:E8; [intros [= <-]; auto|]. apply Nat.ltb_ge in E8.
  destruct (falling _); [intros [= <-]; auto|].
  destruct edges as [|e1 [|e2 l]]; cbn [length] in E8; [lia|lia|].
  set (edges := e1 :: e2 :: l) in *.
  assert (HR := switching_recorded edges HS).
  assert (HX := both_levels false _ _ _ _ _ HR eq_refl).
  assert (Hlt : (0 < 1)%Q) by reflexivity.
  rewrite (analog_levels 0 1 false edges Hlt HX), (filter_recorded false edges edges HR) by discriminate.
  cbn [bind].
  assert (HD := detect_fast (map (seen false) edges)).
  rewrite <- firstn_map, fst_seen, (time_steps_firstn 999) in HD.
  assert (HD' := HD ltac:(rewrite Forall_forall in *; intros d Hd;
    apply HF; rewrite <- (firstn_skipn 999 (time_steps (map fst edges))); apply in_or_app; left; exact Hd)).
  clear HD. specialize (HD' ltac:(discriminate)).
  destruct (detect_baud_rate (map (seen false) edges)) as [b|x]; [|cbn [bind]; intros [= <-]; right; exact HD'].
  cbn [bind]. destruct (Z.eqb_spec b 0) as [->|Hb]; [lia|].
  set (evs := add_duration _ _).
  destruct (match given with Some b0 => Ok b0 | None => detect_inversion evs end) as [i|x] eqn:EI.
  - cbn [bind]. destruct (detect_inversion (if i then invert_events evs else evs)) eqn:EJ; [discriminate|].
    apply detect_inversion_err in EJ. cbn [bind]. intros [= <-]. auto.
  - cbn [bind]. intros [= <-]. destruct given; [discriminate EI|]. apply detect_inversion_err in EI. auto.
Qed.

Definition edge_of (r : Z * Z) : Q * bool := ((inject_Z (fst r) / 1000000000)%Q, snd r =? 1).

Lemma seconds_edges w : Forall (fun r => snd r = 0 \/ snd r = 1) w ->
  seconds w = map (fun r => (fst r, voltage 0 1 false (snd r))) (map edge_of w).
Proof.
  unfold seconds. rewrite map_map. intros H. apply map_ext_in. intros [t v] Hin.
  rewrite Forall_forall in H. destruct (H _ Hin) as [E|E]; cbn [snd] in E; subst v; reflexivity.
Qed.

Lemma alternating_switching w : Forall (fun r => snd r = 0 \/ snd r = 1) w ->
  alternating (map snd w) -> switching (map edge_of w).
Proof.
  induction w as [|[t v] [|[t' v'] w] IH]; intros HF H; [exact I..|].
  destruct H as [H1 H2]. cbn [map snd] in H1.
  inversion HF as [|? ? F1 F2]; subst. inversion F2 as [|? ? F3 _]; subst. cbn [snd] in F1, F3.
  split; [|apply IH; [exact F2|exact H2]].
  unfold edge_of; cbn [snd fst]. destruct F1 as [->| ->], F3 as [->| ->]; try reflexivity; contradiction.
Qed.

Lemma brisk_steps w : brisk (map fst w) ->
  Forall (fun d => 0 < d /\ d < 2)%Q (time_steps (map fst (map edge_of w))).
Proof.
  induction w as [|[t v] [|[t' v'] w] IH]; intros H; [constructor..|].
  destruct H as [H1 H2].
  change (time_steps (map fst (map edge_of ((t, v) :: (t', v') :: w))))
    with ((inject_Z t' / 1000000000 - inject_Z t / 1000000000)%Q
          :: time_steps (map fst (map edge_of ((t', v') :: w)))).
  constructor; [|apply IH; exact H2].
  cbn [map fst] in H1. destruct H1 as [Ha Hb].
  rewrite Zlt_Qlt in Ha, Hb.
  rewrite inject_Z_plus in Hb. change (inject_Z 2000000000) with 2000000000%Q in Hb.
  assert (E : (inject_Z t' / 1000000000 - inject_Z t / 1000000000 ==
               (inject_Z t' - inject_Z t) * (1 # 1000000000))%Q) by (field; discriminate).
  rewrite E. set (a := inject_Z t) in *. set (b := inject_Z t') in *. clearbody a b. split; lra.
Qed.

Lemma waveform_err w e : Forall (fun r => snd r = 0 \/ snd r = 1) w -> alternating (map snd w) ->
  brisk (map fst w) -> decode_waveform w = Err e -> e = TypeError \/ e = ValueError.
Proof.
  intros HV HA HB. unfold decode_waveform, decode. rewrite (seconds_edges w HV).
  destruct (uart_new None None _) as [u|x] eqn:EU.
  - cbn [bind]. destruct (get_symbols 8 (snd u)) as [s|x] eqn:ES.
    + cbn [bind]. intros H. right. exact (get_lines_err _ _ H).
    + cbn [bind]. intros [= <-]. right. exact (get_symbols_err _ _ _ ES).
  - cbn [bind]. intros [= <-].
    exact (fast_line _ _ _ (alternating_switching w HV HA) (brisk_steps w HB) EU).
Qed.

Theorem uart_total g n w :
  find (fun p => contains "uart" (snd p)) (gp_pins g) = Some n -> 0 <= fst n ->
  length (gp_time g) = length (gp_value g) -> gp_value g <> [] ->
  pin_waveform (fst n) (gp_time g) (gp_value g) = Ok w -> brisk (map fst w) ->
  exists r, gpio_to_uart decode_waveform (Some g) = Ok r /\
    (forall ls, r = Some ls <-> decode_waveform w = Ok ls).
Proof.
  intros HN H0 HL Hne HW HB.
  destruct (C38_waveform_lossless (fst n) (gp_time g) (gp_value g) HL Hne)
    as [w' [keep [HW' [_ [_ [Hsub [_ [HA _]]]]]]]].
  rewrite HW in HW'. injection HW' as <-.
  assert (HV : Forall (fun r => snd r = 0 \/ snd r = 1) w).
  { assert (G : Forall (fun r : Z * Z => snd r = 0 \/ snd r = 1)
      (combine (gp_time g) (map (fun v => if Z.testbit v (fst n) then 1 else 0) (gp_value g)))).
    { apply Forall_forall. intros [t v] Hin. apply in_combine_r in Hin. apply in_map_iff in Hin.
      destruct Hin as [x [<- _]]. cbn. destruct (Z.testbit x (fst n)); auto. }
    clear -Hsub G. induction Hsub; [constructor| |]; inversion G; subst; auto. }
  assert (EU : gpio_to_uart decode_waveform (Some g) =
    match decode_waveform w with Ok l => Ok (Some l) | Err TypeError | Err ValueError => Ok None | Err e => Err e end).
  { unfold gpio_to_uart, gpio_to_waveforms, get_gpio_pin_num. rewrite HN. cbn [option_map each_pin waveform].
    apply Z.leb_le in H0. rewrite H0. cbn [bind]. rewrite HW. reflexivity. }
  rewrite EU. destruct (decode_waveform w) as [l|e] eqn:ED.
  - exists (Some l). split; [reflexivity|]. intros ls. split; congruence.
  - destruct (waveform_err w e HV HA HB ED) as [->| ->]; exists None; split; try reflexivity;
      intros ls; split; discriminate.
Qed.

(** * The array *)

Lemma all_below l m : l <> [] -> Forall (fun v => v < m)%Q l -> (qmean l < m)%Q.
Proof.
  intros Hne H. unfold qmean. apply Qlt_shift_div_r; [exact (len_pos l Hne)|]. fold (qlen l).
  destruct H as [|a l Ha H]; [contradiction|]. cbn [fold_right]. rewrite qlen_cons.
  assert (G : (fold_right Qplus 0 l <= qlen l * m)%Q).
  { apply qsum_le. eapply Forall_impl; [|exact H]. cbn. intros. lra. }
  lra.
Qed.

Lemma some_high l : l <> [] -> Exists (fun v => qmean l <= v)%Q l.
Proof.
  intros Hne. destruct (Exists_dec (fun v => qmean l <= v)%Q l) as [H|H].
  - intros v. destruct (Qlt_le_dec v (qmean l)) as [C|C]; [right; lra|left; exact C].
  - exact H.
  - exfalso. assert (F : Forall (fun v => v < qmean l)%Q l).
    { apply Forall_forall. intros v Hv. destruct (Qlt_le_dec v (qmean l)) as [C|C]; [exact C|].
      exfalso. apply H. apply Exists_exists. exists v. auto. }
    pose proof (all_below l _ Hne F). lra.
Qed.

Lemma digital_levels l : Forall (fun z => z = 0 \/ z = 1) l -> In 1 l ->
  forall z, In z l -> digital false (qmean (map inject_Z l)) (inject_Z z) = z.
Proof.
  intros HF H1 z Hz.
  assert (Hle : (qmean (map inject_Z l) <= 1)%Q).
  { apply qmean_le; [destruct l; [contradiction|discriminate]|].
    apply Forall_map. eapply Forall_impl; [|exact HF]. intros a [-> | ->]; cbn; discriminate. }
  assert (Hgt : (0 < qmean (map inject_Z l))%Q).
  { apply (qmean_gt _ 0 1); [| |reflexivity].
    - apply Forall_map. eapply Forall_impl; [|exact HF]. intros a [-> | ->]; cbn; discriminate.
    - apply Exists_exists. exists (inject_Z 1). split; [apply in_map; exact H1|discriminate]. }
  unfold digital. rewrite Forall_forall in HF. destruct (HF z Hz) as [-> | ->].
  - replace (Qle_bool (qmean (map inject_Z l)) (inject_Z 0)) with false; [reflexivity|].
    symmetry. apply Qle_bool_false. exact Hgt.
  - replace (Qle_bool (qmean (map inject_Z l)) (inject_Z 1)) with true; [reflexivity|].
    symmetry. apply Qle_bool_iff. exact Hle.
Qed.

Lemma digital_again rows : rows <> [] ->
  analog2digital (map (fun r => (fst r, inject_Z (snd r))) (analog2digital rows)) = analog2digital rows.
Proof.
  intros Hne. remember (analog2digital rows) as d eqn:Ed.
  assert (HF : Forall (fun z => z = 0 \/ z = 1) (map snd d)).
  { rewrite Ed. unfold analog2digital. rewrite map_map. apply Forall_map, Forall_forall.
    intros r _. cbn [snd]. unfold digital. destruct (Qle_bool _ _); auto. }
  assert (H1 : In 1 (map snd d)).
  { rewrite Ed. unfold analog2digital. rewrite map_map.
    assert (HX := some_high (map snd rows) ltac:(destruct rows; [contradiction|discriminate])).
    apply Exists_exists in HX. destruct HX as [v [Hv1 Hv2]]. apply in_map_iff in Hv1.
    destruct Hv1 as [r [<- Hr]]. apply in_map_iff. exists r. split; [|exact Hr]. cbn [snd].
    unfold digital. apply Qle_bool_iff in Hv2. rewrite Hv2. reflexivity. }
  unfold analog2digital. rewrite !map_map. cbn [fst snd].
  assert (HD := digital_levels (map snd d) HF H1). rewrite map_map in HD.
  transitivity (map (fun x => x) d); [|apply map_id]. apply map_ext_in. intros [t z] Hin.
  cbn [fst snd]. f_equal. apply HD. apply (in_map snd) in Hin. exact Hin.
Qed.

Theorem decoded_again baud given rows :
  uart_new baud given (array_after rows) = uart_new baud given rows.
Proof.
  unfold array_after. destruct (Nat.ltb (length rows) 8) eqn:E8; [reflexivity|].
  destruct (falling (map fst rows)) eqn:EF; [reflexivity|].
  assert (Hne : rows <> []) by (intros ->; discriminate E8).
  unfold uart_new. rewrite digital_again by exact Hne. rewrite map_length.
  assert (EL : length (analog2digital rows) = length rows) by apply map_length.
  rewrite EL, E8. rewrite EF. rewrite map_map. cbn [fst].
  assert (ET : map fst (analog2digital rows) = map fst rows).
  { unfold analog2digital. rewrite map_map. apply map_ext. reflexivity. }
  change (map (fun x : Q * Z => fst x) (analog2digital rows)) with (map fst (analog2digital rows)).
  rewrite ET, EF. reflexivity.
Qed.

Theorem array_digital rows :
  Forall (fun r => snd r = inject_Z 0 \/ snd r = inject_Z 1) rows ->
  Exists (fun r => snd r = inject_Z 1) rows -> array_after rows = rows.
Proof.
  intros HF HE. unfold array_after. destruct (Nat.ltb (length rows) 8); [reflexivity|].
  destruct (falling (map fst rows)); [reflexivity|].
  set (zs := map (fun r => (fst r, if Qeq_bool (snd r) 0 then 0 else 1)) rows).
  assert (ER : rows = map (fun r => (fst r, inject_Z (snd r))) zs).
  { unfold zs. rewrite map_map. cbn [fst snd]. rewrite <- (map_id rows) at 1. apply map_ext_in.
    intros [t v] Hin. rewrite Forall_forall in HF. destruct (HF _ Hin) as [E|E]; cbn [snd] in E; subst v; reflexivity. }
  assert (ED : analog2digital rows = zs).
  { rewrite ER at 1. unfold analog2digital. rewrite !map_map. cbn [fst snd].
    assert (HD := digital_levels (map snd zs)). rewrite map_map in HD.
    transitivity (map (fun x => x) zs); [|apply map_id]. apply map_ext_in. intros [t z] Hin. cbn [fst snd]. f_equal.
    apply HD; [| |apply (in_map snd) in Hin; exact Hin].
    - unfold zs. rewrite map_map. apply Forall_map, Forall_forall. intros r _. cbn [snd].
      destruct (Qeq_bool _ _); auto.
    - apply Exists_exists in HE. destruct HE as [r [Hr1 Hr2]]. unfold zs. rewrite map_map.
      apply in_map_iff. exists r. split; [|exact Hr1]. cbn [snd]. rewrite Hr2. reflexivity. }
  rewrite ED. symmetry. exact ER.
Qed.

(** Times and the split into levels stay. *)
Theorem array_levels rows : map fst (array_after rows) = map fst rows.
Proof.
  unfold array_after. destruct (Nat.ltb (length rows) 8); [reflexivity|].
  destruct (falling (map fst rows)); [reflexivity|].
  unfold analog2digital. rewrite !map_map. apply map_ext. reflexivity.
Qed.

(** The lines of a waveform. *)
Theorem lines_decoded B inv edges rows lead msg evs eps wf ls :
  let tick := (1 / inject_Z B)%Q in
  let avg := average (filter (one_bit eps) (looked_at (lead ++ evs))) in
  seconds wf = map (fun r => (fst r, voltage 0 1 inv (snd r))) rows ->
  Forall proper_line ls -> concat ls = map (fun x => snd (fst x)) msg ->
  0 < B -> recorded edges rows -> (8 <= length rows)%nat ->
  ascending (map fst rows) -> timed tick edges (lead ++ evs) ->
  pauses_high (lead ++ evs) -> inv = false \/ has_pause (lead ++ evs) ->
  transmits msg evs -> Forall idle lead -> msg <> [] ->
  Forall (fun x => 1 <= snd (fst x) <= 127) msg ->
  (0 <= eps)%Q -> (eps <= 12 # 100)%Q ->
  Forall (known_length eps) (looked_at (lead ++ evs)) ->
  frequent_singles eps (looked_at (lead ++ evs)) ->
  (Qabs (inject_Z B / avg - inject_Z B) < 1 # 2)%Q ->
  decode_waveform wf = Ok (combine (line_starts (map (fun x => fst (fst x)) msg) ls) ls).
Proof.
  intros tick avg HW HL HC HB HR H8 HA Htm HP HG HX HI Hne Hb He0 He HF HS Hav.
  unfold decode_waveform. rewrite HW.
  rewrite (decodes B 0 1 inv None edges rows lead msg evs eps HB); try assumption; try reflexivity;
    [|right; split; [reflexivity|exact HG]].
  cbn [bind].
  assert (E : map (fun x : Q * Z * Q => (fst (fst x), [snd (fst x)])) msg
    = combine (map (fun x => fst (fst x)) msg) (map (fun c => [c]) (concat ls))).
  { rewrite HC, map_map. clear. induction msg as [|x msg IH]; [reflexivity|]. cbn. rewrite IH. reflexivity. }
  rewrite E. apply C40_proper_lines_partial; [exact HL| |].
  - intros ->. destruct msg; [contradiction|discriminate HC].
  - rewrite HC, !map_length. reflexivity.
Qed.
