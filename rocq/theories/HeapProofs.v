(** Proofs about HeapModel.v. *)
From Coq Require Import String Ascii Lia.
From Verif Require Import PyBase FixModel HeapModel HeapSpec.
From Coq Require Import List.
Import ListNotations.

(** * Heaps *)

Lemma update_length h a g : length (update h a g) = length h.
Proof. revert a. induction h as [|d h IH]; intros [|a]; cbn; congruence. Qed.

Lemma load_update_same h a g : a < length h -> load (update h a g) a = g (load h a).
Proof.
  unfold load. revert a. induction h as [|d h IH]; intros [|a] H; cbn in *; try lia; [reflexivity|].
  apply IH. lia.
Qed.

Lemma load_update_other h a b g : a <> b -> load (update h a g) b = load h b.
Proof.
  unfold load. revert a b. induction h as [|d h IH]; intros [|a] [|b] H; cbn; try congruence; try reflexivity.
  apply IH. congruence.
Qed.

Lemma load_alloc_old h d a : a < length h -> load (h ++ [d]) a = load h a.
Proof. intros H. unfold load. now apply app_nth1. Qed.

Lemma load_alloc_new h d : load (h ++ [d]) (length h) = d.
Proof. unfold load. rewrite app_nth2 by lia. now rewrite Nat.sub_diag. Qed.

(** Nothing below [length h] was changed. *)
Definition extends (h h' : heap) : Prop :=
  length h <= length h' /\ forall a, a < length h -> load h' a = load h a.

Lemma extends_refl h : extends h h.
Proof. split; auto. Qed.

Lemma extends_trans h1 h2 h3 : extends h1 h2 -> extends h2 h3 -> extends h1 h3.
Proof. intros [L1 E1] [L2 E2]. split; [lia|]. intros a H. rewrite E2 by lia. apply E1, H. Qed.

Lemma extends_alloc h d : extends h (h ++ [d]).
Proof. split; [rewrite app_length; lia|]. intros a H. now apply load_alloc_old. Qed.

Lemma extends_update h h' a g : extends h h' -> length h <= a -> extends h (update h' a g).
Proof.
  intros [L E] H. split; [now rewrite update_length|]. intros b Hb.
  rewrite load_update_other by lia. apply E, Hb.
Qed.

(** * Fixtures as values *)

Lemma get_map {K A B : Set} (eqb : K -> K -> bool) (g : A -> B) k l :
  get eqb k (map (fun p => (fst p, g (snd p))) l) = option_map g (get eqb k l).
Proof.
  induction l as [|[k' a] l IH]; [reflexivity|]. cbn [map get fst snd].
  destruct (eqb k k'); [reflexivity|exact IH].
Qed.

Lemma put_map {K A B : Set} (eqb : K -> K -> bool) (g : A -> B) k a l :
  put eqb k (g a) (map (fun p => (fst p, g (snd p))) l) = map (fun p => (fst p, g (snd p))) (put eqb k a l).
Proof.
  induction l as [|[k' b] l IH]; [reflexivity|]. cbn [map put fst snd].
  destruct (eqb k k'); cbn [map fst snd]; [reflexivity|now rewrite IH].
Qed.

Lemma get_in {K A : Set} (eqb : K -> K -> bool) k (l : assoc K A) a : get eqb k l = Some a -> In a (map snd l).
Proof.
  induction l as [|[k' b] l IH]; [discriminate|]. cbn [get map snd]. destruct (eqb k k').
  - intros [= ->]. left. reflexivity.
  - intros H. right. apply IH, H.
Qed.

Lemma contents_extends h h' f : valid h f -> extends h h' -> contents h' f = contents h f.
Proof.
  intros V [_ E]. unfold contents. f_equal; apply map_ext_in; intros [k a] H; cbn [fst snd]; rewrite E; try reflexivity;
    apply V; [left|right]; apply in_map_iff; exists (k, a); auto.
Qed.

Lemma valid_extends h h' f : valid h f -> extends h h' -> valid h' f.
Proof. intros V [L _] a H. specialize (V a H). lia. Qed.

Definition loaded (h : heap) (r : res addr) : res dict := match r with Ok a => Ok (load h a) | Err e => Err e end.

Lemma getitem_id_contents h f k : getitem_id (contents h f) k = loaded h (hgetitem_id f k).
Proof.
  unfold getitem_id, hgetitem_id. cbn [contents x_ids]. rewrite get_map.
  destruct (get value_eqb k (o_ids f)); cbn [option_map]; [destruct k; reflexivity|reflexivity].
Qed.

Lemma getitem_contents h f k : getitem (contents h f) k = loaded h (hgetitem f k).
Proof.
  unfold getitem, hgetitem. destruct k as [s| |]; try apply getitem_id_contents.
  cbn [contents x_names]. rewrite get_map. destruct (get String.eqb (lower s) (o_names f)); [reflexivity|].
  cbn [option_map]. destruct (int_of_key (lower s)); apply getitem_id_contents.
Qed.

Lemma getitem_stored f k a : hgetitem f k = Ok a -> stored f a.
Proof.
  assert (G : forall k, hgetitem_id f k = Ok a -> stored f a).
  { unfold hgetitem_id. intros k0 H. destruct (get value_eqb k0 (o_ids f)) as [b|] eqn:E; [|discriminate H].
    destruct k0; try discriminate H. injection H as <-. right. exact (get_in _ _ _ _ E). }
  unfold hgetitem. destruct k as [s|z|s]; try apply G.
  destruct (get String.eqb (lower s) (o_names f)) as [b|] eqn:E.
  - intros [= <-]. left. exact (get_in _ _ _ _ E).
  - destruct (int_of_key (lower s)); apply G.
Qed.

Lemma self_base_contents h f d :
  self_base (contents h f) d =
  match hself_base f d with Ok (Some a) => Ok (Some (load h a)) | Ok None => Ok None | Err e => Err e end.
Proof.
  unfold self_base, hself_base. cbn [contents x_ids x_names]. rewrite get_map.
  set (by_id := get value_eqb _ (o_ids f)).
  destruct (dget "name" d) as [[n| |]|].
  - rewrite get_map. destruct (get String.eqb (lower n) (o_names f)); [reflexivity|].
    cbn [option_map]. destruct by_id; reflexivity.
  - reflexivity.
  - reflexivity.
  - destruct by_id; reflexivity.
Qed.

Lemma self_base_stored f d a : hself_base f d = Ok (Some a) -> stored f a.
Proof.
  unfold hself_base. intros H.
  assert (G : forall k, get value_eqb k (o_ids f) = Some a -> stored f a) by (intros; right; eapply get_in; eassumption).
  destruct (dget "name" d) as [[n| |]|]; try discriminate H.
  - destruct (get String.eqb (lower n) (o_names f)) as [b|] eqn:E.
    + injection H as <-. left. exact (get_in _ _ _ _ E).
    + injection H as H. exact (G _ H).
  - injection H as H. exact (G _ H).
Qed.

(** * Inheritance *)

Definition proper (h : heap) (r : heap * res (addr * list value)) (x : res (dict * list value)) : Prop :=
  extends h (fst r) /\ outcome r = x /\
  (forall a c, snd r = Ok (a, c) -> length h <= a < length (fst r)).

Lemma proper_err h h' e : extends h h' -> proper h (h', Err e) (Err e).
Proof. intros E. split; [exact E|]. split; [reflexivity|]. discriminate. Qed.

Theorem inherits depth f : forall h values chain, valid h f -> values < length h ->
  proper h (hinheritance depth f h values chain) (inheritance depth (contents h f) (load h values) chain).
Proof.
  induction depth as [|depth IH]; intros h values chain V Hv.
  { cbn [hinheritance inheritance]. apply proper_err, extends_refl. }
  cbn [hinheritance inheritance copy alloc].
  set (h1 := h ++ [load h values]). set (v := length h).
  assert (L1 : length h1 = S v) by (unfold h1; rewrite app_length; cbn; lia).
  assert (E1 : extends h h1) by apply extends_alloc.
  assert (V1 : load h1 v = load h values) by apply load_alloc_new.
  rewrite V1. destruct (dget "inherit_from" (load h values)) as [fname|] eqn:EI.
  - set (h2 := update h1 v (ddel "inherit_from")).
    assert (E2 : extends h h2) by (apply extends_update; [exact E1|unfold v; lia]).
    assert (L2 : length h2 = S v) by (unfold h2; now rewrite update_length).
    assert (V2 : load h2 v = ddel "inherit_from" (load h values)).
    { unfold h2. rewrite load_update_same by lia. now rewrite V1. }
    rewrite V2. destruct (start_chain _ fname chain) as [chain1|e]; cbn [bind]; [|apply proper_err, E2].
    rewrite getitem_contents. destruct (hgetitem f fname) as [a|e] eqn:EG; cbn [loaded bind]; [|apply proper_err, E2].
    pose proof (V a (getitem_stored f fname a EG)) as Ha.
    unfold copy, alloc. rewrite L2.
    set (h3 := h2 ++ [load h2 a]). set (h4 := update h3 (S v) (dput "name" fname)).
    assert (L3 : length h3 = S (S v)) by (unfold h3; rewrite app_length; cbn; lia).
    assert (L4 : length h4 = S (S v)) by (unfold h4; now rewrite update_length).
    assert (E3 : extends h h3) by (eapply extends_trans; [exact E2|apply extends_alloc]).
    assert (E4 : extends h h4) by (apply extends_update; [exact E3|unfold v; lia]).
    assert (B4 : load h4 (S v) = dput "name" fname (load h a)).
    { unfold h4. rewrite load_update_same by lia. unfold h3. rewrite <- L2, load_alloc_new.
      now rewrite (proj2 E2 a Ha). }
    assert (V4 : load h4 v = ddel "inherit_from" (load h values)).
    { unfold h4. rewrite load_update_other by lia. unfold h3. rewrite load_alloc_old by lia. exact V2. }
    destruct (IH h4 (S v) (chain1 ++ [fname]) (valid_extends h h4 f V E4) ltac:(lia)) as [P1 [P2 P3]].
    rewrite (contents_extends h h4 f V E4), B4 in P2.
    destruct (hinheritance depth f h4 (S v) (chain1 ++ [fname])) as [h5 r5]. unfold outcome in P2. cbn [fst snd] in P1, P2, P3.
    rewrite <- P2. destruct r5 as [[b c]|e]; cbn [bind fst snd].
    + destruct (P3 b c eq_refl) as [Q1 Q2].
      assert (E5 : extends h h5) by (eapply extends_trans; [exact E4|exact P1]).
      split; [|split].
      * cbn [fst]. apply extends_update; [exact E5|]. fold v. lia.
      * unfold outcome. cbn [fst snd]. rewrite load_update_same by exact Q2.
        rewrite (proj2 P1 v) by lia. rewrite V4. reflexivity.
      * cbn [fst snd]. intros a' c' [= <- <-]. rewrite update_length. fold v. lia.
    + apply proper_err. eapply extends_trans; [exact E4|exact P1].
  - rewrite self_base_contents.
    destruct (hself_base f (load h values)) as [[a|]|e] eqn:ES; cbn [bind]; [| |apply proper_err, E1].
    + pose proof (V a (self_base_stored f _ a ES)) as Ha.
      unfold copy, alloc. rewrite L1.
      set (h3 := h1 ++ [load h1 a]).
      set (h4 := update h3 (S v) (fun d => fill d (load h3 v))).
      assert (L3 : length h3 = S (S v)) by (unfold h3; rewrite app_length; cbn; lia).
      assert (L4 : length h4 = S (S v)) by (unfold h4; now rewrite update_length).
      assert (E3 : extends h h3) by (eapply extends_trans; [exact E1|apply extends_alloc]).
      assert (E4 : extends h h4) by (apply extends_update; [exact E3|unfold v; lia]).
      assert (B4 : load h4 (S v) = fill (load h a) (load h values)).
      { unfold h4. rewrite load_update_same by lia. 
        assert (X1 : load h3 (S v) = load h a) by (unfold h3; rewrite <- L1, load_alloc_new; exact (proj2 E1 a Ha)).
        assert (X2 : load h3 v = load h values) by (unfold h3; rewrite load_alloc_old by lia; exact V1).
        now rewrite X1, X2. }
      rewrite B4. destruct (dget "inherit_from" (fill (load h a) (load h values))).
      * destruct (dget "name" (fill (load h a) (load h values))) as [n|]; [|apply proper_err, E4].
        destruct (IH h4 (S v) (chain ++ [n]) (valid_extends h h4 f V E4) ltac:(lia)) as [P1 [P2 P3]].
        rewrite (contents_extends h h4 f V E4), B4 in P2. split; [|split].
        -- eapply extends_trans; [exact E4|exact P1].
        -- exact P2.
        -- intros b c E. destruct (P3 b c E). fold v. lia.
      * split; [exact E4|]. split.
        -- unfold outcome. cbn [fst snd]. now rewrite B4.
        -- cbn [fst snd]. intros b c [= <- <-]. fold v. lia.
    + split; [exact E1|]. split.
      * unfold outcome. cbn [fst snd]. now rewrite V1.
      * cbn [fst snd]. intros b c [= <- <-]. fold v. lia.
Qed.

Lemma query_stored f uid name a : hquery_item f uid name = Ok a -> stored f a.
Proof.
  unfold hquery_item. cbv zeta.
  assert (G1 : forall k, hquery_id f k = Ok a -> stored f a).
  { unfold hquery_id. intros [s|z|s] H; try discriminate H.
    destruct (get value_eqb (VInt z) (o_ids f)) as [b|] eqn:E; [|discriminate H]. injection H as <-.
    right. exact (get_in _ _ _ _ E). }
  assert (G2 : forall k, hquery_name f k = Ok a -> stored f a).
  { unfold hquery_name. intros [s|z|s] H; try discriminate H.
    destruct (get String.eqb (lower s) (o_names f)) as [b|] eqn:E; [|discriminate H]. injection H as <-.
    left. exact (get_in _ _ _ _ E). }
  destruct (match uid with Some v => negb (value_eqb v none_) | None => false end); [apply G1|].
  destruct (match name with Some v => negb (value_eqb v none_) | None => false end); [apply G2|discriminate].
Qed.

Lemma query_contents h x t f uid name : component x t = Ok (contents h f) ->
  query_item x t uid name = loaded h (hquery_item f uid name).
Proof.
  intros C. unfold query_item, hquery_item. cbv zeta.
  destruct (match uid with Some v => negb (value_eqb v none_) | None => false end).
  - rewrite C. cbn [bind]. destruct uid as [[s|z|s]|]; try reflexivity.
    cbn [query_id hquery_id contents x_ids]. rewrite get_map. destruct (get value_eqb (VInt z) (o_ids f)); reflexivity.
  - destruct (match name with Some v => negb (value_eqb v none_) | None => false end); [|reflexivity].
    rewrite C. cbn [bind]. destruct name as [[s|z|s]|]; try reflexivity.
    cbn [query_name hquery_name contents x_names]. rewrite get_map.
    destruct (get String.eqb (lower s) (o_names f)); reflexivity.
Qed.

Theorem completes depth f x t h values : valid h f -> values < length h ->
  component x t = Ok (contents h f) ->
  proper h (htry_completing_model depth f h values) (try_completing_model depth x t (load h values)).
Proof.
  intros V Hv C. unfold htry_completing_model, try_completing_model. rewrite C.
  destruct (match load h values with [(k, _)] => _ | _ => false end).
  - rewrite (query_contents h x t f _ _ C).
    destruct (hquery_item f (dget "id" (load h values)) (dget "name" (load h values))) as [a|e] eqn:E; cbn [loaded bind].
    + apply inherits; [exact V|]. apply V, (query_stored _ _ _ _ E).
    + apply proper_err, extends_refl.
  - cbn [bind]. apply inherits; assumption.
Qed.

(** Without the collection of fixtures. *)
Lemma completes_alone depth f h values : valid h f -> values < length h ->
  extends h (fst (htry_completing_model depth f h values)) /\
  (forall a c, snd (htry_completing_model depth f h values) = Ok (a, c) ->
     length h <= a < length (fst (htry_completing_model depth f h values))).
Proof.
  intros V Hv.
  destruct (completes depth f [(lower "x", contents h f)] "x" h values V Hv eq_refl) as [P1 [_ P3]]. auto.
Qed.

(** * Programs *)

Lemma step_keeps f n s t : (forall a, stored f a -> a < n) ->
  n <= length (fst s) -> (forall a, In a (snd s) -> n <= a) ->
  step f s t ->
  n <= length (fst t) /\ (forall a, In a (snd t) -> n <= a) /\ (forall a, a < n -> load (fst t) a = load (fst s) a).
Proof.
  intros V L O H.
  assert (VV : forall h, n <= length h -> valid h f) by (intros h Hh a Ha; specialize (V a Ha); lia).
  destruct H as [h own d|h own depth a h' b chain E Ha|h own depth a h' e E Ha|h own a Ha|h own a g Ha]; cbn [fst snd] in *.
  - split; [rewrite app_length; lia|]. split.
    + intros a [<-|H]; [exact L|exact (O a H)].
    + intros a H. apply load_alloc_old. lia.
  - destruct (completes_alone depth f h a (VV h L) Ha) as [[P1 P2] P3]. rewrite E in P1, P2, P3. cbn [fst snd] in *.
    destruct (P3 b chain eq_refl). split; [lia|]. split.
    + intros x [<-|H']; [lia|exact (O x H')].
    + intros x Hx. apply P2. lia.
  - destruct (completes_alone depth f h a (VV h L) Ha) as [[P1 P2] P3]. rewrite E in P1, P2, P3. cbn [fst snd] in *.
    split; [lia|]. split; [exact O|]. intros x Hx. apply P2. lia.
  - unfold hfill_in_user_data. cbn [fst]. split; [now rewrite update_length|]. split; [exact O|].
    intros x Hx. specialize (O a Ha). apply load_update_other. lia.
  - split; [now rewrite update_length|]. split; [exact O|].
    intros x Hx. specialize (O a Ha). apply load_update_other. lia.
Qed.

Theorem steps_keep f h s t : valid h f -> fst s = h -> snd s = [] -> steps f s t -> contents (fst t) f = contents h f.
Proof.
  intros V E1 E2 H.
  assert (G : forall s t, steps f s t -> length h <= length (fst s) -> (forall a, In a (snd s) -> length h <= a) ->
    (forall a, a < length h -> load (fst s) a = load h a) -> forall a, a < length h -> load (fst t) a = load h a).
  { clear - V. induction 1 as [s|s t u H1 _ IH]; intros L O E a Ha; [exact (E a Ha)|].
    destruct (step_keeps f (length h) s t V L O H1) as [L' [O' E']]. apply IH; try assumption.
    intros b Hb. rewrite E' by exact Hb. apply E, Hb. }
  specialize (G s t H). rewrite E1, E2 in G.
  assert (X : forall a, a < length h -> load (fst t) a = load h a).
  { apply G; auto. intros a []. }
  unfold contents. f_equal; apply map_ext_in; intros [k a] Hin; cbn [fst snd]; rewrite X; try reflexivity;
    apply V; [left|right]; apply in_map_iff; exists (k, a); auto.
Qed.

(** Insertion. *)
Lemma insert_contents h f t a : insert (contents h f) (mkWrap t (load h a)) =
  match hinsert h f t a with Ok f' => Ok (contents h f') | Err e => Err e end.
Proof.
  unfold insert, hinsert. cbn [w_type w_params contents x_type].
  destruct (negb _); [reflexivity|].
  destruct (dget "name" (load h a)) as [n|]; [|reflexivity].
  destruct (dget "id" (load h a)) as [i|]; [|reflexivity].
  unfold contents. cbn [o_type o_names o_ids x_names x_ids]. f_equal.
  f_equal; [apply (put_map String.eqb (load h))|apply (put_map value_eqb (load h))].
Qed.

Lemma put_values {K A : Set} (eqb : K -> K -> bool) k (v : A) l a :
  In a (map snd (put eqb k v l)) -> a = v \/ In a (map snd l).
Proof.
  induction l as [|[k' b] l IH]; cbn [put map snd In].
  - intros [<-|[]]; auto.
  - destruct (eqb k k'); cbn [map snd In]; intros [<-|H]; auto. destruct (IH H); auto.
Qed.

Lemma insert_valid h f t a f' : valid h f -> a < length h -> hinsert h f t a = Ok f' -> valid h f'.
Proof.
  intros V Ha H. unfold hinsert in H. destruct (negb _); [injection H as <-; exact V|].
  destruct (dget "name" (load h a)) as [n|]; [|injection H as <-; exact V].
  destruct (dget "id" (load h a)) as [i|]; [|discriminate H]. injection H as <-.
  intros b [Hb|Hb]; cbn [o_names o_ids] in Hb; apply put_values in Hb; destruct Hb as [->|Hb]; try exact Ha;
    apply V; [left|right]; exact Hb.
Qed.

Lemma insert_stored h f t a f' : hinsert h f t a = Ok f' -> forall b, stored f' b -> b = a \/ stored f b.
Proof.
  intros H b Hb. unfold hinsert in H. destruct (negb _); [injection H as <-; auto|].
  destruct (dget "name" (load h a)) as [n|]; [|injection H as <-; auto].
  destruct (dget "id" (load h a)) as [i|]; [|discriminate H]. injection H as <-.
  destruct Hb as [Hb|Hb]; cbn [o_names o_ids] in Hb; apply put_values in Hb; destruct Hb as [->|Hb]; auto;
    right; [left|right]; exact Hb.
Qed.
