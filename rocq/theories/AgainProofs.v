(** Completing a model twice: proofs about FixModel. *)
From Coq Require Import String Ascii Relations.
From Verif Require Import PyBase FixModel FixSpec FixProofs.
Open Scope list_scope.

Lemma nearest_none k ds : nearest k ds = None <-> Forall (fun d => entry k d = None) ds.
Proof.
  induction ds as [|d ds IH]; cbn; [split; auto|]. destruct (entry k d) eqn:E.
  - split; [discriminate|]. intros H. inversion H; subst. congruence.
  - rewrite IH. split; [intros H; constructor; assumption|]. intros H. inversion H; assumption.
Qed.

(** The ancestors of an ancestor come behind it. *)
Lemma ancestry_tail f k anc b : ancestry f k anc -> In b (map snd anc) ->
  exists l1 k' l2, anc = l1 ++ (k', b) :: l2 /\ ancestry f (entry "inherit_from" b) l2.
Proof.
  induction 1 as [|k b' l Hg HA IH]; cbn; [intros []|]. intros [-> | Hin].
  - exists [], k, l. auto.
  - destruct (IH Hin) as (l1 & k' & l2 & -> & H). exists ((k, b') :: l1), k', l2. auto.
Qed.

Lemma last_by_name_tail l1 l2 : last_by_name (l1 ++ l2) -> last_by_name l2.
Proof. intros H l k b ->. apply (H (l1 ++ l) k b). rewrite app_assoc. reflexivity. Qed.

(** If the element the result stands for was taken part in making it, nothing changes. *)
Lemma resolve_again f values own anc own' r depth :
  well f -> own_element f values own ->
  ancestry f (nearest "inherit_from" (values :: own)) anc -> last_by_name anc ->
  python_dict r -> entry "inherit_from" r = None ->
  (forall key, key <> "inherit_from"%string -> entry key r = nearest key (values :: own ++ map renamed anc)) ->
  own_element f r own' -> (forall d, In d own' -> In d (values :: own ++ map snd anc)) ->
  (List.length anc + 1 < depth)%nat ->
  exists r' c, inheritance depth f r [] = Ok (r', c) /\ python_dict r' /\ forall key, entry key r' = entry key r.
Proof.
  intros W HO HA HL HR HN HE HO' HC HD.
  assert (S : forall d, In d own' -> own' = [d]).
  { intros d Hd. unfold own_element in HO'. rewrite HN in HO'.
    set (by_id := get value_eqb _ (x_ids f)) in *.
    assert (Q : match by_id with Some d => own' = [d] | None => own' = [] end -> own' = [d]).
    { destruct by_id; intros ->; [|destruct Hd]. destruct Hd as [-> | []]. reflexivity. }
    destruct (entry "name" r); [|exact (Q HO')]. destruct HO' as [s [_ HO']].
    destruct (query_name f _); [|exact (Q HO')]. rewrite HO' in *. destruct Hd as [-> | []]. reflexivity. }
  assert (T : exists anc', ancestry f (nearest "inherit_from" (r :: own')) anc' /\ last_by_name anc' /\ (List.length anc' <= List.length anc)%nat
     /\ forall d, In d (map renamed anc') -> In d (map renamed anc)).
  { destruct own' as [|d own'].
    - exists []. cbn. rewrite HN. split; [constructor|]. split; [intros l k b E; destruct l; discriminate|]. split; [lia|intros d []].
    - specialize (S d (or_introl eq_refl)). injection S as ->. specialize (HC d (or_introl eq_refl)).
      assert (E : nearest "inherit_from" (r :: [d]) = entry "inherit_from" d) by (cbn; rewrite HN; destruct (entry "inherit_from" d); reflexivity).
      rewrite E. destruct HC as [<- | HC].
      + destruct (entry "inherit_from" values) as [k|] eqn:EV.
        * exists anc. split; [|split; [exact HL|split; [lia|auto]]]. cbn [nearest] in HA. rewrite EV in HA. exact HA.
        * exists []. split; [constructor|]. split; [intros l k b X; destruct l; discriminate|]. split; [cbn; lia|intros x []].
      + apply in_app_or in HC. destruct HC as [HC | HC].
        * assert (EV : entry "inherit_from" values = None /\ own = [d]).
          { unfold own_element in HO. destruct (entry "inherit_from" values); [subst own; destruct HC|]. split; [reflexivity|].
            set (by_id := get value_eqb _ (x_ids f)) in *.
            assert (Q : match by_id with Some d => own = [d] | None => own = [] end -> own = [d]).
            { destruct by_id; intros ->; [|destruct HC]. destruct HC as [-> | []]. reflexivity. }
            destruct (entry "name" values); [|exact (Q HO)]. destruct HO as [s [_ HO]].
            destruct (query_name f _); [|exact (Q HO)]. rewrite HO in *. destruct HC as [-> | []]. reflexivity. }
          destruct EV as [EV ->]. cbn [nearest] in HA. rewrite EV in HA. exists anc.
          assert (X : ancestry f (entry "inherit_from" d) anc) by (destruct (entry "inherit_from" d); exact HA).
          split; [exact X|]. split; [exact HL|]. split; [lia|auto].
        * destruct (ancestry_tail _ _ _ _ HA HC) as (l1 & k' & l2 & -> & X). exists l2. split; [exact X|].
          split; [apply (last_by_name_tail (l1 ++ [(k', d)])); rewrite <- app_assoc; exact HL|]. split; [rewrite app_length; cbn; lia|].
          intros x Hx. rewrite map_app. apply in_or_app. right. right. exact Hx. }
  destruct T as (anc' & HA' & HL' & HLen & HSub).
  destruct (resolve f r own' anc' depth W HR HO' HA' HL') as (r' & H1 & H2 & H3 & H4).
  { intros k K. rewrite HN in K. discriminate. }
  { lia. }
  exists r', (chain_of (r :: own') anc'). split; [exact H1|]. split; [exact H2|].
  intros key. destruct (String.eqb_spec key "inherit_from") as [-> | Ne]; [rewrite H3, HN; reflexivity|].
  rewrite (H4 key Ne). cbn [nearest]. destruct (entry key r) as [v|] eqn:E; [reflexivity|].
  rewrite (HE key Ne) in E. apply nearest_none in E. apply nearest_none. inversion E as [|? ? E1 E2]; subst.
  rewrite Forall_forall in E2. apply Forall_app. split; apply Forall_forall; intros d Hd.
  - destruct (HC d Hd) as [<- | Hc]; [exact E1|]. apply in_app_or in Hc. destruct Hc as [Hc | Hc]; [apply E2, in_or_app; auto|].
    apply in_map_iff in Hc. destruct Hc as [[k b] [Eb Hb]]. cbn in Eb. subst b. assert (R : entry key (renamed (k, d)) = None).
    { apply E2, in_or_app. right. apply in_map. exact Hb. }
    unfold renamed in R. cbn [fst snd] in R. rewrite entry_cons in R. destruct (String.eqb key "name"); [discriminate|exact R].
  - apply E2, in_or_app. right. apply HSub, Hd.
Qed.

Lemma named_same ty s n w : lower n = lower s -> named ty n w <-> named ty s w.
Proof. intros E. rewrite <- !namedb_spec. unfold namedb. rewrite E. reflexivity. Qed.

Lemma last_with_iff (P Q : wrapper -> Prop) ws w : (forall v, P v <-> Q v) -> last_with P ws w -> last_with Q ws w.
Proof.
  intros H (l1 & l2 & -> & H1 & H2). exists l1, l2. split; [reflexivity|]. split; [apply H; exact H1|].
  eapply Forall_impl; [|exact H2]. intros v Hv F. apply Hv, H, F.
Qed.

(** Completing by name and then completing the answer. *)
Lemma name_again ws ty x s w n anc depth :
  insert_all [] ws = Ok x -> Forall (fun w => python_dict (w_params w)) ws ->
  last_with (named ty s) ws w -> entry "name" (w_params w) = Some (VStr n) ->
  (exists f, component x ty = Ok f /\ ancestry f (entry "inherit_from" (w_params w)) anc) ->
  last_by_name anc -> entry "inherit_from" (w_params w) <> Some (VStr n) ->
  (List.length anc + 1 < depth)%nat ->
  exists r c r' c', try_completing_model depth x ty [("name"%string, VStr s)] = Ok (r, c) /\
    try_completing_model depth x ty r = Ok (r', c') /\ forall key, entry key r' = entry key r.
Proof.
  intros HX HP HW HN HE HL HS HD.
  destruct (complete_by_name ws ty x s w n anc depth HX HP HW HN HE HL HS HD) as (r & H1 & H2 & H3 & H4).
  pose proof HE as [f [HF HA]].
  assert (Hns : lower n = lower s).
  { destruct HW as [l1 [l2 [_ [X _]]]]. destruct X as [_ [m [Hm X]]]. rewrite HN in Hm. injection Hm as <-. apply same_iff in X. exact X. }
  assert (HW' : last_with (named ty n) ws w) by (apply (last_with_iff (named ty s)); [intros v; symmetry; apply named_same; exact Hns|exact HW]).
  assert (HNr : entry "name" r = Some (VStr n)) by (rewrite H4 by discriminate; cbn [nearest]; rewrite HN; reflexivity).
  assert (K : (match r with [(k, _)] => String.eqb k "id" || String.eqb k "name" | _ => false end = true) -> r = [("name"%string, VStr n)]).
  { destruct r as [|[k v] [|]]; try discriminate. intros _. unfold entry in HNr. cbn [find fst] in HNr. destruct (String.eqb_spec k "name") as [-> | ]; [|discriminate].
    cbn in HNr. injection HNr as ->. reflexivity. }
  exists r, (match anc with [] => [] | _ => VStr n :: map fst anc end).
  destruct (match r with [(k, _)] => String.eqb k "id" || String.eqb k "name" | _ => false end) eqn:EQ.
  - specialize (K eq_refl). destruct (complete_by_name ws ty x n w n anc depth HX HP HW' HN HE HL HS HD) as (r' & G1 & G2 & G3 & G4).
    exists r', (match anc with [] => [] | _ => VStr n :: map fst anc end).
    split; [exact H1|]. split; [rewrite K; exact G1|]. intros key.
    destruct (String.eqb_spec key "inherit_from") as [-> | Ne]; [rewrite G3, H3; reflexivity|]. rewrite (G4 key Ne), (H4 key Ne). reflexivity.
  - assert (HFi : filled ws ty f) by (exists x; auto). pose proof (filled_well ws ty f HFi HP) as W.
    assert (Hq : query_name f (VStr n) = Ok (w_params w)).
    { destruct (query_name_answers ws ty f n HFi) as [[w' [X ->]] | [X _]].
      - f_equal. f_equal. destruct X as (a1 & a2 & E1 & X1 & X2). destruct HW' as (b1 & b2 & E2 & Y1 & Y2).
        rewrite E1 in E2. clear -E2 X1 X2 Y1 Y2. revert b1 E2. induction a1 as [|a a1 IH]; intros [|b b1] E; cbn in E; injection E as E0 E.
        + exact E0.
        + subst. exfalso. apply (proj1 (Forall_forall _ _) X2 w); [apply in_or_app; right; left; reflexivity|exact Y1].
        + subst. exfalso. apply (proj1 (Forall_forall _ _) Y2 w'); [apply in_or_app; right; left; reflexivity|exact X1].
        + exact (IH b1 E).
      - exfalso. destruct HW' as (b1 & b2 & -> & Y1 & _). apply (proj1 (Forall_forall _ _) X w); [apply in_or_app; right; left; reflexivity|exact Y1]. }
    set (own := match entry "inherit_from" (w_params w) with Some _ => [] | None => [w_params w] end).
    assert (HO : own_element f (w_params w) own).
    { unfold own_element, own. destruct (entry "inherit_from" (w_params w)); [reflexivity|].
      rewrite HN. exists n. split; [reflexivity|]. rewrite Hq. reflexivity. }
    assert (HNn : nearest "inherit_from" (w_params w :: own) = entry "inherit_from" (w_params w)).
    { unfold own. cbn. destruct (entry "inherit_from" (w_params w)) eqn:E; [reflexivity|]. cbn. rewrite E. reflexivity. }
    destruct (resolve_again f (w_params w) own anc [w_params w] r depth W HO) as (r' & c & G1 & _ & G2); auto.
    + rewrite HNn. exact HA.
    + intros key Ne. rewrite (H4 key Ne). unfold own. destruct (entry "inherit_from" (w_params w)) eqn:E; [reflexivity|].
      cbn. destruct (entry key (w_params w)); reflexivity.
    + unfold own_element. rewrite H3, HNr. exists n. split; [reflexivity|]. rewrite Hq. reflexivity.
    + intros d [<- | []]. left. reflexivity.
    + exists r', c. split; [exact H1|]. split; [|exact G2]. unfold try_completing_model. rewrite EQ. cbn [bind]. rewrite HF. exact G1.
Qed.

Lemma known_again f values n d anc depth :
  well f -> python_dict values -> entry "inherit_from" values = None -> entry "name" values = Some (VStr n) ->
  query_name f (VStr n) = Ok d -> ancestry f (entry "inherit_from" d) anc -> last_by_name anc ->
  (List.length anc + 1 < depth)%nat ->
  exists r c r' c', inheritance depth f values [] = Ok (r, c) /\ inheritance depth f r [] = Ok (r', c') /\
    forall key, entry key r' = entry key r.
Proof.
  intros W HV HI HN HQ HA HL HD.
  assert (HO : own_element f values [d]) by (unfold own_element; rewrite HI, HN; exists n; split; [reflexivity|]; rewrite HQ; reflexivity).
  assert (HA' : ancestry f (nearest "inherit_from" (values :: [d])) anc).
  { cbn [nearest]. rewrite HI. destruct (entry "inherit_from" d); exact HA. }
  destruct (resolve f values [d] anc depth W HV HO HA' HL) as (r & H1 & H2 & H3 & H4); [intros k K; congruence|exact HD|].
  assert (HNr : entry "name" r = Some (VStr n)) by (rewrite H4 by discriminate; cbn [nearest]; rewrite HN; reflexivity).
  destruct (resolve_again f values [d] anc [d] r depth W HO HA' HL H2 H3 H4) as (r' & c & G1 & _ & G2); [|intros x [<- | []]; right; left; reflexivity|exact HD|].
  - unfold own_element. rewrite H3, HNr. exists n. split; [reflexivity|]. rewrite HQ. reflexivity.
  - exists r, (chain_of (values :: [d]) anc), r', c. auto.
Qed.
