(** Proofs about going through the elements of a fixture. *)
From Coq Require Import String Ascii.
From Verif Require Import PyBase FixModel FixSpec FixProofs IterModel IterSpec.
Open Scope nat_scope.
Open Scope list_scope.

(** * The order of a dictionary *)

Lemma put_order {K A : Set} (eqb : K -> K -> bool) (sp : forall a b, eqb a b = true <-> a = b)
      k (v : A) d :
  map fst (put eqb k v d) =
  match get eqb k d with Some _ => map fst d | None => map fst d ++ [k] end.
Proof.
  induction d as [|[k' v'] d IH]; cbn; [reflexivity|].
  destruct (eqb k k') eqn:E; cbn; [reflexivity|]. rewrite IH.
  destruct (get eqb k d); reflexivity.
Qed.

Lemma get_nodup {K A : Set} (eqb : K -> K -> bool) (sp : forall a b, eqb a b = true <-> a = b)
      (d : assoc K A) :
  NoDup (map fst d) -> Forall2 (fun k v => get eqb k d = Some v) (map fst d) (map snd d).
Proof.
  induction d as [|[k v] d IH]; cbn; intros H; constructor.
  - rewrite (proj2 (sp k k) eq_refl). reflexivity.
  - inversion H as [|? ? H1 H2]; subst.
    assert (G : forall ks vs, Forall2 (fun k v => get eqb k d = Some v) ks vs ->
              Forall (fun k' => In k' (map fst d)) ks ->
              Forall2 (fun k0 v0 => (if eqb k0 k then Some v else get eqb k0 d) = Some v0) ks vs).
    { induction 1 as [|k1 v1 ks vs G1 _ IH2]; intros HF; constructor.
      - inversion HF as [|? ? F1 F2]; subst. destruct (eqb k1 k) eqn:E; [|exact G1].
        apply sp in E. subst. contradiction.
      - apply IH2. inversion HF; assumption. }
    apply G; [apply IH; exact H2|]. apply Forall_forall. auto.
Qed.

(** * What a fixture holds *)

Record holds (ty : string) (ws : list wrapper) (f : fixture) : Prop := mkHolds {
  h_type : x_type f = lower ty;
  h_names : exists ss, first_names ty ws ss /\ map fst (x_names f) = map lower ss;
  h_ids : first_ids ty ws (map fst (x_ids f));
  h_nodup : NoDup (map fst (x_names f));
  h_nodup_ids : NoDup (map fst (x_ids f));
  h_name : forall s, get String.eqb (lower s) (x_names f) = last_name ty s ws;
  h_id : forall i, get value_eqb i (x_ids f) = last_id ty i ws
}.

Lemma holds_new ty : holds ty [] (new_fixture ty).
Proof.
  constructor; cbn; auto; try constructor.
  exists []. split; [constructor|reflexivity].
Qed.

Lemma insert_ignores ty f w :
  x_type f = lower ty -> of_typeb ty w = false -> insert f w = Ok f.
Proof.
  intros HT H. unfold insert. rewrite HT, lower_lower.
  unfold of_typeb in H. destruct (String.eqb (lower (w_type w)) (lower ty)); [|reflexivity].
  cbn [negb andb] in *. unfold has in H. rewrite dget_entry.
  destruct (entry "name" (w_params w)); [discriminate|reflexivity].
Qed.

Lemma insert_stores ty f w n i :
  x_type f = lower ty -> of_type ty w -> entry "name" (w_params w) = Some n ->
  entry "id" (w_params w) = Some i ->
  insert f w = Ok (mkFix (x_type f) (put String.eqb (lower (str n)) (w_params w) (x_names f))
                         (put value_eqb i (w_params w) (x_ids f))).
Proof.
  intros HT [H1 H2] Hn Hi. unfold insert. rewrite HT, lower_lower.
  apply same_iff in H1. rewrite H1, String.eqb_refl. cbn [negb].
  rewrite !dget_entry, Hn, Hi. reflexivity.
Qed.

Lemma holds_skip ty ws f w : holds ty ws f -> ~ of_type ty w -> holds ty (ws ++ [w]) f.
Proof.
  intros [H1 [ss [H2 H3]] H4 H5 H6 H7 H8] Hw.
  assert (Hb : of_typeb ty w = false).
  { destruct (of_typeb ty w) eqn:E; [|reflexivity]. apply of_typeb_spec in E. contradiction. }
  constructor; auto.
  - exists ss. split; [constructor; assumption|assumption].
  - constructor; assumption.
  - intros s. rewrite H7. unfold last_name. rewrite rev_unit. cbn [find].
    rewrite namedb_type by exact Hb. reflexivity.
  - intros i. rewrite H8. unfold last_id. rewrite rev_unit. cbn [find].
    rewrite with_idb_type by exact Hb. reflexivity.
Qed.

Lemma named_self ty w n : of_type ty w -> entry "name" (w_params w) = Some n ->
  named ty (str n) w.
Proof. intros H1 H2. split; [exact H1|]. exists n. split; [exact H2|]. apply same_iff. reflexivity. Qed.

Lemma holds_store ty ws f w n i :
  holds ty ws f -> of_type ty w -> entry "name" (w_params w) = Some n ->
  entry "id" (w_params w) = Some i ->
  holds ty (ws ++ [w])
    (mkFix (x_type f) (put String.eqb (lower (str n)) (w_params w) (x_names f))
           (put value_eqb i (w_params w) (x_ids f))).
Proof.
  intros [H1 [ss [H2 H3]] H4 H5 H6 H7 H8] Hw Hn Hi.
  constructor; cbn [x_type x_names x_ids]; auto.
  - rewrite (put_order _ String.eqb_eq).
    destruct (get String.eqb (lower (str n)) (x_names f)) as [d|] eqn:E.
    + exists ss. split; [|exact H3].
      apply (get_in _ String.eqb_eq) in E. apply (in_map fst) in E. cbn in E. rewrite H3 in E.
      apply in_map_iff in E. destruct E as [s [E1 E2]].
      apply (names_old _ _ _ _ s); [exact H2|exact E2|]. split; [exact Hw|].
      exists n. split; [exact Hn|]. apply same_iff. congruence.
    + exists (ss ++ [str n]). split; [|rewrite map_app, H3; reflexivity].
      apply (names_new _ _ _ _ n); auto. apply Forall_forall. intros s Hs F.
      apply (get_none _ String.eqb_eq) in E. apply E. rewrite H3. apply same_iff in F.
      rewrite <- F. apply in_map. exact Hs.
  - rewrite (put_order _ value_eqb_spec).
    destruct (get value_eqb i (x_ids f)) as [d|] eqn:E.
    + apply (ids_old _ _ _ _ i); [exact H4| |split; assumption].
      apply (get_in _ value_eqb_spec) in E. apply (in_map fst) in E. exact E.
    + apply ids_new; [exact H4|split; assumption|].
      apply (get_none _ value_eqb_spec) in E. exact E.
  - apply (put_nodup _ String.eqb_eq). exact H5.
  - apply (put_nodup _ value_eqb_spec). exact H6.
  - intros s. rewrite (get_put _ String.eqb_eq), H7. unfold last_name. rewrite rev_unit.
    cbn [find]. unfold namedb at 2. rewrite (proj2 (of_typeb_spec ty w) Hw), Hn. cbn [andb].
    rewrite (String.eqb_sym (lower s)). destruct (String.eqb (lower (str n)) (lower s)); reflexivity.
  - intros j. rewrite (get_put _ value_eqb_spec), H8. unfold last_id. rewrite rev_unit.
    cbn [find]. unfold with_idb at 2. rewrite (proj2 (of_typeb_spec ty w) Hw), Hi. cbn [andb].
    destruct (value_eqb j i); reflexivity.
Qed.

Lemma of_type_dec ty w : {of_type ty w} + {~ of_type ty w}.
Proof.
  destruct (of_typeb ty w) eqn:E; [left|right].
  - apply of_typeb_spec. exact E.
  - intros F. apply of_typeb_spec in F. congruence.
Qed.

Lemma holds_insert ty ws f w f' :
  holds ty ws f -> insert f w = Ok f' -> holds ty (ws ++ [w]) f'.
Proof.
  intros H E. destruct (of_type_dec ty w) as [Hw|Hw].
  - destruct (entry "name" (w_params w)) as [n|] eqn:En; [|destruct Hw; contradiction].
    destruct (entry "id" (w_params w)) as [i|] eqn:Ei.
    + rewrite (insert_stores ty f w n i) in E; auto; [|apply h_type in H; exact H].
      injection E as <-. apply holds_store; assumption.
    + unfold insert in E. rewrite (h_type _ _ _ H), lower_lower in E. destruct Hw as [Hw _].
      apply same_iff in Hw. rewrite Hw, String.eqb_refl in E. cbn [negb] in E.
      rewrite !dget_entry, En, Ei in E. discriminate.
  - rewrite (insert_ignores ty) in E.
    + injection E as <-. apply holds_skip; assumption.
    + apply h_type in H. exact H.
    + destruct (of_typeb ty w) eqn:Eb; [|reflexivity]. apply of_typeb_spec in Eb. contradiction.
Qed.

Lemma holds_listing ty ws f : holds ty ws f -> listing ty ws (by_name f).
Proof.
  intros [_ [ss [H2 H3]] _ H5 _ H7 _]. exists ss. split; [exact H2|].
  pose proof (get_nodup _ String.eqb_eq _ H5) as G. rewrite H3 in G.
  assert (G' : forall ss ds, Forall2 (fun k v => get String.eqb k (x_names f) = Some v) (map lower ss) ds ->
     Forall2 (fun s d => exists w, last_with (named ty s) ws w /\ d = w_params w) ss ds).
  { clear -H7. induction ss as [|s ss IH]; intros ds G; inversion G as [|? v ? ds' G1 G2]; subst; constructor.
    - rewrite H7 in G1. unfold last_name in G1.
      pose proof (find_last _ _ ws (namedb_spec ty s)) as F.
      destruct (find (namedb ty s) (rev ws)) as [w|]; [|discriminate].
      exists w. split; [exact F|]. cbn in G1. congruence.
    - apply IH. exact G2. }
  apply G'. exact G.
Qed.

(** * The iterator *)

Definition tidy (s : fx) : Prop := fx_list s = by_name (fx_fix s).

Lemma fx_insert_fix s w s' :
  fx_insert s w = Ok s' -> insert (fx_fix s) w = Ok (fx_fix s') /\ (tidy s -> tidy s') /\
  fx_index s' = fx_index s.
Proof.
  unfold fx_insert. intros H.
  destruct (negb (String.eqb (lower (w_type w)) (lower (x_type (fx_fix s))))) eqn:E1.
  - injection H as <-. unfold insert. rewrite E1. auto.
  - destruct (dget "name" (w_params w)) eqn:E2.
    + destruct (insert (fx_fix s) w) as [f|] eqn:E3; [|discriminate]. cbn [bind] in H.
      injection H as <-. cbn. unfold tidy. auto.
    + injection H as <-. unfold insert. rewrite E1, E2. auto.
Qed.

Lemma search_fix n o : forall s b s', search n o s = Some (b, s') ->
  fx_fix s' = fx_fix s /\ fx_list s' = fx_list s.
Proof.
  induction n as [|n IH]; cbn; intros s b s' H; [discriminate|].
  unfold fx_next in H. destruct (nth_error (fx_list s) (fx_index s)) as [x|].
  - destruct (equals o x); [injection H as _ <-; auto|]. apply IH in H. exact H.
  - injection H as _ <-. auto.
Qed.

Lemma insert_fails ty f w e :
  x_type f = lower ty -> insert f w = Err e ->
  of_type ty w /\ entry "id" (w_params w) = None.
Proof.
  intros HT H. unfold insert in H. rewrite HT, lower_lower in H.
  destruct (String.eqb (lower (w_type w)) (lower ty)) eqn:E; [|discriminate]. cbn [negb] in H.
  rewrite !dget_entry in H.
  destruct (entry "name" (w_params w)) eqn:E1; [|discriminate].
  destruct (entry "id" (w_params w)) eqn:E2; [discriminate|].
  split; [|reflexivity]. split; [|congruence]. apply same_iff. apply String.eqb_eq. exact E.
Qed.

Lemma step_holds ty ws s o :
  holds ty ws (fx_fix s) -> storable ty (inserted [o]) ->
  holds ty (ws ++ inserted [o]) (fx_fix (step s o)).
Proof.
  intros H HS. destruct o as [w| | |n o]; cbn [inserted] in *; try rewrite app_nil_r.
  - cbn [step]. destruct (fx_insert s w) as [s'|e] eqn:E.
    + apply fx_insert_fix in E. destruct E as [E _]. apply (holds_insert _ _ (fx_fix s)); assumption.
    + exfalso. unfold fx_insert in E.
      destruct (negb _) in E; [discriminate|].
      destruct (dget "name" (w_params w)); [|discriminate].
      destruct (insert (fx_fix s) w) as [f|e'] eqn:E2; [discriminate|].
      apply (insert_fails ty) in E2; [|apply h_type in H; exact H]. destruct E2 as [E3 E4].
      inversion HS as [|? ? H1 _]; subst. apply H1 in E3. contradiction.
  - exact H.
  - cbn. unfold fx_next. destruct (nth_error (fx_list s) (fx_index s)); exact H.
  - cbn. destruct (contains n o s) as [[b s']|] eqn:E; [|exact H].
    apply search_fix in E. destruct E as [E _]. rewrite E. exact H.
Qed.

Lemma run_holds ty : forall ops ws s,
  holds ty ws (fx_fix s) -> storable ty (inserted ops) ->
  holds ty (ws ++ inserted ops) (fx_fix (run s ops)).
Proof.
  induction ops as [|o ops IH]; intros ws s H HS.
  - cbn. rewrite app_nil_r. exact H.
  - assert (E : inserted (o :: ops) = inserted [o] ++ inserted ops).
    { destruct o; reflexivity. }
    rewrite E in HS |- *. apply Forall_app in HS. destruct HS as [HS1 HS2].
    rewrite app_assoc. unfold run. cbn [fold_left]. apply IH; [|exact HS2].
    apply step_holds; assumption.
Qed.

Lemma insert_without_id ty before w after : entry "id" (w_params w) = None ->
  run (fx_new ty) (before ++ OInsert w :: after) = run (fx_new ty) (before ++ after).
Proof.
  intros H. unfold run. rewrite !fold_left_app. cbn [fold_left]. f_equal. generalize (fold_left step before (fx_new ty)).
  intros s. cbn [step]. unfold fx_insert, insert. rewrite (dget_entry "id"), H.
  destruct (negb _) eqn:E; [reflexivity|]. destruct (dget "name" (w_params w)); reflexivity.
Qed.

(** ** A loop that only reads *)

Lemma rounds_skip : forall l1 n s seen,
  skipn (fx_index s) (fx_list s) = l1 -> (List.length l1 < n)%nat ->
  rounds n skip s seen =
  Some (Ok (mkFx (fx_fix s) (fx_index s + List.length l1) (fx_list s), seen ++ l1)).
Proof.
  induction l1 as [|x l1 IH]; intros n s seen H Hn.
  - destruct n as [|n]; [inversion Hn|]. cbn [rounds].
    unfold fx_next. assert (E : nth_error (fx_list s) (fx_index s) = None).
    { apply nth_error_None. rewrite <- (firstn_skipn (fx_index s) (fx_list s)), H, app_nil_r.
      rewrite firstn_length. lia. }
    rewrite E. cbn. rewrite Nat.add_0_r, app_nil_r. destruct s; reflexivity.
  - destruct n as [|n]; [inversion Hn|]. cbn [rounds].
    unfold fx_next. assert (E : nth_error (fx_list s) (fx_index s) = Some x).
    { rewrite <- (firstn_skipn (fx_index s) (fx_list s)), H.
      assert (L : List.length (firstn (fx_index s) (fx_list s)) = fx_index s).
      { rewrite firstn_length. apply Nat.min_l.
        destruct (Nat.le_gt_cases (fx_index s) (List.length (fx_list s))); [assumption|].
        rewrite skipn_all2 in H by lia. discriminate. }
      rewrite nth_error_app2 by lia. rewrite L, Nat.sub_diag. reflexivity. }
    rewrite E. cbn [skip].
    rewrite IH; cbn [fx_fix fx_index fx_list].
    + rewrite <- app_assoc. cbn [app List.length]. rewrite <- Nat.add_assoc. reflexivity.
    + replace (fx_index s + 1) with (1 + fx_index s) by lia.
      rewrite <- (Nat.add_comm (fx_index s)). clear -H.
      revert x l1 H. generalize (fx_index s) as k, (fx_list s) as l.
      induction k as [|k IHk]; intros l x l1 H; destruct l as [|y l]; cbn in *; try discriminate.
      * congruence.
      * apply (IHk _ x). exact H.
    + cbn in Hn. lia.
Qed.

Lemma for_each_skip n s :
  (List.length (by_name (fx_fix s)) < n)%nat ->
  for_each n skip s =
  Some (Ok (mkFx (fx_fix s) (List.length (by_name (fx_fix s))) (by_name (fx_fix s)),
            by_name (fx_fix s))).
Proof.
  intros H. unfold for_each. rewrite (rounds_skip (by_name (fx_fix s))); [reflexivity|reflexivity|exact H].
Qed.

(** ** A loop inside of a loop *)

Lemma for_each_again n m s d ds :
  by_name (fx_fix s) = d :: ds -> (List.length (d :: ds) < m)%nat ->
  exists s', for_each (S (S n)) (again m) s = Some (Ok (s', [d])).
Proof.
  intros E Hm. unfold for_each, fx_iter. rewrite E. cbn [rounds fx_next fx_list fx_index nth_error].
  unfold fx_next at 1. cbn [fx_list fx_index nth_error fx_fix Nat.add].
  unfold again at 1.
  rewrite for_each_skip; [|cbn [fx_fix]; rewrite E; exact Hm].
  cbn [fx_fix]. rewrite E. cbn [app]. cbn [rounds]. unfold fx_next. cbn [fx_list fx_index].
  rewrite (proj2 (nth_error_None (d :: ds) (List.length (d :: ds)))) by lia.
  eexists. reflexivity.
Qed.

(** ** Asking for a name *)

Lemma search_value v : forall l1 n s,
  skipn (fx_index s) (fx_list s) = l1 -> (List.length l1 < n)%nat ->
  exists s', search n (OVal v) s = Some (false, s').
Proof.
  induction l1 as [|x l1 IH]; intros n s H Hn; (destruct n as [|n]; [inversion Hn|]); cbn [search].
  - unfold fx_next. assert (E : nth_error (fx_list s) (fx_index s) = None).
    { apply nth_error_None. rewrite <- (firstn_skipn (fx_index s) (fx_list s)), H, app_nil_r.
      rewrite firstn_length. lia. }
    rewrite E. eauto.
  - unfold fx_next. destruct (nth_error (fx_list s) (fx_index s)) as [y|]; [|eauto].
    cbn [equals]. apply IH; cbn [fx_fix fx_index fx_list]; [|cbn in Hn; lia].
    clear -H. rewrite Nat.add_1_r. revert x l1 H. generalize (fx_index s) as k, (fx_list s) as l.
    induction k as [|k IHk]; intros l x l1 H; destruct l as [|z l]; cbn in *; try discriminate.
    + congruence.
    + apply (IHk _ x). exact H.
Qed.

Lemma contains_value v n s :
  (List.length (by_name (fx_fix s)) < n)%nat -> exists s', contains n (OVal v) s = Some (false, s').
Proof. intros H. unfold contains. apply (search_value v (by_name (fx_fix s))); [reflexivity|exact H]. Qed.

Lemma skipn_next {A} k (l : list A) x l1 : skipn k l = x :: l1 -> nth_error l k = Some x /\ skipn (k + 1) l = l1.
Proof.
  revert l. induction k as [|k IH]; intros [|y l] H; cbn in *; try discriminate.
  - injection H as -> ->. auto.
  - exact (IH l H).
Qed.

Lemma search_all o : forall l1 n s,
  skipn (fx_index s) (fx_list s) = l1 -> (List.length l1 < n)%nat ->
  exists s', search n o s = Some (existsb (equals o) l1, s').
Proof.
  induction l1 as [|x l1 IH]; intros n s H Hn; (destruct n as [|n]; [inversion Hn|]); cbn [search].
  - unfold fx_next. assert (E : nth_error (fx_list s) (fx_index s) = None).
    { apply nth_error_None. rewrite <- (firstn_skipn (fx_index s) (fx_list s)), H, app_nil_r.
      rewrite firstn_length. lia. }
    rewrite E. eauto.
  - unfold fx_next. apply skipn_next in H. destruct H as [E H]. rewrite E. cbn [existsb].
    destruct (equals o x); [cbn [orb]; eauto|]. cbn [orb].
    apply IH; cbn [fx_fix fx_index fx_list]; [exact H|cbn in Hn; lia].
Qed.

Lemma entry_in d k v : python_dict d -> entry k d = Some v <-> In (k, v) d.
Proof.
  unfold python_dict. induction d as [|[k' v'] d IH]; intros H; [split; [discriminate|intros []]|].
  cbn in H. apply NoDup_cons_iff in H. destruct H as [N H]. rewrite entry_cons. cbn [In].
  destruct (String.eqb_spec k k') as [->|D].
  - split; [intros [= <-]; left; reflexivity|]. intros [E|E]; [congruence|].
    elim N. apply (in_map fst) in E. exact E.
  - rewrite (IH H). split; [auto|]. intros [E|E]; [congruence|exact E].
Qed.

Lemma equals_spec e d : python_dict e -> python_dict d ->
  equals (ODict e) d = true <-> forall k, entry k e = entry k d.
Proof.
  intros He Hd. cbn [equals]. rewrite andb_true_iff, forallb_forall, Nat.eqb_eq.
  assert (S : (forall kv, In kv e -> match dget (fst kv) d with Some v => value_eqb (snd kv) v | None => false end = true)
              <-> incl e d).
  { split.
    - intros H [k v] HI. specialize (H _ HI). cbn [fst snd] in H. rewrite dget_entry in H.
      destruct (entry k d) as [v'|] eqn:E; [|discriminate H]. apply value_eqb_spec in H. subst v'.
      apply entry_in; assumption.
    - intros H [k v] HI. cbn [fst snd]. rewrite dget_entry, (proj2 (entry_in d k v Hd) (H _ HI)).
      apply value_eqb_spec. reflexivity. }
  rewrite S. assert (ND : NoDup e) by (apply (NoDup_map_inv fst), He).
  assert (ND' : NoDup d) by (apply (NoDup_map_inv fst), Hd). split.
  - intros [L I]. assert (I' : incl d e) by (apply NoDup_length_incl; [exact ND|rewrite L; apply Nat.le_refl|exact I]).
    intros k. destruct (entry k e) as [v|] eqn:E.
    + apply entry_in in E; [|exact He]. symmetry. apply entry_in; [exact Hd|apply I, E].
    + destruct (entry k d) as [v|] eqn:E'; [|reflexivity]. apply entry_in in E'; [|exact Hd].
      apply I', entry_in in E'; [congruence|exact He].
  - intros H. assert (I : incl e d) by (intros [k v]; rewrite <- !entry_in by assumption; rewrite H; auto).
    assert (I' : incl d e) by (intros [k v]; rewrite <- !entry_in by assumption; rewrite H; auto).
    split; [|exact I]. apply Nat.le_antisymm; apply NoDup_incl_length; assumption.
Qed.

Lemma listing_dicts ty ws ds : Forall (fun w => python_dict (w_params w)) ws -> listing ty ws ds ->
  Forall python_dict ds.
Proof.
  intros HD [ss [_ H]]. induction H as [|s d ss ds [w [[l1 [l2 [E _]]] ->]] _ IH]; constructor; [|exact IH].
  rewrite Forall_forall in HD. apply HD. rewrite E. apply in_or_app. right. left. reflexivity.
Qed.

Lemma contains_dict ty ops e : storable ty (inserted ops) ->
  Forall (fun w => python_dict (w_params w)) (inserted ops) -> python_dict e ->
  exists ds b least, listing ty (inserted ops) ds /\
    (b = true <-> exists d, In d ds /\ forall k, entry k e = entry k d) /\
    forall n, least <= n -> exists s', contains n (ODict e) (run (fx_new ty) ops) = Some (b, s').
Proof.
  intros HS HD He.
  pose proof (run_holds ty ops [] (fx_new ty) (holds_new ty) HS) as H. cbn [app] in H.
  pose proof (holds_listing _ _ _ H) as HL.
  set (s := run (fx_new ty) ops) in *.
  exists (by_name (fx_fix s)), (existsb (equals (ODict e)) (by_name (fx_fix s))), (S (List.length (by_name (fx_fix s)))).
  split; [exact HL|]. split.
  - rewrite existsb_exists. pose proof (listing_dicts _ _ _ HD HL) as F. rewrite Forall_forall in F.
    split; intros [d [HI E]]; exists d; (split; [exact HI|]); apply (equals_spec e d He (F d HI)); exact E.
  - intros n Hn. unfold contains. apply (search_all (ODict e) (by_name (fx_fix s))); [reflexivity|exact Hn].
Qed.

(** * All components *)

Definition all_hold (ws : list wrapper) (x : fixtures) : Prop :=
  forall ty, match get String.eqb (lower ty) x with
             | Some f => holds ty ws f /\ exists w, In w ws /\ same_text (w_type w) ty
             | None => Forall (fun w => ~ same_text (w_type w) ty) ws
             end.

Lemma holds_many_skip ty : forall ws2 ws f,
  holds ty ws f -> Forall (fun w => ~ same_text (w_type w) ty) ws2 -> holds ty (ws ++ ws2) f.
Proof.
  induction ws2 as [|w ws2 IH]; intros ws f H HF; [rewrite app_nil_r; exact H|].
  inversion HF as [|? ? H1 H2]; subst.
  replace (ws ++ w :: ws2) with ((ws ++ [w]) ++ ws2) by (rewrite <- app_assoc; reflexivity).
  apply IH; [|exact H2]. apply holds_skip; [exact H|]. intros [F _]. contradiction.
Qed.

Lemma holds_type ty ty' ws f : lower ty = lower ty' -> holds ty ws f -> holds ty' ws f.
Proof.
  intros E. 
  assert (Ho : forall w, of_type ty w <-> of_type ty' w).
  { intros w. unfold of_type. rewrite !same_iff, E. tauto. }
  assert (Hn : forall s w, named ty s w <-> named ty' s w).
  { intros s w. unfold named. rewrite Ho. tauto. }
  assert (Hi : forall i w, with_id ty i w <-> with_id ty' i w).
  { intros i w. unfold with_id. rewrite Ho. tauto. }
  intros [H1 [ss [H2 H3]] H4 H5 H6 H7 H8]. constructor; auto.
  - congruence.
  - exists ss. split; [|exact H3]. clear -H2 Ho Hn. induction H2; [constructor| | |].
    + apply names_skip; [assumption|]. rewrite <- Ho. assumption.
    + apply (names_old _ _ _ _ s); auto. apply Hn. assumption.
    + apply names_new; auto. apply Ho. assumption.
  - clear -H4 Ho Hi. induction H4; [constructor| | |].
    + apply ids_skip; [assumption|]. rewrite <- Ho. assumption.
    + apply (ids_old _ _ _ _ i); auto. apply Hi. assumption.
    + apply ids_new; auto. apply Hi. assumption.
  - intros s. rewrite H7. unfold last_name, namedb, of_typeb. rewrite E. reflexivity.
  - intros i. rewrite H8. unfold last_id, with_idb, of_typeb. rewrite E. reflexivity.
Qed.

Lemma new_lower ty : new_fixture (lower ty) = new_fixture ty.
Proof. unfold new_fixture. rewrite lower_lower. reflexivity. Qed.

Lemma insert_model_holds ws x w x' :
  all_hold ws x -> insert_model x w = Ok x' -> all_hold (ws ++ [w]) x'.
Proof.
  intros HA H. unfold insert_model in H.
  set (f0 := match get String.eqb (lower (w_type w)) x with
             | Some f => f | None => new_fixture (lower (w_type w)) end) in H.
  assert (H0 : holds (w_type w) ws f0).
  { pose proof (HA (w_type w)) as HT. unfold f0.
    destruct (get String.eqb (lower (w_type w)) x) as [f|]; [apply HT|].
    rewrite new_lower. apply (holds_many_skip _ ws []); [apply holds_new|exact HT]. }
  clearbody f0. destruct (insert f0 w) as [f1|] eqn:E; [|discriminate]. injection H as <-.
  intros ty. rewrite (get_put String.eqb String.eqb_eq).
  destruct (String.eqb (lower ty) (lower (w_type w))) eqn:Ety.
  - apply String.eqb_eq in Ety. split.
    + apply (holds_type (w_type w)); [congruence|]. apply (holds_insert _ _ f0); assumption.
    + exists w. split; [apply in_or_app; right; left; reflexivity|]. apply same_iff. congruence.
  - pose proof (HA ty) as HT.
    assert (Hn : ~ same_text (w_type w) ty).
    { rewrite same_iff. intros F. rewrite F, String.eqb_refl in Ety. discriminate. }
    destruct (get String.eqb (lower ty) x) as [f|].
    + destruct HT as [HT [w' [HI HS]]]. split.
      * apply holds_skip; [exact HT|]. intros [F _]. contradiction.
      * exists w'. split; [apply in_or_app; auto|exact HS].
    + apply Forall_app. split; [exact HT|]. constructor; [exact Hn|constructor].
Qed.

Lemma insert_all_holds ws x : insert_all [] ws = Ok x -> all_hold ws x.
Proof.
  assert (G : forall ws0 x0, all_hold ws0 x0 -> insert_all x0 ws = Ok x -> all_hold (ws0 ++ ws) x).
  { induction ws as [|w ws IH]; intros ws0 x0 HM H.
    - cbn in H. injection H as <-. rewrite app_nil_r. exact HM.
    - cbn [insert_all] in H. destruct (insert_model x0 w) as [x1|] eqn:E; [|discriminate].
      cbn [bind] in H. replace (ws0 ++ w :: ws) with ((ws0 ++ [w]) ++ ws)
        by (rewrite <- app_assoc; reflexivity).
      apply (IH _ x1); [|exact H]. apply (insert_model_holds _ x0); assumption. }
  intros H. apply (G [] []); [|exact H]. intros ty. cbn. constructor.
Qed.

Lemma lower_no_capitals s : no_capitals (lower s).
Proof.
  unfold no_capitals. induction s as [|c s IH]; cbn [lower list_ascii_of_string]; constructor; [|exact IH].
  destruct (lower_ascii_cases c) as [[H1 H2]|[H1 H2]]; [lia|]. rewrite H1. exact H2.
Qed.

Lemma query_ids_first ws x ty :
  insert_all [] ws = Ok x ->
  (exists w, In w ws /\ same_text (w_type w) ty) ->
  exists is, query_ids x ty = Ok is /\ first_ids ty ws is.
Proof.
  intros H [w [HI HS]]. pose proof (insert_all_holds ws x H ty) as G.
  unfold query_ids, component. destruct (get String.eqb (lower ty) x) as [f|].
  - cbn [bind]. eexists. split; [reflexivity|]. apply (h_ids _ _ _ (proj1 G)).
  - exfalso. rewrite Forall_forall in G. apply (G w HI HS).
Qed.

Lemma query_names_first ws x ty :
  insert_all [] ws = Ok x ->
  (exists w, In w ws /\ same_text (w_type w) ty) ->
  exists ks ss, query_names x ty = Ok ks /\ first_names ty ws ss /\
    Forall2 (fun s k => same_text s k /\ no_capitals k) ss ks.
Proof.
  intros H [w [HI HS]]. pose proof (insert_all_holds ws x H ty) as G.
  unfold query_names, component. destruct (get String.eqb (lower ty) x) as [f|].
  - destruct (h_names _ _ _ (proj1 G)) as [ss [G1 G2]]. cbn [bind]. exists (map fst (x_names f)), ss.
    split; [reflexivity|]. split; [exact G1|]. rewrite G2. clear.
    induction ss as [|s ss IH]; cbn; constructor; [|exact IH].
    split; [|apply lower_no_capitals]. apply same_iff. rewrite lower_lower. reflexivity.
  - exfalso. rewrite Forall_forall in G. apply (G w HI HS).
Qed.

Lemma query_unknown ws x ty :
  insert_all [] ws = Ok x -> Forall (fun w => ~ same_text (w_type w) ty) ws ->
  query_ids x ty = Err ValueError /\ query_names x ty = Err ValueError.
Proof.
  intros H HF. pose proof (insert_all_holds ws x H ty) as G.
  unfold query_ids, query_names, component. destruct (get String.eqb (lower ty) x) as [f|].
  - destruct G as [_ [w [HI HS]]]. exfalso. rewrite Forall_forall in HF. apply (HF w HI HS).
  - split; reflexivity.
Qed.

(** ** refs *)

Lemma id_last ty ws f i d :
  holds ty ws f -> get value_eqb i (x_ids f) = Some d ->
  exists w, last_with (with_id ty i) ws w /\ d = w_params w.
Proof.
  intros H E. rewrite (h_id _ _ _ H) in E. unfold last_id in E.
  pose proof (find_last _ _ ws (with_idb_spec ty i)) as F.
  destruct (find (with_idb ty i) (rev ws)) as [w|]; [|discriminate].
  exists w. split; [exact F|]. cbn in E. congruence.
Qed.

Lemma put_fresh {K A : Set} (eqb : K -> K -> bool) (sp : forall a b, eqb a b = true <-> a = b)
      k (v : A) d : ~ In k (map fst d) -> put eqb k v d = d ++ [(k, v)].
Proof.
  induction d as [|[k' v'] d IH]; cbn; intros H; [reflexivity|].
  destruct (eqb k k') eqn:E; [apply sp in E; subst; tauto|]. rewrite IH by tauto. reflexivity.
Qed.

Lemma refs_of_ok : forall (l : assoc value dict) r,
  NoDup (map fst r ++ map fst l) ->
  Forall (fun kd => entry "id" (snd kd) = Some (fst kd) /\ entry "name" (snd kd) <> None) l ->
  exists r', refs_of (map snd l) r = Ok (r ++ r') /\
    Forall2 (fun kd kn => fst kn = fst kd /\ entry "name" (snd kd) = Some (snd kn)) l r'.
Proof.
  induction l as [|[k d] l IH]; intros r HN HF.
  - exists []. rewrite app_nil_r. split; [reflexivity|constructor].
  - inversion HF as [|? ? [F1 F2] F3]; subst. cbn [fst snd] in *. cbn [map refs_of snd fst].
    rewrite !dget_entry, F1. destruct (entry "name" d) as [n|] eqn:En; [|contradiction].
    cbn [map fst] in HN.
    rewrite (put_fresh _ value_eqb_spec).
    + destruct (IH (r ++ [(k, n)])) as [r' [G1 G2]]; [|exact F3|].
      * rewrite map_app. cbn [map fst]. rewrite <- app_assoc. exact HN.
      * exists ((k, n) :: r'). rewrite G1, <- app_assoc. split; [reflexivity|].
        constructor; [cbn; auto|exact G2].
    + apply NoDup_remove_2 in HN. intros F. apply HN. apply in_or_app. auto.
Qed.

Lemma refs_ok ty ws f : holds ty ws f ->
  exists r, refs f = Ok r /\ first_ids ty ws (map fst r) /\
    Forall (fun kn => exists w, last_with (with_id ty (fst kn)) ws w /\
                                entry "name" (w_params w) = Some (snd kn)) r.
Proof.
  intros H.
  assert (HF : Forall (fun kd => exists w, last_with (with_id ty (fst kd)) ws w /\ snd kd = w_params w)
                      (x_ids f)).
  { pose proof (get_nodup _ value_eqb_spec _ (h_nodup_ids _ _ _ H)) as G.
    assert (G' : forall l, Forall2 (fun k v => get value_eqb k (x_ids f) = Some v) (map fst l) (map snd l) ->
      Forall (fun kd => exists w, last_with (with_id ty (fst kd)) ws w /\ snd kd = w_params w) l).
    { induction l as [|[k d] l IH]; cbn; intros G0; constructor; inversion G0; subst.
      - apply (id_last ty ws f); assumption.
      - apply IH. assumption. }
    apply G'. exact G. }
  destruct (refs_of_ok (x_ids f) []) as [r [G1 G2]].
  - exact (h_nodup_ids _ _ _ H).
  - eapply Forall_impl; [|exact HF]. cbn. intros kd [w [[l1 [l2 [_ [[Ht Hi] _]]]] E]].
    rewrite E. split; [exact Hi|]. apply Ht.
  - exists r. split; [exact G1|].
    assert (E : map fst r = map fst (x_ids f)).
    { clear -G2. induction G2 as [|? ? ? ? [H1 _] _ IH]; cbn; congruence. }
    split; [rewrite E; apply (h_ids _ _ _ H)|].
    clear -HF G2. induction G2 as [|kd kn l r [H1 H2] _ IH]; constructor; inversion HF as [|? ? [w [F1 F2]] F3]; subst.
    + exists w. rewrite H1, <- F2. auto.
    + apply IH. exact F3.
Qed.

(** ** The testbed *)

Lemma first_ids_det ty ws l : first_ids ty ws l -> forall l', first_ids ty ws l' -> l = l'.
Proof.
  induction 1 as [|ws l w HF IH Hw|ws l w j HF IH Hin Hw|ws l w j HF IH Hw Hin]; intros l' G.
  - remember [] as v eqn:Ev in G. destruct G; [reflexivity| | |]; destruct ws; discriminate.
  - remember (ws ++ [w]) as v eqn:Ev in G.
    destruct G as [|ws' l' w' G1 G2|ws' l' w' j' G1 G2 G3|ws' l' w' j' G1 G2 G3];
      [destruct ws; discriminate|apply app_inj_tail in Ev; destruct Ev as [-> ->]..].
    + apply IH. exact G1.
    + destruct G3. contradiction.
    + destruct G2. contradiction.
  - remember (ws ++ [w]) as v eqn:Ev in G.
    destruct G as [|ws' l' w' G1 G2|ws' l' w' j' G1 G2 G3|ws' l' w' j' G1 G2 G3];
      [destruct ws; discriminate|apply app_inj_tail in Ev; destruct Ev as [-> ->]..].
    + destruct Hw. contradiction.
    + apply IH. exact G1.
    + destruct G2 as [_ G2], Hw as [_ Hw]. rewrite Hw in G2. injection G2 as ->.
      apply IH in G1. subst. contradiction.
  - remember (ws ++ [w]) as v eqn:Ev in G.
    destruct G as [|ws' l' w' G1 G2|ws' l' w' j' G1 G2 G3|ws' l' w' j' G1 G2 G3];
      [destruct ws; discriminate|apply app_inj_tail in Ev; destruct Ev as [-> ->]..].
    + destruct Hw. contradiction.
    + destruct G3 as [_ G3], Hw as [_ Hw]. rewrite Hw in G3. injection G3 as ->.
      apply IH in G1. subst. contradiction.
    + destruct G2 as [_ G2], Hw as [_ Hw]. rewrite Hw in G2. injection G2 as ->.
      apply IH in G1. subst. reflexivity.
Qed.

Lemma testbed_first ws x depth i is :
  insert_all [] ws = Ok x -> first_ids "Testbed" ws (i :: is) ->
  testbed_values depth x [] = try_completing_model depth x "Testbed" [("id"%string, i)].
Proof.
  intros H HF.
  assert (HE : exists w, In w ws /\ same_text (w_type w) "Testbed").
  { remember (i :: is) as l. assert (Hl : l <> []) by congruence. clear -HF Hl.
    induction HF; [contradiction| | |].
    - destruct IHHF as [w' [H1 H2]]; [exact Hl|]. exists w'. rewrite in_app_iff. auto.
    - destruct IHHF as [w' [H1 H2]]; [exact Hl|]. exists w'. rewrite in_app_iff. auto.
    - exists w. rewrite in_app_iff. split; [right; left; reflexivity|]. apply H. }
  destruct (query_ids_first ws x "Testbed" H HE) as [is' [G1 G2]].
  assert (E : is' = i :: is) by (apply (first_ids_det _ _ _ G2 _ HF)).
  unfold testbed_values. rewrite G1. cbn [bind]. rewrite E. reflexivity.
Qed.

(** ** A loop that inserts *)

Section Endless.
  (** The element and its copies, each with one more letter in the name. *)
  Fixpoint nm (j : nat) : string := match j with O => "n" | S j' => nm j' ++ "x" end.
  Definition el (j : nat) : dict := [("name"%string, VStr (nm j)); ("id"%string, VInt 1)].
  Definition copy (d : dict) : wrapper :=
    mkWrap "t" (dput "name" (VStr (match dget "name" d with Some n => str n | None => "" end ++ "x")) d).

  Lemma copy_el j : copy (el j) = mkWrap "t" (el (S j)).
  Proof. reflexivity. Qed.

  Lemma lower_app a b : lower (a ++ b) = (lower a ++ lower b)%string.
  Proof. induction a as [|c a IH]; cbn; [reflexivity|]. rewrite IH. reflexivity. Qed.

  Lemma lower_nm j : lower (nm j) = nm j.
  Proof. induction j as [|j IH]; [reflexivity|]. cbn [nm]. rewrite lower_app, IH. reflexivity. Qed.

  Lemma length_app a b : String.length (a ++ b) = (String.length a + String.length b)%nat.
  Proof. induction a as [|c a IH]; cbn; [reflexivity|]. rewrite IH. reflexivity. Qed.

  Lemma length_nm j : String.length (nm j) = S j.
  Proof. induction j as [|j IH]; [reflexivity|]. cbn [nm]. rewrite length_app, IH. cbn. lia. Qed.

  Definition grown (i : nat) (ids : assoc value dict) : fixture :=
    mkFix "t" (map (fun j => (nm j, el j)) (seq 0 (S i))) ids.

  Lemma grown_insert i k ids :
    exists ids', fx_insert (mkFx (grown i ids) k (by_name (grown i ids))) (mkWrap "t" (el (S i))) =
      Ok (mkFx (grown (S i) ids') k (by_name (grown (S i) ids'))).
  Proof.
    unfold fx_insert. cbn [fx_fix w_type w_params]. 
    change (negb (String.eqb (lower "t") (lower (x_type (grown i ids))))) with false. cbv iota.
    change (dget "name" (el (S i))) with (Some (VStr (nm (S i)))). cbv iota.
    unfold insert. cbn [w_type w_params].
    change (negb (String.eqb (lower "t") (lower (x_type (grown i ids))))) with false. cbv iota.
    change (dget "name" (el (S i))) with (Some (VStr (nm (S i)))).
    change (dget "id" (el (S i))) with (Some (VInt 1)). cbv iota beta.
    change (str (VStr (nm (S i)))) with (nm (S i)). rewrite lower_nm.
    rewrite (put_fresh _ String.eqb_eq (nm (S i))).
    - cbn [bind]. exists (put value_eqb (VInt 1) (el (S i)) (x_ids (grown i ids))).
      assert (E : forall ids', grown (S i) ids' =
        mkFix "t" (x_names (grown i ids) ++ [(nm (S i), el (S i))]) ids').
      { intros ids'. unfold grown. rewrite (seq_S (S i)), map_app. reflexivity. }
      rewrite !E. reflexivity.
    - unfold grown. cbn [x_names]. rewrite map_map. intros F. apply in_map_iff in F.
      destruct F as [j [F1 F2]]. apply in_seq in F2. cbn [fst] in F1.
      apply (f_equal String.length) in F1. rewrite !length_nm in F1. lia.
  Qed.

  Lemma rounds_endless n : forall i ids seen,
    rounds n (inserts copy) (mkFx (grown i ids) i (by_name (grown i ids))) seen = None.
  Proof.
    induction n as [|n IH]; intros i ids seen; cbn [rounds]; [reflexivity|].
    unfold fx_next. cbn [fx_list fx_index fx_fix].
    assert (E : nth_error (by_name (grown i ids)) i = Some (el i)).
    { unfold by_name, grown. cbn [x_names]. rewrite map_map.
      rewrite (map_nth_error (fun j => snd (nm j, el j)) i (seq 0 (S i)) (d := i)); [reflexivity|].
      rewrite (seq_S i 0), nth_error_app2; rewrite seq_length; [|lia]. rewrite Nat.sub_diag. reflexivity. }
    rewrite E. unfold inserts. rewrite copy_el.
    destruct (grown_insert i (i + 1) ids) as [ids' G]. rewrite G.
    rewrite Nat.add_1_r. apply IH.
  Qed.
End Endless.

(** ** One answer *)

Lemma first_names_det ty ws l : first_names ty ws l ->
  forall l', first_names ty ws l' -> Forall2 same_text l l'.
Proof.
  intros H.
  assert (S1 : forall s t, same_text s t -> same_text t s).
  { intros s t E. apply same_iff. symmetry. apply same_iff. exact E. }
  assert (S2 : forall s t u, same_text s t -> same_text t u -> same_text s u).
  { intros s t u E F. apply same_iff in E, F. apply same_iff. congruence. }
  assert (G : forall l', first_names ty ws l' -> Forall2 same_text l l').
  { induction H as [|ws l w HF IH Hw|ws l w s HF IH Hin Hw|ws l w m HF IH Hw Hm Hin]; intros l' G.
    - remember [] as v eqn:Ev in G. destruct G; [constructor| | |]; destruct ws; discriminate.
    - remember (ws ++ [w]) as v eqn:Ev in G.
      destruct G as [|ws' l' w' G1 G2|ws' l' w' j' G1 G2 G3|ws' l' w' j' G1 G2 G3];
        [destruct ws; discriminate|apply app_inj_tail in Ev; destruct Ev as [-> ->]..].
      + apply IH. exact G1.
      + destruct G3. contradiction.
      + contradiction.
    - remember (ws ++ [w]) as v eqn:Ev in G.
      destruct G as [|ws' l' w' G1 G2|ws' l' w' j' G1 G2 G3|ws' l' w' j' G1 G2 G3];
        [destruct ws; discriminate|apply app_inj_tail in Ev; destruct Ev as [-> ->]..].
      + destruct Hw. contradiction.
      + apply IH. exact G1.
      + exfalso. destruct Hw as [_ [k [Hk Hs]]]. rewrite Hk in G3. injection G3 as <-.
        apply IH in G1. rewrite Forall_forall in H.
        assert (exists s', In s' l' /\ same_text s s') as [s' [I1 I2]].
        { clear -G1 Hin. induction G1; [contradiction|].
          destruct Hin as [->|Hin]; [eexists; split; [left; reflexivity|assumption]|].
          destruct IHG1 as [s' [? ?]]; [assumption|]. exists s'. split; [right; assumption|assumption]. }
        apply (H s' I1). apply S1. apply (S2 _ s); assumption.
    - remember (ws ++ [w]) as v eqn:Ev in G.
      destruct G as [|ws' l' w' G1 G2|ws' l' w' j' G1 G2 G3|ws' l' w' j' G1 G2 G3];
        [destruct ws; discriminate|apply app_inj_tail in Ev; destruct Ev as [-> ->]..].
      + contradiction.
      + exfalso. destruct G3 as [_ [k [Hk Hs]]]. rewrite Hk in Hm. injection Hm as <-.
        apply IH in G1. rewrite Forall_forall in Hin.
        assert (exists s', In s' l /\ same_text s' j') as [s' [I1 I2]].
        { clear -G1 G2. induction G1; [contradiction|].
          destruct G2 as [->|G2]; [eexists; split; [left; reflexivity|assumption]|].
          destruct IHG1 as [s' [? ?]]; [assumption|]. exists s'. split; [right; assumption|assumption]. }
        apply (Hin s' I1). apply (S2 _ j'); [assumption|]. apply S1. assumption.
      + rewrite Hm in G3. injection G3 as <-. apply IH in G1.
        apply Forall2_app; [exact G1|]. constructor; [|constructor]. apply same_iff. reflexivity. }
  exact G.
Qed.

Lemma fresh_insert ws : forall s, fx_index s = 0%nat -> fx_list s = by_name (fx_fix s) ->
  fx_index (run s (map OInsert ws)) = 0%nat /\ fx_list (run s (map OInsert ws)) = by_name (fx_fix (run s (map OInsert ws))).
Proof.
  induction ws as [|w ws IH]; intros s A B; [auto|]. unfold run in *. cbn [map fold_left]. apply IH; cbn [step]; unfold fx_insert;
    (destruct (negb _); [assumption|]); (destruct (dget "name" (w_params w)); [|assumption]); destruct (insert (fx_fix s) w); cbn; auto.
Qed.
Lemma first_next ty ws : fst (fx_next (run (fx_new ty) (map OInsert ws))) = hd_error (by_name (fx_fix (run (fx_new ty) (map OInsert ws)))).
Proof.
  destruct (fresh_insert ws (fx_new ty) eq_refl eq_refl) as [A B]. unfold fx_next. rewrite A, B.
  destruct (by_name (fx_fix (run (fx_new ty) (map OInsert ws)))); reflexivity.
Qed.
