(** Proofs about the storing of models by the clients. *)
From Coq Require Import String Lia.
From Verif Require Import PyBase WebModel WebSpec FixModel FixSpec FixProofs AddModel.
Open Scope list_scope.

Lemma all_app x ws w : forall y, insert_all y ws = Ok x -> insert_all y (ws ++ [w]) = insert_model x w.
Proof.
  induction ws as [|v ws IH]; intros y H; cbn [insert_all app] in *; [injection H as ->; destruct (insert_model x w); reflexivity|].
  destruct (insert_model y v) as [y'|]; [|discriminate]. cbn [bind] in *. now apply IH.
Qed.
Lemma last_is {P : wrapper -> Prop} {ws w w'} : P w -> last_with P (ws ++ [w]) w' -> w' = w.
Proof.
  intros H (l1 & l2 & E & _ & F). destruct l2 as [|v l2 _] using rev_ind; [apply app_inj_tail in E; symmetry; apply E|].
  rewrite app_comm_cons, app_assoc in E. apply app_inj_tail in E. destruct E as [_ <-]. apply Forall_app in F. destruct F as [_ F]. inversion F. contradiction.
Qed.
Lemma answer_last {P : wrapper -> Prop} {ws w r} : P w -> answers P (ws ++ [w]) r -> r = Ok (w_params w).
Proof.
  intros H [(w' & L & ->)|[F _]]; [now rewrite (last_is H L)|]. apply Forall_app in F. destruct F as [_ F]. inversion F. contradiction.
Qed.
Lemma same_self s : same_text s s.
Proof. apply same_iff. reflexivity. Qed.
Lemma component_of x ty ty' : same_text ty ty' -> component x ty = component x ty'.
Proof. intros H. apply same_iff in H. unfold component. now rewrite H. Qed.

Lemma inserted ws x ty p x' b : insert_all [] ws = Ok x -> insert_fixtures x ty p = Ok (x', b) ->
  b = true /\ insert_all [] (ws ++ [mkWrap ty p]) = Ok x'.
Proof.
  intros W H. unfold insert_fixtures in H. rewrite (all_app x ws _ [] W). destruct (insert_model x _) as [y|]; [|discriminate]. cbn [bind] in H. injection H as -> <-. now split.
Qed.
Lemma there ws x ty p x' b : insert_all [] ws = Ok x -> insert_fixtures x ty p = Ok (x', b) ->
  exists f, component x' ty = Ok f /\ filled (ws ++ [mkWrap ty p]) ty f.
Proof.
  intros W H. destruct (inserted _ _ _ _ _ _ W H) as [_ E]. pose proof (insert_all_mirrors _ _ E ty) as M. unfold component.
  destruct (get String.eqb (lower ty) x') as [f|] eqn:G.
  - exists f. split; [reflexivity|]. exists x'. split; [exact E|]. unfold component. now rewrite G.
  - apply Forall_app in M. destruct M as [_ M]. inversion M as [|? ? N]. subst. contradiction N. apply same_self.
Qed.

Theorem found ws x ty p x' b n i : insert_all [] ws = Ok x -> insert_fixtures x ty p = Ok (x', b) ->
  entry "name" p = Some n -> entry "id" p = Some (VInt i) ->
  forall ty', same_text ty ty' -> query_item x' ty' (Some (VInt i)) None = Ok p /\
  forall s, same_text (str n) s -> query_item x' ty' None (Some (VStr s)) = Ok p.
Proof.
  intros W H N I ty' T. destruct (there _ _ _ _ _ _ W H) as (f & C & F). rewrite (component_of x' ty ty' T) in C.
  assert (O : of_type ty (mkWrap ty p)) by (split; [apply same_self|cbn; congruence]). split.
  - unfold query_item. cbn [value_eqb none_ negb]. rewrite C. cbn [bind].
    exact (answer_last (P := with_id ty (VInt i)) (conj O I) (query_id_answers _ _ _ _ F)).
  - intros s S. unfold query_item. cbn [value_eqb none_ negb]. rewrite C. cbn [bind].
    exact (answer_last (P := named ty s) (conj O (ex_intro _ n (conj N S))) (query_name_answers _ _ _ _ F)).
Qed.

Theorem accepted x ty p : (exists r, insert_fixtures x ty p = Ok r) \/ insert_fixtures x ty p = Err KeyError.
Proof.
  unfold insert_fixtures, insert_model, insert. cbn [w_type w_params].
  set (f := match get String.eqb (lower ty) x with Some f => f | None => _ end). clearbody f.
  destruct (negb _); [left; eexists; reflexivity|]. destruct (dget "name" p); [|left; eexists; reflexivity].
  destruct (dget "id" p); [left; eexists; reflexivity|now right].
Qed.

Lemma not_last {P : wrapper -> Prop} {ws w r} : ~ P w -> answers P (ws ++ [w]) r -> answers P ws r.
Proof.
  intros H [(v & (l1 & l2 & E & Pv & F) & ->)|[F ->]].
  - left. exists v. split; [|reflexivity]. destruct l2 as [|u l2 _] using rev_ind; [apply app_inj_tail in E; destruct E as [_ ->]; contradiction|].
    rewrite app_comm_cons, app_assoc in E. apply app_inj_tail in E. destruct E as [-> _]. apply Forall_app in F. exists l1, l2. tauto.
  - right. apply Forall_app in F. tauto.
Qed.
Lemma answers_same (P : wrapper -> Prop) ws r r' : answers P ws r -> answers P ws r' -> r = r'.
Proof.
  intros [(w & (l1 & l2 & E & Pw & F) & ->)|[F ->]] [(w' & (k1 & k2 & E' & Pw' & F') & ->)|[F' ->]]; try reflexivity.
  - f_equal. f_equal. subst ws. clear - E' Pw Pw' F F'. revert k1 E'. induction l1 as [|a l1 IH]; intros [|b k1] E; cbn in E; injection E.
    + intros _ ->. reflexivity.
    + intros -> ->. exfalso. rewrite Forall_forall in F. apply (F w'); [apply in_app_iff; right; now left|exact Pw'].
    + intros <- ->. exfalso. rewrite Forall_forall in F'. apply (F' w); [apply in_app_iff; right; now left|exact Pw].
    + intros E1 _. exact (IH _ E1).
  - exfalso. rewrite Forall_forall in F'. apply (F' w); [subst; apply in_app_iff; right; now left|exact Pw].
  - exfalso. rewrite Forall_forall in F. apply (F w'); [subst; apply in_app_iff; right; now left|exact Pw'].
Qed.

Lemma ask_id ws x ty i : insert_all [] ws = Ok x -> answers (with_id ty (VInt i)) ws (query_item x ty (Some (VInt i)) None).
Proof.
  intros W. unfold query_item. cbn [value_eqb none_ negb]. pose proof (insert_all_mirrors _ _ W ty) as M. destruct (component x ty) as [f|e] eqn:C; cbn [bind].
  - apply query_id_answers. now exists x.
  - unfold component in C. destruct (get String.eqb (lower ty) x); [discriminate|]. injection C as <-. right. split; [|reflexivity].
    eapply Forall_impl; [|exact M]. intros w N [[O _] _]. contradiction.
Qed.
Lemma ask_name ws x ty s : insert_all [] ws = Ok x -> answers (named ty s) ws (query_item x ty None (Some (VStr s))).
Proof.
  intros W. unfold query_item. cbn [value_eqb none_ negb]. pose proof (insert_all_mirrors _ _ W ty) as M. destruct (component x ty) as [f|e] eqn:C; cbn [bind].
  - apply query_name_answers. now exists x.
  - unfold component in C. destruct (get String.eqb (lower ty) x); [discriminate|]. injection C as <-. right. split; [|reflexivity].
    eapply Forall_impl; [|exact M]. intros w N [[O _] _]. contradiction.
Qed.
Theorem others ws x ty p x' b : insert_all [] ws = Ok x -> insert_fixtures x ty p = Ok (x', b) ->
  (forall ty' i, ~ same_text ty ty' \/ entry "id" p <> Some (VInt i) \/ entry "name" p = None ->
     query_item x' ty' (Some (VInt i)) None = query_item x ty' (Some (VInt i)) None) /\
  (forall ty' s, ~ same_text ty ty' \/ (forall n, entry "name" p = Some n -> ~ same_text (str n) s) ->
     query_item x' ty' None (Some (VStr s)) = query_item x ty' None (Some (VStr s))).
Proof.
  intros W H. destruct (inserted _ _ _ _ _ _ W H) as [_ E]. split; intros ty' k D.
  - apply (answers_same (with_id ty' (VInt k)) ws); [|now apply ask_id]. refine (not_last _ (ask_id _ _ ty' k E)).
    intros [[O N] I]. cbn in O, N, I. destruct D as [D|[D|D]]; contradiction.
  - apply (answers_same (named ty' k) ws); [|now apply ask_name]. refine (not_last _ (ask_name _ _ ty' k E)).
    intros [[O N] (n & I & S)]. cbn in O, N, I. destruct D as [D|D]; [contradiction|exact (D n I S)].
Qed.

Theorem nameless ws x ty p : insert_all [] ws = Ok x -> entry "name" p = None -> exists x', insert_fixtures x ty p = Ok (x', true) /\
  (forall ty' i, query_item x' ty' (Some (VInt i)) None = query_item x ty' (Some (VInt i)) None) /\
  (forall ty' s, query_item x' ty' None (Some (VStr s)) = query_item x ty' None (Some (VStr s))).
Proof.
  intros W N. assert (exists x', insert_fixtures x ty p = Ok (x', true)) as [x' H].
  { unfold insert_fixtures, insert_model, insert. cbn [w_type w_params]. set (f := match get String.eqb (lower ty) x with Some f => f | None => _ end). clearbody f.
    rewrite dget_entry, N. destruct (negb _); eexists; reflexivity. }
  exists x'. split; [exact H|]. destruct (others _ _ _ _ _ _ W H) as [A B]. split; intros ty' k; [apply A|apply B]; right; [now right|]. intros n M. congruence.
Qed.

Theorem posted json post c ty p l r : insert_web json post true c ty p = (l, r) ->
  (forall e, json (mkWrap ty p) = Err e -> l = [] /\ r = Err e) /\
  (forall body, json (mkWrap ty p) = Ok body -> l = [((c_server c ++ "/add")%string, body)] /\
     (r = Ok true <-> post (c_server c ++ "/add")%string body = Ok tt) /\ forall e, r = Err e <-> post (c_server c ++ "/add")%string body = Err e).
Proof.
  unfold insert_web. destruct (json _) as [t|e]; intros H; injection H as <- <-; (split; [intros e' J|intros body J]); try discriminate; injection J as <-.
  - split; [reflexivity|]. destruct (post _ t) as [[]|e]; (split; [|intros e']); split; congruence.
  - now split.
Qed.

(** What is listed. *)
Lemma get_listed {K A : Set} (eqb : K -> K -> bool) (sp : forall a b, eqb a b = true <-> a = b) k (d : assoc K A) :
  In k (map fst d) <-> exists v, get eqb k d = Some v.
Proof.
  induction d as [|[k' v'] d IH]; cbn [map fst get In]; [split; [intros []|intros [v H]; discriminate]|].
  destruct (eqb k k') eqn:E.
  - apply sp in E. subst. split; [eauto|now left].
  - rewrite <- IH. split; [intros [->|H]; [|exact H]|now right]. assert (eqb k k = true) by now apply sp. congruence.
Qed.
Theorem listed x ty l m : ids x ty = Ok l -> names x ty = Ok m ->
  (forall i, In (VInt i) l <-> exists d, query_item x ty (Some (VInt i)) None = Ok d) /\
  (forall s, In (lower s) m <-> exists d, query_item x ty None (Some (VStr s)) = Ok d).
Proof.
  unfold ids, names, query_item. cbn [value_eqb none_ negb]. destruct (component x ty) as [f|]; cbn [bind]; [|discriminate]. intros H1 H2. injection H1 as <-. injection H2 as <-. split.
  - intros i. rewrite (get_listed value_eqb value_eqb_spec). unfold query_id. destruct (get value_eqb (VInt i) (x_ids f)); split; intros [v H]; try discriminate; eauto.
  - intros s. rewrite (get_listed String.eqb String.eqb_eq). unfold query_name. destruct (get String.eqb (lower s) (x_names f)); split; intros [v H]; try discriminate; eauto.
Qed.
Theorem unlisted ws x ty : insert_all [] ws = Ok x ->
  (exists l m, ids x ty = Ok l /\ names x ty = Ok m) \/
  ids x ty = Err ValueError /\ names x ty = Err ValueError /\ Forall (fun w => ~ same_text (w_type w) ty) ws.
Proof.
  intros W. pose proof (insert_all_mirrors _ _ W ty) as M. unfold ids, names, component. destruct (get String.eqb (lower ty) x); cbn [bind]; [left; eauto|now right].
Qed.
