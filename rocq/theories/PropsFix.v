(** Properties of the fixture database (C43 - C45).
    Vocabulary: FixSpec.v; code: FixModel.v. *)
From Coq Require Import String Ascii Relations.
From Verif Require Import PyBase FixModel FixSpec FixProofs.
Open Scope list_scope.
Open Scope string_scope.

(** A small database used in the examples. *)
Definition demo : list wrapper :=
  [ mkWrap "VirtualSourceConfig" [("id", VInt 10); ("name", VStr "neutral"); ("c_uF", VInt 0)];
    mkWrap "virtualsourceconfig" [("id", VInt 11); ("name", VStr "Direct");
                                  ("inherit_from", VStr "Neutral"); ("v_mV", VInt 3)];
    mkWrap "VirtualSourceConfig" [("id", VInt 12); ("name", VStr "BQ"); ("c_uF", VInt 7);
                                  ("inherit_from", VStr "11")] ].

(** * C43 Inheritance resolution *)

(** The nearest definition wins, the chain lists the ancestors, "inherit_from" is gone.
    [own] is the element the values stand for when they only carry a known name or id. *)
Theorem C43_nearest_wins :
  forall ws ty f values own anc depth,
    filled ws ty f -> Forall (fun w => python_dict (w_params w)) ws ->
    python_dict values -> own_element f values own ->
    ancestry f (nearest "inherit_from" (values :: own)) anc -> last_by_name anc ->
    (forall k, entry "inherit_from" values = Some k -> entry "name" values <> Some k) ->
    (List.length anc + 1 < depth)%nat ->
    exists r,
      inheritance depth f values [] = Ok (r, chain_of (values :: own) anc) /\
      python_dict r /\ entry "inherit_from" r = None /\
      forall key, key <> "inherit_from" ->
        entry key r = nearest key (values :: own ++ map renamed anc).
Proof. intros ws ty f values own anc depth HF HP. apply resolve. exact (filled_well _ _ _ HF HP). Qed.
Print Assumptions C43_nearest_wins.

(** Querying by name: the item itself and then its ancestors. *)
Theorem C43_by_name :
  forall ws ty x s w n anc depth,
    insert_all [] ws = Ok x -> Forall (fun w => python_dict (w_params w)) ws ->
    last_with (named ty s) ws w -> entry "name" (w_params w) = Some (VStr n) ->
    (exists f, component x ty = Ok f /\ ancestry f (entry "inherit_from" (w_params w)) anc) ->
    last_by_name anc -> entry "inherit_from" (w_params w) <> Some (VStr n) ->
    (List.length anc + 1 < depth)%nat ->
    exists r,
      try_completing_model depth x ty [("name", VStr s)] =
        Ok (r, match anc with [] => [] | _ => VStr n :: map fst anc end) /\
      python_dict r /\ entry "inherit_from" r = None /\
      forall key, key <> "inherit_from" ->
        entry key r = nearest key (w_params w :: map renamed anc).
Proof. exact complete_by_name. Qed.
Print Assumptions C43_by_name.

(** Following the references of a database ends within as many steps as it has entries, or
    meets an unknown key, or is circular. *)
Theorem C43_reference_cases :
  forall f k,
    (exists anc, ancestry f (Some k) anc /\
       (List.length anc <= List.length (x_names f) + List.length (x_ids f))%nat) \/
    (exists e err, clos_refl_trans value (refers f) k e /\ getitem f e = Err err) \/
    circular f k.
Proof. intros f k. rewrite <- elements_length. exact (reference_cases f k). Qed.
Print Assumptions C43_reference_cases.

(** Without a circle the recursion ends: a depth of the number of entries plus three is never
    exceeded. *)
Theorem C43_terminates :
  forall ws ty f values depth,
    filled ws ty f -> Forall (fun w => python_dict (w_params w)) ws -> python_dict values ->
    (forall own k, own_element f values own ->
       nearest "inherit_from" (values :: own) = Some k -> ~ circular f k) ->
    (List.length (x_names f) + List.length (x_ids f) + 2 < depth)%nat ->
    inheritance depth f values [] <> Err RecursionError.
Proof.
  intros ws ty f values depth HF HP HV HC HD H.
  destruct (limit_circular f values depth) as [own [k [H1 [H2 H3]]]]; auto.
  - exact (filled_well _ _ _ HF HP).
  - rewrite elements_length. exact HD.
  - exact (HC own k H1 H2 H3).
Qed.
Print Assumptions C43_terminates.

(** An element whose parent is given by its number (not in quotes) cannot be resolved when
    that parent has no parent: the number becomes the name of the copy and has no lower(). *)
Theorem C43_numeric_parent_refuted :
  exists ws ty f values anc,
    filled ws ty f /\ Forall (fun w => python_dict (w_params w)) ws /\ python_dict values /\
    ancestry f (entry "inherit_from" values) anc /\ anc <> [] /\
    forall depth, inheritance (S (S depth)) f values [] = Err AttributeError.
Proof.
  exists demo, "VirtualSourceConfig".
  eexists. exists [("name", VStr "new"); ("inherit_from", VInt 10)]. eexists.
  split; [eexists; split; reflexivity|].
  split; [repeat constructor; cbn; intuition discriminate|].
  split; [repeat constructor; cbn; intuition discriminate|].
  split; [|split].
  - cbn. econstructor; [reflexivity|]. cbn. constructor.
  - discriminate.
  - intros depth. reflexivity.
Qed.
Print Assumptions C43_numeric_parent_refuted.

Example C43_example :
  exists x, insert_all [] demo = Ok x /\
    try_completing_model 9 x "VIRTUALSOURCECONFIG" [("name", VStr "bq")] =
      Ok ([("id", VInt 12); ("name", VStr "BQ"); ("c_uF", VInt 7); ("v_mV", VInt 3)],
          [VStr "BQ"; VStr "11"; VStr "Neutral"]).
Proof. eexists. split; reflexivity. Qed.

(** * C44 Circular inheritance is rejected *)

(** A circle always ends in an exception, whatever the recursion limit ... *)
Theorem C44_no_result :
  forall ws ty f values own k depth,
    filled ws ty f -> Forall (fun w => python_dict (w_params w)) ws ->
    python_dict values -> own_element f values own ->
    nearest "inherit_from" (values :: own) = Some k -> circular f k ->
    exists e, inheritance depth f values [] = Err e /\ (e = RecursionError \/ e = ValueError).
Proof.
  intros ws ty f values own k depth HF HP HV HO HN HC.
  destruct (entry "inherit_from" values) as [k1|] eqn:E1.
  - destruct (entry "name" values) as [n|] eqn:E2.
    + destruct (value_dec n k1) as [->|Hn].
      * destruct depth as [|depth]; [exists RecursionError; auto|].
        exists ValueError. split; [|auto]. exact (resolve_self f values k1 depth E1 E2).
      * exists RecursionError. split; [|auto].
        apply (resolve_circular f values own k); auto; [exact (filled_well _ _ _ HF HP)|].
        intros k2 H. rewrite E1 in H. injection H as <-. congruence.
    + exists RecursionError. split; [|auto].
      apply (resolve_circular f values own k); auto; [exact (filled_well _ _ _ HF HP)|].
      intros k2 H. congruence.
  - exists RecursionError. split; [|auto].
    apply (resolve_circular f values own k); auto; [exact (filled_well _ _ _ HF HP)|].
    intros k2 H. congruence.
Qed.
Print Assumptions C44_no_result.

(** ... an item that names itself as its parent is noticed at once ... *)
Theorem C44_self_reference :
  forall f values k depth,
    entry "inherit_from" values = Some k -> entry "name" values = Some k ->
    inheritance (S depth) f values [] = Err ValueError.
Proof. exact resolve_self. Qed.
Print Assumptions C44_self_reference.

(** ... but every other circle is not noticed: the calls nest until the interpreter gives up,
    at any recursion limit. *)
Theorem C44_circle_undetected_refuted :
  forall ws ty f values own k,
    filled ws ty f -> Forall (fun w => python_dict (w_params w)) ws ->
    python_dict values -> own_element f values own ->
    nearest "inherit_from" (values :: own) = Some k -> circular f k ->
    (forall k, entry "inherit_from" values = Some k -> entry "name" values <> Some k) ->
    forall depth, inheritance depth f values [] = Err RecursionError.
Proof.
  intros ws ty f values own k HF HP HV HO HN HC HS depth.
  apply (resolve_circular f values own k); auto. exact (filled_well _ _ _ HF HP).
Qed.
Print Assumptions C44_circle_undetected_refuted.

(** Two elements that inherit from each other; the hypotheses above are satisfiable. *)
Definition twins : list wrapper :=
  [ mkWrap "X" [("id", VInt 1); ("name", VStr "a"); ("inherit_from", VStr "b")];
    mkWrap "X" [("id", VInt 2); ("name", VStr "b"); ("inherit_from", VStr "a")] ].

Example C44_example :
  exists f, filled twins "x" f /\ circular f (VStr "b") /\
    (forall depth, inheritance depth f [("name", VStr "a")] [] = Err RecursionError) /\
    (* even the element that inherits from itself, when asked for by name *)
    exists g, filled [mkWrap "X" [("id", VInt 1); ("name", VStr "a"); ("inherit_from", VStr "a")]]
                     "x" g /\
      forall depth, inheritance depth g [("name", VStr "A")] [] = Err RecursionError.
Proof.
  eexists. split; [eexists; split; reflexivity|].
  match goal with |- circular ?f _ /\ _ => set (f0 := f) end.
  assert (HC : circular f0 (VStr "b")).
  { exists (VStr "b"). split; [apply rt_refl|]. apply t_trans with (VStr "a").
    - apply t_step. eexists. split; reflexivity.
    - apply t_step. eexists. split; reflexivity. }
  split; [exact HC|]. split.
  - apply (C44_circle_undetected_refuted twins "x" f0 [("name", VStr "a")]
             [[("id", VInt 1); ("name", VStr "a"); ("inherit_from", VStr "b")]] (VStr "b")).
    + eexists; split; reflexivity.
    + repeat constructor; cbn; intuition discriminate.
    + repeat constructor; cbn; intuition discriminate.
    + cbn. exists "a". split; reflexivity.
    + reflexivity.
    + exact HC.
    + cbn. discriminate.
  - eexists. split; [eexists; split; reflexivity|].
    apply (C44_circle_undetected_refuted
             [mkWrap "X" [("id", VInt 1); ("name", VStr "a"); ("inherit_from", VStr "a")]] "x" _
             [("name", VStr "A")]
             [[("id", VInt 1); ("name", VStr "a"); ("inherit_from", VStr "a")]] (VStr "a")).
    + eexists; split; reflexivity.
    + repeat constructor; cbn; intuition discriminate.
    + repeat constructor; cbn; intuition discriminate.
    + cbn. exists "A". split; reflexivity.
    + reflexivity.
    + exists (VStr "a"). split; [apply rt_refl|]. apply t_step. eexists. split; reflexivity.
    + cbn. discriminate.
Qed.

(** * C45 Lookup *)

(** After the inserts [ws] a component exists exactly if its type occurred, in any case. *)
Theorem C45_component :
  forall ws x ty, insert_all [] ws = Ok x ->
    (exists f, component x ty = Ok f) \/
    (component x ty = Err ValueError /\ Forall (fun w => ~ same_text (w_type w) ty) ws).
Proof.
  intros ws x ty H. apply insert_all_mirrors in H. pose proof (H ty) as HT. unfold component.
  destruct (get String.eqb (lower ty) x); eauto.
Qed.
Print Assumptions C45_component.

(** By name: the object inserted last under that name, up to case; ValueError if none. *)
Theorem C45_by_name :
  forall ws ty f s, filled ws ty f -> answers (named ty s) ws (query_name f (VStr s)).
Proof. exact query_name_answers. Qed.
Print Assumptions C45_by_name.

(** By id. *)
Theorem C45_by_id :
  forall ws ty f z, filled ws ty f -> answers (with_id ty (VInt z)) ws (query_id f (VInt z)).
Proof. exact query_id_answers. Qed.
Print Assumptions C45_by_id.

(** Indexing: by id for integers; by name for text, otherwise by the number it spells. *)
Theorem C45_index :
  forall ws ty f, filled ws ty f ->
    (forall z, answers (with_id ty (VInt z)) ws (getitem f (VInt z))) /\
    (forall s, Exists (named ty s) ws -> answers (named ty s) ws (getitem f (VStr s))) /\
    (forall s, Forall (fun w => ~ named ty s w) ws -> all_digits s ->
       answers (with_id ty (VInt (number s))) ws (getitem f (VStr s))) /\
    (forall s, Forall (fun w => ~ named ty s w) ws -> ~ all_digits s ->
       exists e, getitem f (VStr s) = Err e).
Proof.
  intros ws ty f H. split; [|split; [|split]]; intros.
  - apply getitem_int_answers. exact H.
  - apply getitem_name; assumption.
  - apply getitem_number; assumption.
  - eapply getitem_unknown; eassumption.
Qed.
Print Assumptions C45_index.

(** Inserting fails exactly for objects with a name but without an id. *)
Theorem C45_insert :
  forall ws, (exists x, insert_all [] ws = Ok x) <->
    Forall (fun w => entry "name" (w_params w) <> None -> entry "id" (w_params w) <> None) ws.
Proof. exact insert_all_ok. Qed.
Print Assumptions C45_insert.

Example C45_example :
  exists f, filled (demo ++ [mkWrap "VIRTUALSOURCECONFIG" [("id", VInt 11); ("name", VStr "bQ")]])
                   "virtualSourceConfig" f /\
    query_name f (VStr "Bq") = Ok [("id", VInt 11); ("name", VStr "bQ")] /\
    query_id f (VInt 11) = Ok [("id", VInt 11); ("name", VStr "bQ")] /\
    getitem f (VStr "0010") = Ok [("id", VInt 10); ("name", VStr "neutral"); ("c_uF", VInt 0)] /\
    getitem f (VStr "none") = Err ValueError.
Proof. eexists. split; [eexists; split; reflexivity|]. repeat split. Qed.

(** A name may be a number. *)
Example C45_number_name :
  exists f, filled [mkWrap "MCU" [("id", VInt 3); ("name", VInt 430)]] "mcu" f /\
    query_name f (VStr "430") = Ok [("id", VInt 3); ("name", VInt 430)] /\
    query_name f (VStr "") = Err ValueError.
Proof. eexists. split; [eexists; split; reflexivity|]. repeat split. Qed.
