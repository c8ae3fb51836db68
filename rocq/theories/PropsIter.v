(** C113, C114: going through fixtures, and what the client tells about them. *)
From Coq Require Import String Ascii.
From Verif Require Import PyBase FixModel FixSpec FixProofs IterModel IterSpec IterProofs.
Open Scope nat_scope.
Open Scope list_scope.

(* ------------------------------------------------------------------ C113 *)

(** After any use of a fixture (inserts, loops that were left early, searches), a loop that only
    reads shows the last object of each name once, in the order in which the names came. *)
Theorem C113_listed : forall ty ops, storable ty (inserted ops) ->
  exists ds s' least, listing ty (inserted ops) ds /\
    forall n, least <= n -> for_each n skip (run (fx_new ty) ops) = Some (Ok (s', ds)).
Proof.
  intros ty ops HS.
  pose proof (run_holds ty ops [] (fx_new ty) (holds_new ty) HS) as H. cbn [app] in H.
  eexists _, _, (S (List.length (by_name (fx_fix (run (fx_new ty) ops))))).
  split; [apply (holds_listing _ _ _ H)|]. intros n Hn. apply for_each_skip. lia.
Qed.

(** Before the first loop the iterator stands at the first object. *)
Theorem C113_first : forall ty ws, fst (fx_next (run (fx_new ty) (map OInsert ws))) = hd_error (by_name (fx_fix (run (fx_new ty) (map OInsert ws)))).
Proof. exact first_next. Qed.
Print Assumptions C113_first.

(** The list depends on the inserts alone, there is one answer. *)
Theorem C113_unique : forall ty ws l l', first_names ty ws l -> first_names ty ws l' ->
  Forall2 same_text l l'.
Proof. intros ty ws l l' H H'. exact (first_names_det ty ws l H l' H'). Qed.

(** An object without id changes nothing, whether its insert fails or not. *)
Theorem C113_without_id : forall ty before w after, entry "id" (w_params w) = None ->
  run (fx_new ty) (before ++ OInsert w :: after) = run (fx_new ty) (before ++ after).
Proof. exact insert_without_id. Qed.
Print Assumptions C113_without_id.

(** Two objects, the second one twice under different spelling. *)
Definition ex_d (n : string) (i : Z) : dict := [("name"%string, VStr n); ("id"%string, VInt i)].
Definition ex_ops : list op :=
  [OInsert (mkWrap "MCU" (ex_d "nRF52" 1)); OInsert (mkWrap "mcu" (ex_d "msp430" 2)); ONext; OIter; ONext;
   OInsert (mkWrap "Cape" (ex_d "a" 3)); OInsert (mkWrap "mcu" (ex_d "NRF52" 4)); OIn 9 (OVal (VStr "msp430"))].
Example C113_ex_listed :
  for_each 3 skip (run (fx_new "mcu") ex_ops) =
  Some (Ok (mkFx (fx_fix (run (fx_new "mcu") ex_ops)) 2 [ex_d "NRF52" 4; ex_d "msp430" 2],
            [ex_d "NRF52" 4; ex_d "msp430" 2])).
Proof. reflexivity. Qed.
Example C113_ex_storable : storable "mcu" (inserted ex_ops).
Proof. repeat constructor; cbn; intros _; discriminate. Qed.

(** A loop inside of a loop over the same fixture ends the outer one after its first round. *)
Theorem C113_nested : forall ty ops, storable ty (inserted ops) ->
  exists ds s' least, listing ty (inserted ops) ds /\
    forall n, least <= n -> for_each n (again n) (run (fx_new ty) ops) = Some (Ok (s', firstn 1 ds)).
Proof.
  intros ty ops HS.
  pose proof (run_holds ty ops [] (fx_new ty) (holds_new ty) HS) as H. cbn [app] in H.
  destruct (by_name (fx_fix (run (fx_new ty) ops))) as [|d ds] eqn:E.
  - eexists [], _, 1. split; [rewrite <- E; apply (holds_listing _ _ _ H)|].
    intros n Hn. destruct n as [|n]; [lia|]. unfold for_each, fx_iter. rewrite E. reflexivity.
  - destruct (for_each_again 0 (S (List.length (d :: ds))) _ _ _ E) as [s' _]; [lia|].
    eexists (d :: ds), _, (S (S (List.length (d :: ds)))).
    split; [rewrite <- E; apply (holds_listing _ _ _ H)|].
    intros n Hn. destruct n as [|[|n]]; [cbn in Hn; lia..|].
    unfold for_each, fx_iter. rewrite E. cbn [rounds fx_next fx_list fx_index nth_error].
    unfold fx_next at 1. cbn [fx_list fx_index nth_error fx_fix Nat.add].
    unfold again at 1.
    rewrite for_each_skip; [|cbn [fx_fix]; rewrite E; lia].
    cbn [fx_fix]. rewrite E. cbn [app]. cbn [rounds]. unfold fx_next. cbn [fx_list fx_index].
    rewrite (proj2 (nth_error_None (d :: ds) (List.length (d :: ds)))) by lia. reflexivity.
Qed.
Theorem C113_nested_refuted : exists ty ops ds s', storable ty (inserted ops) /\
  listing ty (inserted ops) ds /\ List.length ds = 2 /\
  forall n, 4 <= n -> for_each n (again n) (run (fx_new ty) ops) = Some (Ok (s', firstn 1 ds)).
Proof.
  pose proof (run_holds "mcu" ex_ops [] (fx_new "mcu") (holds_new "mcu") C113_ex_storable) as H.
  eexists "mcu"%string, ex_ops, [ex_d "NRF52" 4; ex_d "msp430" 2], _.
  split; [exact C113_ex_storable|]. split; [apply (holds_listing _ _ _ H)|].
  split; [reflexivity|]. intros n Hn. do 4 (destruct n as [|n]; [lia|]). cbn. reflexivity.
Qed.

(** A loop that inserts copies of what it sees never ends; Python's dictionaries would report this
    with RuntimeError. *)
Theorem C113_endless_refuted : exists ops mk, storable "t" (inserted ops) /\
  forall n, for_each n (inserts mk) (run (fx_new "t") ops) = None.
Proof.
  exists [OInsert (mkWrap "t" (el 0))], copy. split.
  - repeat constructor; cbn; discriminate.
  - intros n. exact (rounds_endless n 0 [(VInt 1, el 0)] []).
Qed.

(** "name in fixture" is False whatever the fixture holds. *)
Theorem C113_in_refuted : exists ops s d, storable "t" (inserted ops) /\
  query_name (fx_fix (run (fx_new "t") ops)) (VStr s) = Ok d /\
  forall n, 2 <= n -> exists s', contains n (OVal (VStr s)) (run (fx_new "t") ops) = Some (false, s').
Proof.
  exists [OInsert (mkWrap "t" (el 0))], "n"%string, (el 0). split; [|split].
  - repeat constructor; cbn; discriminate.
  - reflexivity.
  - intros n Hn. apply contains_value. exact Hn.
Qed.

(** Whole objects are found just if they are listed. *)
Theorem C113_found : forall ty ops e, storable ty (inserted ops) ->
  Forall (fun w => python_dict (w_params w)) (inserted ops) -> python_dict e ->
  exists ds b least, listing ty (inserted ops) ds /\
    (b = true <-> exists d, In d ds /\ forall k, entry k e = entry k d) /\
    forall n, least <= n -> exists s', contains n (ODict e) (run (fx_new ty) ops) = Some (b, s').
Proof. exact contains_dict. Qed.
Print Assumptions C113_found.

(** Whole objects are found. *)
Example C113_ex_in : option_map fst (contains 9 (ODict (ex_d "msp430" 2)) (run (fx_new "mcu") ex_ops)) = Some true
  /\ option_map fst (contains 9 (ODict (ex_d "nRF52" 1)) (run (fx_new "mcu") ex_ops)) = Some false.
Proof. split; reflexivity. Qed.

Print Assumptions C113_listed.
Print Assumptions C113_unique.
Print Assumptions C113_nested.
Print Assumptions C113_nested_refuted.
Print Assumptions C113_endless_refuted.
Print Assumptions C113_in_refuted.

(* ------------------------------------------------------------------ C114 *)

(** The client lists each id and each name of a known type once, in the order of the first
    inserts, names without capitals; an unknown type is reported. *)
Theorem C114_ids : forall ws x ty, insert_all [] ws = Ok x ->
  (exists w, In w ws /\ same_text (w_type w) ty) ->
  exists is, query_ids x ty = Ok is /\ first_ids ty ws is.
Proof. exact query_ids_first. Qed.
Theorem C114_names : forall ws x ty, insert_all [] ws = Ok x ->
  (exists w, In w ws /\ same_text (w_type w) ty) ->
  exists ks ss, query_names x ty = Ok ks /\ first_names ty ws ss /\
    Forall2 (fun s k => same_text s k /\ no_capitals k) ss ks.
Proof. exact query_names_first. Qed.
Theorem C114_unknown : forall ws x ty, insert_all [] ws = Ok x ->
  Forall (fun w => ~ same_text (w_type w) ty) ws ->
  query_ids x ty = Err ValueError /\ query_names x ty = Err ValueError.
Proof. exact query_unknown. Qed.

(** refs: for each id the name of the last object with this id. *)
Theorem C114_refs : forall ws x ty f, insert_all [] ws = Ok x -> component x ty = Ok f ->
  exists r, refs f = Ok r /\ first_ids ty ws (map fst r) /\
    Forall (fun kn => exists w, last_with (with_id ty (fst kn)) ws w /\
                                entry "name" (w_params w) = Some (snd kn)) r.
Proof.
  intros ws x ty f H HC. apply refs_ok. pose proof (insert_all_holds ws x H ty) as G.
  unfold component in HC. destruct (get String.eqb (lower ty) x) as [f'|]; [|discriminate].
  injection HC as ->. apply G.
Qed.

(** A testbed made without values is the one whose id came first. *)
Theorem C114_testbed : forall ws x depth i is,
  insert_all [] ws = Ok x -> first_ids "Testbed" ws (i :: is) ->
  testbed_values depth x [] = try_completing_model depth x "Testbed" [("id"%string, i)].
Proof. exact testbed_first. Qed.

Definition ex_ws : list wrapper :=
  [mkWrap "Testbed" (ex_d "Shepherd" 7); mkWrap "MCU" (ex_d "nRF52" 1); mkWrap "MCU" (ex_d "NRF52" 4);
   mkWrap "testbed" (ex_d "second" 8)].
Example C114_ex : exists x, insert_all [] ex_ws = Ok x /\
  query_ids x "TESTBED" = Ok [VInt 7; VInt 8] /\ query_names x "testbed" = Ok ["shepherd"; "second"]%string /\
  testbed_values 10 x [] = Ok (ex_d "Shepherd" 7, []) /\
  (let* f := component x "mcu" in refs f) = Ok [(VInt 1, VStr "nRF52"); (VInt 4, VStr "NRF52")].
Proof. eexists. repeat split; reflexivity. Qed.

(** Numbers of ids and names differ when two objects share a name; the first one is then known by
    its id alone and missing from the names and from loops. *)
Theorem C114_counts_refuted : exists ws x is ks d f, insert_all [] ws = Ok x /\
  query_ids x "MCU" = Ok is /\ query_names x "MCU" = Ok ks /\ List.length is = 2 /\ List.length ks = 1 /\
  query_item x "MCU" (Some (VInt 1)) None = Ok d /\ component x "MCU" = Ok f /\ ~ In d (by_name f).
Proof.
  eexists ex_ws, _, _, _, _, _. repeat split; try reflexivity.
  cbn. intros [F|F]; [discriminate|exact F].
Qed.

(** A testbed without name in the fixtures leads to IndexError instead of ValueError. *)
Theorem C114_empty_refuted : exists ws x, insert_all [] ws = Ok x /\
  testbed_values 10 x [] = Err IndexError.
Proof. exists [mkWrap "Testbed" [("id"%string, VInt 1)]]. eexists. split; reflexivity. Qed.
(** Without any testbed the type is reported as unknown. *)
Theorem C114_none : forall ws x depth, insert_all [] ws = Ok x ->
  Forall (fun w => ~ same_text (w_type w) "Testbed") ws -> testbed_values depth x [] = Err ValueError.
Proof.
  intros ws x depth H HF. unfold testbed_values.
  rewrite (proj1 (query_unknown ws x "Testbed" H HF)). reflexivity.
Qed.

Print Assumptions C114_ids.
Print Assumptions C114_names.
Print Assumptions C114_unknown.
Print Assumptions C114_refs.
Print Assumptions C114_testbed.
Print Assumptions C114_counts_refuted.
Print Assumptions C114_empty_refuted.
Print Assumptions C114_none.
