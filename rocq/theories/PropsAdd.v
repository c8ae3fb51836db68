(** Property C136: storing models through the clients. *)
From Coq Require Import String.
From Verif Require Import PyBase WebModel WebSpec FixModel FixSpec AddModel AddProofs.
From Verif Require FixProofs WebProofs.
Open Scope list_scope.

(** A model with name and number that was stored offline is found by both, with any spelling of its type and name ... *)
Theorem C136_found : forall ws x ty p x' b n i, insert_all [] ws = Ok x -> insert_fixtures x ty p = Ok (x', b) ->
  entry "name" p = Some n -> entry "id" p = Some (VInt i) ->
  forall ty', same_text ty ty' -> query_item x' ty' (Some (VInt i)) None = Ok p /\
  forall s, same_text (str n) s -> query_item x' ty' None (Some (VStr s)) = Ok p.
Proof. exact found. Qed.
Print Assumptions C136_found.

(** ... and all other questions have the same answer as before. *)
Theorem C136_others : forall ws x ty p x' b, insert_all [] ws = Ok x -> insert_fixtures x ty p = Ok (x', b) ->
  (forall ty' i, ~ same_text ty ty' \/ entry "id" p <> Some (VInt i) \/ entry "name" p = None ->
     query_item x' ty' (Some (VInt i)) None = query_item x ty' (Some (VInt i)) None) /\
  (forall ty' s, ~ same_text ty ty' \/ (forall n, entry "name" p = Some n -> ~ same_text (str n) s) ->
     query_item x' ty' None (Some (VStr s)) = query_item x ty' None (Some (VStr s))).
Proof. exact others. Qed.
Print Assumptions C136_others.

(** Storing offline works or is a KeyError. *)
Theorem C136_accepted : forall x ty p, (exists r, insert_fixtures x ty p = Ok r) \/ insert_fixtures x ty p = Err KeyError.
Proof. exact accepted. Qed.
Print Assumptions C136_accepted.

(** The lists of numbers and names are those of the models that are found; names are listed in small letters, [t]. *)
Theorem C136_listed : forall x ty l m, ids x ty = Ok l -> names x ty = Ok m ->
  (forall i, In (VInt i) l <-> exists d, query_item x ty (Some (VInt i)) None = Ok d) /\
  (forall s t, same_text s t -> Forall (fun c => ~ (65 <= Ascii.nat_of_ascii c <= 90)%nat) (list_ascii_of_string t) ->
     In t m <-> exists d, query_item x ty None (Some (VStr s)) = Ok d).
Proof.
  intros x ty l m H1 H2. destruct (listed _ _ _ _ H1 H2) as [A B]. split; [exact A|]. intros s t S F. rewrite <- B.
  apply FixProofs.same_iff in S. rewrite S. now rewrite (WebProofs.small_lower t F).
Qed.
Print Assumptions C136_listed.

(** Types of which nothing was stored have no list. *)
Theorem C136_unlisted : forall ws x ty, insert_all [] ws = Ok x ->
  (exists l m, ids x ty = Ok l /\ names x ty = Ok m) \/
  ids x ty = Err ValueError /\ names x ty = Err ValueError /\ Forall (fun w => ~ same_text (w_type w) ty) ws.
Proof. exact unlisted. Qed.
Print Assumptions C136_unlisted.

(** The result is True for a model without a name as well, but it is not stored. *)
Theorem C136_nameless_refuted : forall ws x ty p, insert_all [] ws = Ok x -> entry "name" p = None ->
  exists x', insert_fixtures x ty p = Ok (x', true) /\
  (forall ty' i, query_item x' ty' (Some (VInt i)) None = query_item x ty' (Some (VInt i)) None) /\
  (forall ty' s, query_item x' ty' None (Some (VStr s)) = query_item x ty' None (Some (VStr s))).
Proof. exact nameless. Qed.
Print Assumptions C136_nameless_refuted.

(** Replacing by name leaves the earlier model in place under its number. *)
Definition old : dict := [("id", VInt 7); ("name", VStr "A")]%string.
Definition young : dict := [("id", VInt 8); ("name", VStr "a")]%string.
Theorem C136_replaced_refuted : exists x x', insert_all [] [mkWrap "MCU" old] = Ok x /\ insert_fixtures x "mcu" young = Ok (x', true) /\
  query_item x' "MCU" None (Some (VStr "A")) = Ok young /\ query_item x' "MCU" (Some (VInt 7)) None = Ok old /\
  ids x' "MCU" = Ok [VInt 7; VInt 8] /\ names x' "MCU" = Ok ["a"%string].
Proof. do 2 eexists. split; [vm_compute; reflexivity|]. split; [vm_compute; reflexivity|]. vm_compute. repeat split. Qed.
Print Assumptions C136_replaced_refuted.

(** Online there is one request with the wrapped model, and the result is that of the server ... *)
Theorem C136_posted : forall json post c ty p l r, insert_web json post true c ty p = (l, r) ->
  (forall e, json (mkWrap ty p) = Err e -> l = [] /\ r = Err e) /\
  (forall body, json (mkWrap ty p) = Ok body -> l = [((c_server c ++ "/add")%string, body)] /\
     (r = Ok true <-> post (c_server c ++ "/add")%string body = Ok tt) /\ forall e, r = Err e <-> post (c_server c ++ "/add")%string body = Err e).
Proof. exact posted. Qed.
Print Assumptions C136_posted.

(** ... but neither the token nor the key of the session is sent: all clients of a server send the same, connected or not. *)
Theorem C136_anonymous_refuted : forall json post req c c' ty p, c_server c = c_server c' ->
  insert_web json post req c ty p = insert_web json post req c' ty p.
Proof. intros json post req c c' ty p H. unfold insert_web. now rewrite H. Qed.
Print Assumptions C136_anonymous_refuted.

(** A client whose token could not be read stays in place (C118) and cannot store. *)
Theorem C136_no_token : forall json post c ty p t,
  (t = TokenFile None -> insert_web json post (has_req t) c ty p = ([], Err AttributeError)) /\
  (t <> TokenFile None -> insert_web json post (has_req t) c ty p = insert_web json post true c ty p).
Proof. intros json post c ty p t. split; intros H; [now subst|]. destruct t as [| |[s|]]; try reflexivity. now contradiction H. Qed.
Print Assumptions C136_no_token.

(** Experiments cannot be submitted, scheduled, watched or fetched. *)
Theorem C136_experiments : forall c xp i path, submit_experiment c xp = Err NotImplementedError /\ schedule_experiment c i = Err NotImplementedError /\
  get_experiment_status c i = Err NotImplementedError /\ get_experiment_results c i path = Err NotImplementedError.
Proof. repeat split. Qed.
Print Assumptions C136_experiments.

(** The server that the class names as the default one is not asked, but one on the own machine. *)
Theorem C136_default_refuted : forall net valid_email fresh t w url,
  In url (fst (fst (create net valid_email fresh None t w))) -> exists rest, url = ("http://127.0.0.1:8000/shepherd" ++ rest)%string /\
  prefix class_server_default url = false.
Proof.
  intros net valid_email fresh t w url H. assert (exists rest, url = (server_default ++ rest)%string) as [rest ->].
  { revert H. unfold create, connect. destruct t as [|s|[s|]]; [| | |intros []];
      unfold query_session_key; cbn [c_server new_client]; change (String.eqb server_default "") with false; cbv iota beta zeta;
      (destruct (net _) as [j|e]; [|intros [<-|[]]; eexists; reflexivity]); (destruct (dget "value" j); [|intros [<-|[]]; eexists; reflexivity]);
      unfold query_user_data; cbn [c_server c_token]; change (String.eqb server_default "") with false; cbv iota beta zeta;
      (destruct (net _) as [j'|e]; [destruct (user_of _ _ j')|]); intros [<-|[<-|[]]]; eexists; reflexivity. }
  exists rest. split; reflexivity.
Qed.
Print Assumptions C136_default_refuted.

(** * Examples *)
Definition ex_client : client := mkClient "t1" "http://a" None None true.
Example C136_ex :
  insert_web (fun w => Ok (w_type w)) (fun url _ => if String.eqb url "http://a/add" then Ok tt else Err OSError) true ex_client "MCU" old =
    ([("http://a/add", "MCU")]%string, Ok true) /\
  insert_web (fun w => Ok (w_type w)) (fun _ _ => Err OSError) true ex_client "MCU" old = ([("http://a/add", "MCU")]%string, Err OSError) /\
  insert_fixtures [] "MCU" [("name"%string, VStr "A")] = Err KeyError /\
  exists x, insert_fixtures [] "MCU" old = Ok (x, true) /\ query_item x "mcu" None (Some (VStr "a")) = Ok old.
Proof. do 3 (split; [vm_compute; reflexivity|]). eexists. split; [vm_compute; reflexivity|]. vm_compute. reflexivity. Qed.
