(** Property C118: the client of the testbed server. *)
From Coq Require Import String.
From Verif Require Import PyBase FixModel FixSpec PinSpec WebModel WebSpec WebProofs.
From Verif Require PinModel EnvModel.
Open Scope Z_scope.
Open Scope list_scope.

(** A new client asks for a session key and then, with the user's token, for the data of the user, and
    stops at the first failure ... *)
Theorem C118_requests : forall net valid_email fresh server t srv w urls w' r,
  address server srv -> (forall s, t <> TokenText s) -> create net valid_email fresh server t w = (urls, w', r) ->
  (srv = ""%string -> urls = []) /\
  (srv <> ""%string -> exists rest, urls ++ rest = [key_url srv; user_url srv (users_token t)] /\
     (t <> TokenFile None -> urls <> []) /\ (forall c, r = Ok c -> rest = [])).
Proof. exact requests_spec. Qed.
Print Assumptions C118_requests.

(** ... but a token given as text is never sent: everything is as if there were none. *)
Theorem C118_token_refuted : forall net valid_email fresh server s w,
  create net valid_email fresh server (TokenText s) w = create net valid_email fresh server NoToken w.
Proof. exact text_ignored. Qed.
Print Assumptions C118_token_refuted.

(** There is a client exactly if the token could be read, the server gave a key and described the user. *)
Theorem C118_success : forall net valid_email fresh server t srv w,
  address server srv -> srv <> ""%string -> (forall s, t <> TokenText s) ->
  forall c, snd (create net valid_email fresh server t w) = Ok c <->
     t <> TokenFile None /\ exists j v j' u, net (key_url srv) = Ok j /\ entry "value" j = Some v /\
       net (user_url srv (users_token t)) = Ok j' /\ describes_user valid_email fresh j' u /\
       c = mkClient (users_token t) srv (Some u) (Some v) true.
Proof. exact success_spec. Qed.
Print Assumptions C118_success.

(** Without a server, a client says it is connected, but it has no user ... *)
Theorem C118_empty_refuted : forall net valid_email fresh t w, t <> TokenFile None -> exists c,
  create net valid_email fresh (Some ""%string) t w = ([], mkWorld (Web c) (g_models w), Ok c) /\
  c_connected c = true /\ c_user c = None.
Proof. exact empty_server. Qed.
Print Assumptions C118_empty_refuted.

(** ... and cannot fill in the data of one. *)
Theorem C118_nobody : forall c values, c_user c = None ->
  (looked_up "owner" values = None \/ looked_up "group" values = None) ->
  fill_in_user_data c values = Err AttributeError.
Proof. exact fill_nobody. Qed.
Print Assumptions C118_nobody.

(** With a user, owner and group are filled in where they are missing and nothing else changes. *)
Theorem C118_fill : forall c u values, c_user c = Some u -> exists v', fill_in_user_data c values = Ok v' /\
  (forall k, k <> "owner"%string -> k <> "group"%string -> looked_up k v' = looked_up k values) /\
  looked_up "owner" v' = Some (match looked_up "owner" values with Some t => t | None => u_name u end) /\
  looked_up "group" v' = Some (match looked_up "group" values with Some t => t | None => u_group u end).
Proof. exact fill_spec. Qed.
Print Assumptions C118_fill.

(** The new client replaces the one of the module ... *)
Theorem C118_module : forall net valid_email fresh server t w,
  exists c, g_module (snd (fst (create net valid_email fresh server t w))) = Web c /\
  forall c', snd (create net valid_email fresh server t w) = Ok c' -> c' = c.
Proof. exact module_last. Qed.
Print Assumptions C118_module.

(** ... even if the server did not answer ... *)
Theorem C118_failed_refuted : forall net valid_email fresh server t srv w e,
  address server srv -> srv <> ""%string -> t <> TokenFile None -> net (key_url srv) = Err e ->
  snd (create net valid_email fresh server t w) = Err e /\
  exists c, g_module (snd (fst (create net valid_email fresh server t w))) = Web c /\ c_connected c = false.
Proof. exact failed_stays. Qed.
Print Assumptions C118_failed_refuted.

(** ... but however many clients are made, the data models go on with the fixtures. *)
Theorem C118_models_refuted : forall net valid_email fresh args,
  g_models (create_all net valid_email fresh args start) = Fixtures.
Proof. intros net valid_email fresh args. exact (models_stay net valid_email fresh args start). Qed.
Print Assumptions C118_models_refuted.

(** If they did not, they could not be made. *)
Theorem C118_completing : forall c ty values, try_completing_model c ty values = Err NotImplementedError.
Proof. exact completing_fails. Qed.
Print Assumptions C118_completing.

Theorem C118_queries : forall c ty uid name values,
  query_ids c ty = Err NotImplementedError /\ query_names c ty = Err NotImplementedError /\
  query_item c ty uid name = Err NotImplementedError /\ try_inheritance c ty values = Err NotImplementedError.
Proof. repeat split. Qed.
Print Assumptions C118_queries.

(** A password is hashed if it has 20 to 100 characters. *)
Theorem C118_password : forall f pw h, hash_password f pw = Ok h <->
  (20 <= List.length pw <= 100)%nat /\ h = f pw (PinModel.codes "testbed_salt_TODO").
Proof. exact password_spec. Qed.
Print Assumptions C118_password.

(** The model of C103 makes the same requests with the same outcome. *)
Theorem C118_same_as_C103 : forall net ve fresh show text server t w,
  EnvModel.connect (env_key net show) (env_user net ve fresh text) server (env_token t) =
  (fst (fst (create net ve fresh server t w)),
   match snd (create net ve fresh server t w) with Ok c => Ok (env_client show text c) | Err e => Err e end).
Proof. exact same_as_env. Qed.
Print Assumptions C118_same_as_C103.

(** * Examples *)
Definition jane : dict := [("name", VStr "Jane"); ("group", VStr "nes"); ("email", VStr "j@x.org")]%string.
Definition ex_net (url : string) : res dict :=
  if String.eqb url "http://a/session_key" then Ok [("value"%string, VStr "k")]
  else if String.eqb url "http://a/user?token=t1" then Ok jane else Err OSError.

Example ex_connected :
  create ex_net (fun _ => true) "42" (Some "HTTP://A"%string) (TokenFile (Some "t1"%string)) start =
  (["http://a/session_key"; "http://a/user?token=t1"]%string,
   mkWorld (Web (mkClient "t1" "http://a" (Some (mkUser (PinModel.codes "Jane") (PinModel.codes "nes") "shepherd_token_42"))
     (Some (VStr "k")) true)) Fixtures,
   Ok (mkClient "t1" "http://a" (Some (mkUser (PinModel.codes "Jane") (PinModel.codes "nes") "shepherd_token_42"))
     (Some (VStr "k")) true)).
Proof. vm_compute. reflexivity. Qed.

Example ex_token_lost :
  fst (fst (create ex_net (fun _ => true) "42" (Some "HTTP://A"%string) (TokenText "t1"%string) start)) =
    ["http://a/session_key"; "http://a/user?token=basic_public_access"]%string /\
  snd (create ex_net (fun _ => true) "42" (Some "HTTP://A"%string) (TokenText "t1"%string) start) = Err OSError.
Proof. vm_compute. split; reflexivity. Qed.

Example ex_user : describes_user (fun _ => true) "42" jane (mkUser (PinModel.codes "Jane") (PinModel.codes "nes") "shepherd_token_42").
Proof. apply user_spec. vm_compute. reflexivity. Qed.

Example ex_fill :
  fill_in_user_data (mkClient "t" "s" (Some (mkUser (PinModel.codes "Jane") (PinModel.codes "nes") "x")) None true)
    [("owner", Some (PinModel.codes "Bob")); ("group", None); ("x", None)]%string =
  Ok [("owner", Some (PinModel.codes "Bob")); ("group", Some (PinModel.codes "nes")); ("x", None)]%string.
Proof. vm_compute. reflexivity. Qed.

(** With a server that answers, the key is kept and the answer is yes. *)
Theorem C118_session : forall net c json v, c_server c <> ""%string -> net (c_server c ++ "/session_key")%string = Ok json ->
  FixModel.dget "value" json = Some v -> exists urls c', query_session_key net c = (urls, c', Ok true) /\ c_key c' = Some v.
Proof.
  intros net c json v N J V. unfold query_session_key. destruct (String.eqb_spec (c_server c) ""); [contradiction|].
  rewrite J, V. do 2 eexists. split; reflexivity.
Qed.
Print Assumptions C118_session.
