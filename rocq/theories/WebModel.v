(** Model of the client of the testbed server.

    Code: shepherd_core/shepherd_core/testbed_client/client_web.py (WC), client_abc_fix.py (A),
    user_model.py (U), testbed_client/__init__.py and commons.py:8.

    Simplifications: those of FixModel; the network is a function from the address of a request to the
    object in the answer, or the exception of requests (an HTTPError is an OSError); of a User the fields
    name, group, email and token are modelled, its other fields are not looked at; whether an email is
    valid is a parameter, any text is a token; a token as Path is the content of the file, or None if there is no such file. *)
From Coq Require Import String Ascii.
From Verif Require Import PyBase FixModel.
From Verif Require NameModel PinModel.
Open Scope Z_scope.
Open Scope list_scope.

(** U:41-73 *)
Record user := mkUser { u_name : NameModel.text; u_group : NameModel.text; u_token : string }.

Definition empty_value (v : option value) : bool :=
  match v with None => true | Some v => value_eqb v none_ end.

(** U:66-73, query_database: a token if there is none; [fresh] is the random text. *)
Definition with_token (fresh : string) (values : dict) : dict :=
  if empty_value (dget "token" values)
  then dput "token" (VStr ("shepherd_token_" ++ fresh)) values else values.

(** U:41-64: the fields. *)
Definition user_of (valid_email : string -> bool) (fresh : string) (values : dict) : res user :=
  let values := with_token fresh values in
  let* name := PinModel.need_name (dget "name" values) in
  let* group := PinModel.need_name (dget "group" values) in
  guard match dget "email" values with Some (VStr s) => valid_email s | _ => false end or ValueError;;
  let* token := match dget "token" values with
                | Some (VStr s) => Ok s
                | _ => Err ValueError
                end in
  Ok (mkUser name group token).

(** WC:39-46 *)
Record client := mkClient {
  c_token : string; c_server : string; c_user : option user; c_key : option value; c_connected : bool }.

(** commons.py:8 *)
Definition server_default : string := "http://127.0.0.1:8000/shepherd".
(** WC:39-46, the default values. *)
Definition new_client : client := mkClient "basic_public_access" server_default None None false.

(** The argument token. *)
Inductive token_arg : Set := NoToken | TokenText (s : string) | TokenFile (content : option string).

Section Net.
Variable net : string -> res dict.          (* GET *)
Variable valid_email : string -> bool.
Variable fresh : string.

(** WC:107-113, _query_session_key. *)
Definition query_session_key (c : client) : list string * client * res bool :=
  if String.eqb (c_server c) "" then ([], c, Ok false)
  else
    let url := (c_server c ++ "/session_key")%string in
    match net url with
    | Err e => ([url], c, Err e)
    | Ok json =>
      match dget "value" json with
      | None => ([url], c, Err KeyError)
      | Some v => ([url], mkClient (c_token c) (c_server c) (c_user c) (Some v) (c_connected c), Ok true)
      end
    end.

(** WC:115-122, _query_user_data. *)
Definition query_user_data (c : client) : list string * client * res bool :=
  if String.eqb (c_server c) "" then ([], c, Ok false)
  else
    let url := (c_server c ++ "/user?token=" ++ c_token c)%string in
    match net url with
    | Err e => ([url], c, Err e)
    | Ok json =>
      match user_of valid_email fresh json with
      | Err e => ([url], c, Err e)
      | Ok u => ([url], mkClient (c_token c) (c_server c) (Some u) (c_key c) (c_connected c), Ok true)
      end
    end.

(** WC:83-105, _connect; the requests, the client afterwards, the result. *)
Definition connect (server : option string) (token : token_arg) (c : client)
  : list string * client * res bool :=
  match
    match token with
    | TokenFile None => Err FileNotFoundError
    | TokenFile (Some s) => Ok s
    | TokenText _ => Ok (c_token c)                     (* WC:97: self._token = self._token *)
    | NoToken => Ok (c_token c)
    end
  with
  | Err e => ([], c, Err e)
  | Ok t =>
    let srv := match server with Some s => lower s | None => c_server c end in
    let c := mkClient t srv (c_user c) (c_key c) (c_connected c) in
    match query_session_key c with
    | (urls, c, Err e) => (urls, c, Err e)
    | (urls, c, Ok _) =>
      let c := mkClient (c_token c) (c_server c) (c_user c) (c_key c) true in
      match query_user_data c with (urls', c, r) => (urls ++ urls', c, r) end
    end
  end.

(** WC:75-80, fill_in_user_data; None has no attribute name. *)
Definition fill_in (key : string) (field : user -> NameModel.text) (c : client) (values : assoc string (option NameModel.text))
  : res (assoc string (option NameModel.text)) :=
  match get String.eqb key values with
  | Some (Some _) => Ok values
  | _ => match c_user c with
         | None => Err AttributeError
         | Some u => Ok (put String.eqb key (Some (field u)) values)
         end
  end.
(** values: for each key its text, or None. *)
Definition fill_in_user_data (c : client) (values : assoc string (option NameModel.text))
  : res (assoc string (option NameModel.text)) :=
  let* values := fill_in "owner" u_name c values in
  fill_in "group" u_group c values.

(** WC:61-73: queries. *)
Definition query_ids (c : client) (model_type : string) : res (list value) := Err NotImplementedError.
Definition query_names (c : client) (model_type : string) : res (list string) := Err NotImplementedError.
Definition query_item (c : client) (model_type : string) (uid name : option value) : res dict := Err NotImplementedError.
Definition try_inheritance (c : client) (model_type : string) (values : dict) : res (dict * list value) :=
  Err NotImplementedError.
(** A:61-73, with the methods of the web client. *)
Definition try_completing_model (c : client) (model_type : string) (values : dict) : res (dict * list value) :=
  let query := match values with
               | [(k, _)] => String.eqb k "id" || String.eqb k "name"
               | _ => false
               end in
  let* values :=
    (if query then query_item c model_type (dget "id" values) (dget "name" values)
     else Ok values) in
  try_inheritance c model_type values.

(** The clients of a program: A:126, the variable tb_client of the module client_abc_fix; and the one that
    the data models took from the package when they were imported (testbed_client/__init__.py:3, gpio.py:12
    and the like). *)
Inductive any_client := Fixtures | Web (c : client).
Record world := mkWorld { g_module : any_client; g_models : any_client }.
Definition start : world := mkWorld Fixtures Fixtures.

(** WC:33-49 with A:31-33: a new client; requests, world, result. *)
Definition create (server : option string) (token : token_arg) (w : world) : list string * world * res client :=
  match connect server token new_client with
  | (urls, c, r) => (urls, mkWorld (Web c) (g_models w), match r with Ok _ => Ok c | Err e => Err e end)
  end.

(** A program that makes clients. *)
Definition create_all (args : list (option string * token_arg)) (w : world) : world :=
  fold_left (fun w a => snd (fst (create (fst a) (snd a) w))) args w.
End Net.

(** U:24-38, hash_password; the texts are code points; pbkdf2 with its fixed salt is a parameter. *)
Definition hash_password (pbkdf2 : NameModel.text -> NameModel.text -> list Z) (pw : NameModel.text) : res (list Z) :=
  guard Nat.leb 20 (List.length pw) && Nat.leb (List.length pw) 100 or ValueError;;
  Ok (pbkdf2 pw (PinModel.codes "testbed_salt_TODO")).
