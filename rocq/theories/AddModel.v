(** Model of the storing of models by the clients.

    Code: shepherd_core/shepherd_core/testbed_client/client_abc_fix.py (A), client_web.py (WC).

    Simplifications: those of FixModel and WebModel; a model is the name of its class and what model_dump() gives;
    the server is a function from address and content of a POST to its answer, an exception stands for one of requests
    or of raise_for_status; the JSON text of a wrapper is a parameter. *)
From Coq Require Import String.
From Verif Require Import PyBase FixModel WebModel.
Open Scope list_scope.

(** A:88-94, FixturesClient.insert: the database afterwards and the result. *)
Definition insert_fixtures (x : fixtures) (datatype : string) (params : dict) : res (fixtures * bool) :=
  let* x := insert_model x (mkWrap datatype params) in Ok (x, true).

(** A:96-100, query_ids and query_names of the FixturesClient. *)
Definition ids (x : fixtures) (model_type : string) : res (list value) :=
  let* f := component x model_type in Ok (map fst (x_ids f)).
Definition names (x : fixtures) (model_type : string) : res (list string) :=
  let* f := component x model_type in Ok (map fst (x_names f)).

(** WC:46 and 91-103: _req is None until the token was read. *)
Definition has_req (t : token_arg) : bool := match t with TokenFile None => false | _ => true end.

(** WC:51-58, WebClient.insert: the requests (address and content), the result.  [req]: _req is not None. *)
Definition insert_web (json : wrapper -> res string) (post : string -> string -> res unit) (req : bool) (c : client)
  (datatype : string) (params : dict) : list (string * string) * res bool :=
  if req then
    match json (mkWrap datatype params) with
    | Err e => ([], Err e)
    | Ok body =>
      let url := (c_server c ++ "/add")%string in
      ([(url, body)], match post url body with Ok _ => Ok true | Err e => Err e end)
    end
  else ([], Err AttributeError).

(** WC:124-157 *)
Definition submit_experiment (c : client) (xp : dict) : res string := Err NotImplementedError.
Definition schedule_experiment (c : client) (id_xp : string) : res bool := Err NotImplementedError.
Definition get_experiment_status (c : client) (id_xp : string) : res string := Err NotImplementedError.
Definition get_experiment_results (c : client) (id_xp path : string) : res bool := Err NotImplementedError.

(** WC:28, the attribute of the class; the name in WC:42 is the one of commons.py:8. *)
Definition class_server_default : string := "https://shepherd.cfaed.tu-dresden.de:8000/testbed".
