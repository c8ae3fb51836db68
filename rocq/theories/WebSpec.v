(** Vocabulary for the client of the testbed server. *)
From Coq Require Import String Ascii.
From Verif Require Import PyBase FixModel FixSpec PinSpec WebModel.
Open Scope Z_scope.
Open Scope list_scope.

(** The token that the user gave; without one, access is public. *)
Definition users_token (t : token_arg) : string :=
  match t with TokenText s => s | TokenFile (Some s) => s | _ => "basic_public_access" end.

(** [srv] is the address given, in small letters, or the default one. *)
Inductive address : option string -> string -> Prop :=
| addr_default : address None "http://127.0.0.1:8000/shepherd"
| addr_given s t : same_text s t -> Forall (fun c => ~ (65 <= nat_of_ascii c <= 90)%nat) (list_ascii_of_string t) ->
    address (Some s) t.

Definition key_url (srv : string) : string := (srv ++ "/session_key")%string.
Definition user_url (srv token : string) : string := (srv ++ "/user?token=" ++ token)%string.

(** The object [d] describes the user [u]; a token is made from [fresh] if there is none. *)
Definition describes_user (valid_email : string -> bool) (fresh : string) (d : dict) (u : user) : Prop :=
  text_field 32 fit_for_names (entry "name" d) (Some (u_name u)) /\
  text_field 32 fit_for_names (entry "group" d) (Some (u_group u)) /\
  (exists m, entry "email" d = Some (VStr m) /\ valid_email m = true) /\
  (entry "token" d = Some (VStr (u_token u)) \/
   ((entry "token" d = None \/ entry "token" d = Some (VOther "None")) /\ u_token u = ("shepherd_token_" ++ fresh)%string)).

(** What a key has: nothing, None, or a text. *)
Definition looked_up (k : string) (d : assoc string (option NameModel.text)) : option NameModel.text :=
  match find (fun e => String.eqb (fst e) k) d with Some (_, Some t) => Some t | _ => None end.
