(** Vocabulary for collecting models for the fixtures. *)
From Coq Require Import String.
From Verif Require Import PyBase FixModel FixSpec PrimeModel.
Open Scope Z_scope.
Open Scope list_scope.

(** The text [key] occurs in [s] after [pre]. *)
Definition occurs_after (key pre s : string) : Prop := exists rest, s = (pre ++ key ++ rest)%string.

(** The place of the content, [root] followed by /content/, has no earlier directory of that name. *)
Definition plain_root (root : string) : Prop :=
  forall pre, occurs_after "/content/" pre (root ++ "/content/") -> pre = root.

(** The file [name] of the content here, and on the server. *)
Definition here (root name : string) : string := (root ++ "/content/" ++ name)%string.
Definition on_server (name : string) : string := ("/var/shepherd/content/" ++ name)%string.

Definition no_content (s : string) : Prop := forall pre, ~ occurs_after "/content/" pre s.

(** Two dictionaries differ at most in the entries [ks]. *)
Definition same_but (ks : list string) (a b : dict) : Prop := forall k, ~ In k ks -> entry k a = entry k b.

(** [f] holds the model [d] of class [cls]. *)
Definition holds (make : string -> dict -> res dict) (cls : string) (f : content) (d : dict) : Prop :=
  exists p, f = Wrapped cls p /\ make cls p = Ok d.

(** A file that does not count: something else, or not accepted. *)
Definition no_model (make : string -> dict -> res dict) (f : content) : Prop :=
  match f with
  | Broken e => e = ValueError \/ e = UnicodeError
  | Wrapped t p => (t = "Firmware" \/ t = "EnergyEnvironment")%string ->
                   make t p = Err ValueError \/ make t p = Err UnicodeError
  end.

(** The entry of the fixtures for a file. *)
Inductive entry_for (make : string -> dict -> res dict) : content -> list (string * dict) -> Prop :=
| ef_none f : no_model make f -> entry_for make f []
| ef_fw f d s a m : holds make "Firmware" f d -> entry "data" d = Some (VStr s) ->
    same_but ["data"; "data_type"; "data_hash"; "data_local"]%string a d ->
    entry "data" a = Some (VStr (relocate s)) -> entry "data_type" a = Some (VStr "path_elf") ->
    entry "data_hash" a = Some none_ -> entry "data_local" a = Some (VOther "False") ->
    make "Firmware"%string a = Ok m -> entry_for make f [("Firmware"%string, m)]
| ef_ee f d s a m : holds make "EnergyEnvironment" f d -> entry "data_path" d = Some (VStr s) ->
    same_but ["data_path"; "data_local"]%string a d ->
    entry "data_path" a = Some (VStr (relocate s)) -> entry "data_local" a = Some (VOther "False") ->
    make "EnergyEnvironment"%string a = Ok m -> entry_for make f [("EnergyEnvironment"%string, m)].
