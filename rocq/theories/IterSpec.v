(** Vocabulary for going through the elements of a fixture. *)
From Coq Require Import String Ascii.
From Verif Require Import PyBase FixModel FixSpec IterModel.
Open Scope list_scope.

(** The names of the objects of type [ty] in the order of their first inserts, each once up to
    case. *)
Inductive first_names (ty : string) : list wrapper -> list string -> Prop :=
| names_none : first_names ty [] []
| names_skip ws ss w : first_names ty ws ss -> ~ of_type ty w -> first_names ty (ws ++ [w]) ss
| names_old ws ss w s :
    first_names ty ws ss -> In s ss -> named ty s w -> first_names ty (ws ++ [w]) ss
| names_new ws ss w n :
    first_names ty ws ss -> of_type ty w -> entry "name" (w_params w) = Some n ->
    Forall (fun s => ~ same_text s (str n)) ss -> first_names ty (ws ++ [w]) (ss ++ [str n]).

(** The same for the ids. *)
Inductive first_ids (ty : string) : list wrapper -> list value -> Prop :=
| ids_none : first_ids ty [] []
| ids_skip ws is w : first_ids ty ws is -> ~ of_type ty w -> first_ids ty (ws ++ [w]) is
| ids_old ws is w i :
    first_ids ty ws is -> In i is -> with_id ty i w -> first_ids ty (ws ++ [w]) is
| ids_new ws is w i :
    first_ids ty ws is -> with_id ty i w -> ~ In i is -> first_ids ty (ws ++ [w]) (is ++ [i]).

(** Every object that can be found has an id. *)
Definition storable (ty : string) (ws : list wrapper) : Prop :=
  Forall (fun w => of_type ty w -> entry "id" (w_params w) <> None) ws.

(** The elements shown after the inserts [ws]: for each name the last object of this name. *)
Definition listing (ty : string) (ws : list wrapper) (ds : list dict) : Prop :=
  exists ss, first_names ty ws ss /\
    Forall2 (fun s d => exists w, last_with (named ty s) ws w /\ d = w_params w) ss ds.

(** The inserts among what the user does. *)
Fixpoint inserted (ops : list op) : list wrapper :=
  match ops with
  | [] => []
  | OInsert w :: ops' => w :: inserted ops'
  | _ :: ops' => inserted ops'
  end.

(** No capital letters. *)
Definition no_capitals (s : string) : Prop :=
  Forall (fun c => ~ (65 <= nat_of_ascii c <= 90)%nat) (list_ascii_of_string s).

(** The object [d] of a fixture is called [s]. *)
Definition called (s : string) (d : dict) : Prop :=
  exists n, entry "name" d = Some n /\ same_text (str n) s.
