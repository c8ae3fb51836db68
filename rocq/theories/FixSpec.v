(** Vocabulary for the properties of the fixture database. *)
From Coq Require Import String Ascii Relations.
From Verif Require Import PyBase FixModel.
Open Scope list_scope.

(** A Python dictionary has each key once. *)
Definition python_dict (d : dict) : Prop := NoDup (map fst d).

(** The entry of a dictionary. *)
Definition entry (k : string) (d : dict) : option value :=
  option_map snd (find (fun e => String.eqb (fst e) k) d).

(** The same text up to the case of ASCII letters. *)
Definition letter_of_case (c d : ascii) : Prop :=
  (* c is the capital of d *)
  (65 <= nat_of_ascii c <= 90 /\ nat_of_ascii d = nat_of_ascii c + 32)%nat.

Inductive same_text : string -> string -> Prop :=
| same_empty : same_text "" ""
| same_char c s t : same_text s t -> same_text (String c s) (String c t)
| same_up c d s t : letter_of_case c d -> same_text s t -> same_text (String c s) (String d t)
| same_down c d s t : letter_of_case d c -> same_text s t -> same_text (String c s) (String d t).

(** The inserted object [w] belongs to type [ty] and can be found. *)
Definition of_type (ty : string) (w : wrapper) : Prop :=
  same_text (w_type w) ty /\ entry "name" (w_params w) <> None.

(** ... and its name is [s] up to case; a name may be any Python object, it is used as str. *)
Definition named (ty s : string) (w : wrapper) : Prop :=
  of_type ty w /\ exists n, entry "name" (w_params w) = Some n /\ same_text (str n) s.

(** ... and its id is [i]. *)
Definition with_id (ty : string) (i : value) (w : wrapper) : Prop :=
  of_type ty w /\ entry "id" (w_params w) = Some i.

(** [w] is the last inserted object that satisfies [P]. *)
Definition last_with (P : wrapper -> Prop) (ws : list wrapper) (w : wrapper) : Prop :=
  exists l1 l2, ws = l1 ++ w :: l2 /\ P w /\ Forall (fun w' => ~ P w') l2.

(** What a query returns after the inserts [ws]: the last matching object, or ValueError. *)
Definition answers (P : wrapper -> Prop) (ws : list wrapper) (r : res dict) : Prop :=
  (exists w, last_with P ws w /\ r = Ok (w_params w)) \/
  (Forall (fun w => ~ P w) ws /\ r = Err ValueError).

(** A non-empty text of ASCII digits and the number it stands for. *)
Definition all_digits (s : string) : Prop :=
  s <> ""%string /\ Forall (fun c => 48 <= nat_of_ascii c <= 57)%nat (list_ascii_of_string s).

Definition number (s : string) : Z :=
  fold_left (fun n c => 10 * n + (Z.of_nat (nat_of_ascii c) - 48))%Z (list_ascii_of_string s) 0%Z.

(** * Inheritance *)

(** The ancestors reached from an optional reference, nearest first, each with the key it was
    referred to by. *)
Inductive ancestry (f : fixture) : option value -> list (value * dict) -> Prop :=
| anc_root : ancestry f None []
| anc_step k b l :
    getitem f k = Ok b -> ancestry f (entry "inherit_from" b) l -> ancestry f (Some k) ((k, b) :: l).

(** The first definition of a key in a list of dictionaries. *)
Fixpoint nearest (k : string) (ds : list dict) : option value :=
  match ds with
  | [] => None
  | d :: ds' => match entry k d with Some v => Some v | None => nearest k ds' end
  end.

(** The element of the database that [values] stand for, if they name no parent themselves:
    the one with the same name, otherwise the one with the same id. *)
Definition own_element (f : fixture) (values : dict) (own : list dict) : Prop :=
  match entry "inherit_from" values with
  | Some _ => own = []
  | None =>
    match entry "name" values with
    | Some n =>
      exists s, n = VStr s /\
        match query_name f n with
        | Ok d => own = [d]
        | Err _ =>
          match get value_eqb (match entry "id" values with Some i => i | None => none_ end)
                    (x_ids f) with
          | Some d => own = [d]
          | None => own = []
          end
        end
    | None =>
      match get value_eqb (match entry "id" values with Some i => i | None => none_ end)
                (x_ids f) with
      | Some d => own = [d]
      | None => own = []
      end
    end
  end.

(** A parent is known by the key it was referred to, so this becomes its name. *)
Definition renamed (kb : value * dict) : dict := ("name"%string, fst kb) :: snd kb.

(** The keys along the chain of ancestors. *)
Definition refers (f : fixture) (k k' : value) : Prop :=
  exists b, getitem f k = Ok b /\ entry "inherit_from" b = Some k'.

(** Following "inherit_from" from the key [k] runs into a circle. *)
Definition circular (f : fixture) (k : value) : Prop :=
  exists e, clos_refl_trans value (refers f) k e /\ clos_trans value (refers f) e e.

(** The chain returned: the name of the item itself, if it has a parent, then the keys of the
    ancestors. *)
Definition chain_of (ds : list dict) (anc : list (value * dict)) : list value :=
  match nearest "inherit_from" ds, nearest "name" ds with
  | Some _, Some n => n :: map fst anc
  | _, _ => map fst anc
  end.

(** References are by name (or number in a string), at least the last one. *)
Definition last_by_name (anc : list (value * dict)) : Prop :=
  forall l k b, anc = l ++ [(k, b)] -> exists s, k = VStr s.

(** The state of a component after inserting [ws] into an empty database. *)
Definition filled (ws : list wrapper) (ty : string) (f : fixture) : Prop :=
  exists x, insert_all [] ws = Ok x /\ component x ty = Ok f.
