(** What it means that models hold the same, independent of dumping and printing. *)
From Coq Require Import ZArith QArith String Ascii List.
From Verif Require Import PyBase DumpModel.
Import ListNotations.

(** The same values under the same names, in the same order; the classes do not matter. *)
Inductive alike : obj -> obj -> Prop :=
| alike_atom a : alike (OAtom a) (OAtom a)
| alike_list l m : Forall2 alike l m -> alike (OList l) (OList m)
| alike_dict d e : Forall2 (fun x y => fst x = fst y /\ alike (snd x) (snd y)) d e -> alike (ODict d) (ODict e)
| alike_model c c' fs gs : Forall2 (fun x y => f_name x = f_name y /\ alike (f_val x) (f_val y)) fs gs -> alike (OModel c fs) (OModel c' gs)
| alike_left c fs e : Forall2 (fun x y => f_name x = fst y /\ alike (f_val x) (snd y)) fs e -> alike (OModel c fs) (ODict e)
| alike_right c d gs : Forall2 (fun x y => fst x = f_name y /\ alike (snd x) (f_val y)) d gs -> alike (ODict d) (OModel c gs).

Definition content (m : model) : obj := OModel (m_cls m) (m_fields m).

(** The names of the fields of a class are distinct. *)
Definition well_named (m : model) : Prop := NoDup (map f_name (m_fields m)).

(** Two inputs of the hash function with the same output. *)
Definition collision (sha3 : text -> text) : Prop := exists a b, a <> b /\ sha3 a = sha3 b.

(** Equality of Python: floats by value, models of the same class (dictionaries: in the same order). *)
Definition atom_equal (a b : atom) : Prop :=
  match a, b with AFloat x, AFloat y => (lit_value x == lit_value y)%Q | _, _ => a = b end.
Inductive equal : obj -> obj -> Prop :=
| equal_atom a b : atom_equal a b -> equal (OAtom a) (OAtom b)
| equal_list l m : Forall2 equal l m -> equal (OList l) (OList m)
| equal_dict d e : Forall2 (fun x y => fst x = fst y /\ equal (snd x) (snd y)) d e -> equal (ODict d) (ODict e)
| equal_model c fs gs : Forall2 (fun x y => f_name x = f_name y /\ equal (f_val x) (f_val y)) fs gs -> equal (OModel c fs) (OModel c gs).

(** What two models of one class have in common: wherever both hold a model, it is of the same class, that is
    with the same names (all different) and defaults. *)
Inductive comparable : obj -> obj -> Prop :=
| comparable_left a b : comparable (OAtom a) b
| comparable_right a b : comparable a (OAtom b)
| comparable_list l m : (forall n x y, nth_error l n = Some x -> nth_error m n = Some y -> comparable x y) -> comparable (OList l) (OList m)
| comparable_dict d e : (forall n x y, nth_error d n = Some x -> nth_error e n = Some y -> comparable (snd x) (snd y)) -> comparable (ODict d) (ODict e)
| comparable_model c fs gs : NoDup (map f_name fs) ->
    Forall2 (fun x y => f_name x = f_name y /\ f_default x = f_default y /\ comparable (f_val x) (f_val y)) fs gs ->
    comparable (OModel c fs) (OModel c gs).

(** Fields that were not given hold their constant default, everywhere inside. *)
Inductive settled : obj -> Prop :=
| settled_atom a : settled (OAtom a)
| settled_list l : Forall settled l -> settled (OList l)
| settled_dict d : Forall (fun e => settled (snd e)) d -> settled (ODict d)
| settled_model c fs : Forall (fun f => settled (f_val f) /\ (f_set f = false -> f_default f = Some (f_val f))) fs -> settled (OModel c fs).
