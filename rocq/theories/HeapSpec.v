(** Vocabulary for the properties of HeapModel.v. *)
From Coq Require Import String Ascii.
From Verif Require Import PyBase FixModel HeapModel.

(** The fixture as a value. *)
Definition contents (h : heap) (f : hfixture) : fixture :=
  mkFix (o_type f) (map (fun p => (fst p, load h (snd p))) (o_names f))
    (map (fun p => (fst p, load h (snd p))) (o_ids f)).

(** Its dictionaries exist. *)
Definition stored (f : hfixture) (a : addr) : Prop :=
  In a (map snd (o_names f)) \/ In a (map snd (o_ids f)).
Definition valid (h : heap) (f : hfixture) : Prop := forall a, stored f a -> a < List.length h.

(** The outcome as values. *)
Definition outcome (r : heap * res (addr * list value)) : res (dict * list value) :=
  match snd r with Ok (a, c) => Ok (load (fst r) a, c) | Err e => Err e end.

(** What data models do: create dictionaries, complete them (or any other), fill in user data,
    and change what they got in any way. *)
Inductive step (f : hfixture) : heap * list addr -> heap * list addr -> Prop :=
| s_new h own d : step f (h, own) (h ++ [d], List.length h :: own)
| s_complete h own depth a h' b chain :
    htry_completing_model depth f h a = (h', Ok (b, chain)) -> a < List.length h ->
    step f (h, own) (h', b :: own)
| s_failed h own depth a h' e :
    htry_completing_model depth f h a = (h', Err e) -> a < List.length h ->
    step f (h, own) (h', own)
| s_user h own a : In a own -> step f (h, own) (fst (hfill_in_user_data h a), own)
| s_edit h own a g : In a own -> step f (h, own) (update h a g, own).
Inductive steps (f : hfixture) : heap * list addr -> heap * list addr -> Prop :=
| done s : steps f s s
| more s t u : step f s t -> steps f t u -> steps f s u.
