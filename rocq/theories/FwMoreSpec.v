(** Values of symbols of any size. *)
From Coq Require Import String.
From Verif Require Import PyBase FileModel FwModel.
Open Scope Z_scope.

(** The value of the [n] bytes from [o] on, least significant byte first or last. *)
Fixpoint value_at (b : bytes) (o : nat) (n : nat) (little : bool) : Z :=
  match n with
  | O => 0
  | S m => if little then nth o b 0 + 256 * value_at b (S o) m little
           else nth o b 0 * 256 ^ Z.of_nat m + value_at b (S o) m little
  end.

(** The range of [n] bytes from address [a] on lies within the interval [i]; away from it. *)
Definition inside (a n : Z) (i : interval) : Prop := iv_begin i <= a /\ a + n <= iv_end i.
Definition away (a n : Z) (i : interval) : Prop := iv_end i <= a \/ a + n <= iv_begin i.

(** The range lies in exactly one interval of the memory. *)
Definition only_in (e : elf) (a n : Z) (i : interval) : Prop :=
  exists l1 l2, e_memory e = l1 ++ i :: l2 /\ Forall (away a n) l1 /\ Forall (away a n) l2 /\ inside a n i.

(** The word is part of the text. *)
Definition mentions (word s : string) : Prop := exists a r, s = (a ++ word ++ r)%string.
