(** What the firmware tools should do, in terms of file contents. *)
From Coq Require Import String.
From Verif Require Import PyBase FileModel FileSpec FwModel.
Open Scope Z_scope.

(** The two contents are equal except for the [n] bytes from [o] on. *)
Definition same_except (b b' : bytes) (o n : nat) : Prop :=
  length b' = length b /\ forall k, (k < o \/ o + n <= k)%nat -> nth k b' 0 = nth k b 0.

(** The two bytes at address [a] of the program are those at [o] of the file and nothing else. *)
Definition off_range (a : Z) (i : interval) : Prop := iv_end i <= a \/ a + 2 <= iv_begin i.
Definition placed (e : elf) (a o : Z) : Prop :=
  exists l1 i l2 s,
    e_memory e = l1 ++ i :: l2 /\ Forall (off_range a) l1 /\ Forall (off_range a) l2
    /\ iv_begin i <= a /\ a + 2 <= iv_end i /\ iv_data i = InFile s /\ o = s + (a - iv_begin i).

(** All files but [p] are the same. *)
Definition only_touches (d d' : disk) (p : path) : Prop :=
  forall q, q <> p -> content d' q = content d q.

(** Features of a hex image. *)
Definition has_byte (h : ihex) (a v : Z) : Prop :=
  exists h1 h2, h = h1 ++ (a, v) :: h2 /\ ~ In a (map fst h1).
Definition least_address (h : ihex) (m : Z) : Prop :=
  In m (map fst h) /\ forall a, In a (map fst h) -> m <= a.

(** The address stored in the reset vector (little endian at 0xFFFE). *)
Definition reset_vector (h : ihex) (v : Z) : Prop :=
  exists lo hi, has_byte h 0xFFFE lo /\ has_byte h 0xFFFF hi /\ v = lo + 256 * hi.

(** The text form can be undone. *)
Definition lossless (T : tools) : Prop := forall b, unpack T (pack T b) = Ok b.
Definition embedded (f : firmware) : Prop := fw_type_ f = Base64Hex \/ fw_type_ f = Base64Elf.
Definition kind_suffix (t : fw_type) : string :=
  match t with Base64Hex | PathHex => ".hex" | Base64Elf | PathElf => ".elf" end.
