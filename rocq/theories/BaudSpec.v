(** What baud-rate detection should do, in terms of the line's events (UartSpec.v). *)
From Coq Require Import QArith Qabs.
From Verif Require Import PyBase UartModel UartSpec.
Open Scope Z_scope.

(** The durations the detector looks at: those between the first 1000 level changes. *)
Definition looked_at (evs : list event) : list Q := map e_steps (firstn 999 evs).

(** A level that lasts one bit, give or take [eps] bits; one that lasts clearly longer; and a
    glitch, which is clearly shorter (or takes no time at all). *)
Definition one_bit (eps d : Q) : bool := Qle_bool (Qabs (d - 1)) eps.
Definition longer (d : Q) : Prop := (3 # 2 <= d)%Q.
Definition glitch (d : Q) : Prop := (0 <= d /\ d <= 1 # 2)%Q.
Definition known_length (eps d : Q) : Prop := glitch d \/ one_bit eps d = true \/ longer d.

(** Single bits are frequent, glitches are rare: of all levels that take time, less than a tenth
    are glitches, and at most nine longer ones come for each single bit but one (and for each
    glitch). *)
Definition frequent_singles (eps : Q) (ds : list Q) : Prop :=
  exists n g m,
    n = length (filter (fun d => negb (Qle_bool d 0)) ds) /\
    g = length (filter (fun d => negb (Qle_bool d 0) && Qle_bool d (1 # 2)) ds) /\
    m = length (filter (one_bit eps) ds) /\
    (1 <= m)%nat /\ (10 * g <= n - 1)%nat /\ (n - 1 <= 10 * (g + m - 1))%nat.

(** The average of a list of numbers. *)
Definition average (l : list Q) : Q :=
  (fold_right Qplus 0 l / inject_Z (Z.of_nat (length l)))%Q.

(** The integer nearest to a number (where there is only one). *)
Definition nearest (z : Z) (q : Q) : Prop := (Qabs (inject_Z z - q) <= 1 # 2)%Q.

(** Every level lasts for some time, but less than two seconds; times in ns. *)
Fixpoint brisk (ts : list Z) : Prop :=
  match ts with
  | a :: ((b :: _) as r) => a < b < a + 2000000000 /\ brisk r
  | _ => True
  end.
