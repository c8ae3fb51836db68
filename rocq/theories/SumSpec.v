(** Vocabulary for the energies that the simulations report. *)
From Coq Require Import ZArith Bool Reals List Permutation.
From Flocq Require Import Core IEEE754.BinarySingleNaN.
From Verif Require Import PyBase F64 HarvModel.
Import ListNotations.
Open Scope Z_scope.

(** [s] is a sum of [l] in double precision, with the additions in any order and any number of zeros added. *)
Inductive adds_up : list f64 -> f64 -> Prop :=
| adds_none sign : adds_up [] (B754_zero sign)
| adds_one x : adds_up [x] x
| adds_two l1 l2 l a b : adds_up l1 a -> adds_up l2 b -> Permutation (l1 ++ l2) l -> adds_up l (fadd a b).

(** All that is in complete blocks of [size] samples. *)
Definition complete {A} (size : nat) (xs : list A) : list A := firstn (length xs / size * size) xs.

(** Exact sums.  Voltages in uV, currents in nA; the energy in Ws of points that last [dt] seconds each. *)
Fixpoint Rsum (l : list R) : R := match l with [] => 0%R | x :: l => (x + Rsum l)%R end.
Definition energy_of (dt : R) (l : list (R * R)) : R :=
  (Rsum (map (fun y => fst y / 10 ^ 6 * (snd y / 10 ^ 9)) l) * dt)%R.
(** Points of the source and of the harvester. *)
Definition source_points (l : list (Z * f64)) : list (R * R) := map (fun y => (IZR (fst y), fR (snd y))) l.
Definition harvest_points_R (l : list sample) : list (R * R) := map (fun y => (IZR (fst y), IZR (snd y))) l.

(** All flows of energy counted as positive. *)
Definition throughput (dt : R) (l : list (R * R)) : R := energy_of dt (map (fun y => (Rabs (fst y), Rabs (snd y))) l).

(** [e] is [E] up to the rounding of [n] samples in blocks of [size]: one part in 2^52 of the throughput [M] for each
    addition and 5 more. *)
Definition reported (size n : nat) (e E M : R) : Prop :=
  (Rabs (e - E) <= bpow radix2 (-52) * (INR size + INR (n / size) + 5) * M + bpow radix2 (-1000))%R.

(** What the file of the source says: codes of the default calibration, 13107 per volt and 4915200 per ampere. *)
Definition file_points (w : list (Z * Z)) : list (R * R) := map (fun z => (IZR (fst z) / 13107 * 10 ^ 6, IZR (snd z) / 4915200 * 10 ^ 9)%R) w.
