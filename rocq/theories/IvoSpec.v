(** Vocabulary for the properties of the IVonne converters. *)
From Coq Require Import ZArith QArith Qround Bool Reals List.
From Flocq Require Import Core IEEE754.BinarySingleNaN.
From Verif Require Import PyBase F64 F64x IvoModel.
Import ListNotations.
Open Scope Z_scope.

(** Values with time stamps [t], [t + dt], [t + 2 dt], ... *)
Fixpoint stamp {A} (t dt : Z) (l : list A) : list (Z * A) :=
  match l with [] => [] | x :: l => (t, x) :: stamp (t + dt) dt l end.

(** [out] holds [n] samples in steady intervals [d] from time [t] on; every [u]-th one is the next element of [vs]. *)
Definition steady {V} (t d : Z) (u n : nat) (vs : list V) (out : list (Z * V)) : Prop :=
  List.length out = n
  /\ (forall j, (j < n)%nat -> option_map fst (nth_error out j) = Some (t + Z.of_nat j * d))
  /\ (forall k, (k * u < n)%nat -> option_map snd (nth_error out (k * u)) = nth_error vs k).

(** What is assumed of [exp]: defined and monotone, infinite arguments included, and 1 at 0. *)
Definition exp_ok (m : npmath) : Prop :=
  (forall x, isnan x = false -> isnan (np_exp m x) = false)
  /\ (forall x y, isnan x = false -> isnan y = false -> (xR x <= xR y)%R -> (xR (np_exp m x) <= xR (np_exp m y))%R)
  /\ (forall x, fin x = true -> fR x = 0%R -> np_exp m x = fz 1).

(** Coefficients of a solar cell: short-circuit current, saturation current and exponent. *)
Definition solar (r : coef) : Prop :=
  (fin (c_a r) = true /\ 0 <= fR (c_a r))%R /\ (fin (c_b r) = true /\ 0 < fR (c_b r))%R /\ (fin (c_c r) = true /\ 0 <= fR (c_c r))%R.

(** Sorted voltages from 0 to [top]. *)
Definition ascending (l : list f64) : Prop := forall j k, (j <= k < List.length l)%nat ->
  (fR (nth j l (fz 0)) <= fR (nth k l (fz 0)))%R.
Definition voltages (top : f64) (l : list f64) : Prop :=
  ascending l /\ Forall (fun v : f64 => fin v = true /\ (0 <= fR v <= fR top)%R) l.

(** Number of row intervals that the output covers: all of them, or the requested duration (in s). *)
Definition covers (rate : Z) (n : nat) (duration : option Q) (c : nat) : Prop :=
  let all := (inject_Z (Z.of_nat n) / inject_Z rate)%Q in
  match duration with
  | None => c = (n - 1)%nat
  | Some s => (0 <= s)%Q
      /\ ((s + (1 # 2000) < all)%Q /\ c = Nat.min (Z.to_nat (Qround.Qfloor (s * inject_Z rate))) (n - 1)
          \/ (all + (1 # 2000) < s)%Q /\ c = (n - 1)%nat)
  end.

(** The operating point [vi] is on the curve of row [r], at a voltage of the grid, with the highest power, at the lowest
    voltage among those. *)
Definition best_point (m : npmath) (grid : list f64) (r : coef) (vi : f64 * f64) : Prop :=
  let power v := fmul v (iv_model m r v) in
  In (fst vi) grid /\ snd vi = iv_model m r (fst vi)
  /\ forall u, In u grid -> fle (power u) (power (fst vi)) = true
       /\ ((fR u < fR (fst vi))%R -> flt (power u) (power (fst vi)) = true).

(** The operating point [vi] is on the curve of row [r], at the highest voltage of the grid below [w]. *)
Definition highest_below (m : npmath) (grid : list f64) (w : f64) (r : coef) (vi : f64 * f64) : Prop :=
  In (fst vi) grid /\ snd vi = iv_model m r (fst vi) /\ flt (fst vi) w = true
  /\ forall u, In u grid -> flt u w = true -> fle u (fst vi) = true.
