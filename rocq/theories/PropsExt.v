(** Properties of the linear extrapolation: C85. *)
From Coq Require Import ZArith Bool Lia List.
From Verif Require Import PyBase HarvModel HarvSpec HarvCvProofs HarvExtProofs PropsHarv.
Import ListNotations.
Open Scope Z_scope.

(** * C85 Linear extrapolation stays on the line of the last crossing and close to the setpoint *)

(** Every call of the harvesters with a setpoint: a crossing of the setpoint takes the closer sample and its direction, all
    other samples move the point one step in that direction, towards the setpoint. *)
Theorem C85_step : forall c xs, cv_based c -> extrapolates c ->
  exists dir : nat -> sample, dir 0%nat = (0, 0) /\ forall k b y', nth_error xs k = Some b -> nth_error (h_outputs c xs) k = Some y' ->
    extrapolated (setpoint_after c xs k) (4 * h_vstep c) (below_before c xs k) (input_before xs k) b
      (output_before (h_outputs c xs) k) (dir k) y' (dir (S k)).
Proof. exact ext_step. Qed.
Print Assumptions C85_step.

(** Constant voltage: after a crossing the results alternate between its two samples, the closer one first, until the
    next crossing. *)
Theorem C85_alternates : forall c xs k a b p q, runs_cv c -> extrapolates c ->
  nth_error xs k = Some a -> nth_error xs (S k) = Some b -> nonneg a -> nonneg b ->
  let S := h_voltage c + 1 in let reach := 4 * h_vstep c in
  brackets S reach a b -> (p = a /\ q = b) \/ (p = b /\ q = a) -> closer S p q ->
  forall n, (k + 1 + n < length xs)%nat ->
    (forall j x x', (k + 1 <= j < k + 1 + n)%nat -> nth_error xs j = Some x -> nth_error xs (j + 1) = Some x' -> ~ brackets S reach x x') ->
    nth_error (h_outputs c xs) (k + 1 + n) = Some (if Nat.even n then p else q).
Proof. exact cv_alternates. Qed.
Print Assumptions C85_alternates.

(** Constant voltage, with or without extrapolation: less than four steps from the setpoint, or nothing yet. *)
Theorem C85_near : forall c xs k y, runs_cv c -> 0 <= h_voltage c -> nth_error (h_outputs c xs) k = Some y ->
  y = (0, 0) \/ Z.abs (fst y - (h_voltage c + 1)) < 4 * h_vstep c.
Proof. exact cv_close. Qed.
Print Assumptions C85_near.

(** The setpoint 2 V lies between samples 4 and 5; the results after them alternate, 500 mV apart. *)
Example C85_ex : let c := ex_cfg (2 ^ 8) 7 in
  runs_cv c /\ extrapolates c /\ brackets 2000001 2000000 (2000000, 5000000) (2500000, 2187500)
  /\ map (nth_error (h_outputs c ex_stream)) [4; 5; 6; 7; 8]%nat
     = [Some (0, 0); Some (2000000, 5000000); Some (2500000, 2187500); Some (2000000, 5000000); Some (2500000, 2187500)].
Proof. cbv zeta. split; [unfold runs_cv; cbn; lia|]. split; [reflexivity|]. split; [unfold brackets; cbn; lia|vm_compute; reflexivity]. Qed.
(** Perturb and observe: the setpoint moves away, the point follows along the line and leaves the curve. *)
Example C85_ex2 : let c := ex_cfg (2 ^ 13) 7 in
  cv_based c /\ extrapolates c /\ map (nth_error (h_outputs c ex_stream)) [17; 18]%nat = [Some (2500000, 2187500); Some (3000000, -625000)]
  /\ towards (setpoint_after c ex_stream 18) (way (2000000, 5000000) (2500000, 2187500)) (2500000, 2187500) = (3000000, -625000).
Proof. cbv zeta. split; [right; right; unfold runs_po; cbn; lia|]. split; [reflexivity|]. split; vm_compute; reflexivity. Qed.
