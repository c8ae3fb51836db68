(** C133: the energies that the simulations report. *)
From Coq Require Import ZArith Bool Reals Lia Lra List.
From Flocq Require Import Core IEEE754.BinarySingleNaN.
From Verif Require Import PyBase F64 HarvModel HarvSpec CalModel CalSpec ConvModel ConvSpec CfgModel CfgSpec TgtModel TgtSpec SimModel SimSpec CfgDropProofs PropsCfg PropsSim
  SumModel SumSpec SumProofs SumSimProofs.
Import ListNotations.
Open Scope Z_scope.

(** ** C133: the simulations report the energy of what they produce *)

(** The source, under the conditions of C79: the reported energy is that of the points of the simulation (of
    the complete blocks of the recording), up to the rounding of the additions, in whatever order numpy sums;
    it is a finite number and not negative.  The file contains exactly these points. *)
Theorem C133_source np_sum m p v v' hv' t dtype window step cv ci size dt out xs : (forall l, adds_up l (np_sum l)) ->
  pow_ok p -> check_vsrc v = Ok v' -> Forall usable_efficiency (vs_LUT_out v) ->
  check_vhrv (vs_harvester v) = Ok hv' -> sensible (vs_harvester v) (Some dtype) window step true -> usual_target m t ->
  moderate_pair cv -> moderate_pair ci -> Forall (fun x => u32 (fst x) /\ u32 (snd x)) xs ->
  (0 < size)%nat -> Z.of_nat (length xs) <= 2 ^ 40 -> fin dt = true -> (0 <= fR dt <= 1)%R ->
  exists e w st l cal, source_energy np_sum m p v t dtype window step cv ci size dt out xs = Ok (e, w)
    /\ simulate_source m p v t dtype window step cv ci (complete size xs) = Ok (st, l) /\ default_emu = Ok cal
    /\ fin e = true /\ (0 <= fR e)%R
    /\ reported size (length xs) (fR e) (energy_of (fR dt) (source_points l)) (energy_of (fR dt) (source_points l))
    /\ if out then Forall2 (fun y z => store_source cal y = Ok z) l w else w = [].
Proof. exact (source_reports np_sum m p v v' hv' t dtype window step cv ci size dt out xs). Qed.
Print Assumptions C133_source.

(** For every target: the file has no influence on the energy, and without a file an exception comes from the
    simulation of a point. *)
Theorem C133_no_file np_sum m p v t dtype window step cv ci size dt xs : (0 < size)%nat ->
  (forall e w, source_energy np_sum m p v t dtype window step cv ci size dt true xs = Ok (e, w) ->
     source_energy np_sum m p v t dtype window step cv ci size dt false xs = Ok (e, []))
  /\ (forall st l, simulate_source m p v t dtype window step cv ci (complete size xs) = Ok (st, l) ->
     exists e, source_energy np_sum m p v t dtype window step cv ci size dt false xs = Ok (e, []))
  /\ (forall x, simulate_source m p v t dtype window step cv ci (complete size xs) = Err x ->
     source_energy np_sum m p v t dtype window step cv ci size dt false xs = Err x).
Proof. exact (source_no_file np_sum m p v t dtype window step cv ci size dt xs). Qed.
Print Assumptions C133_no_file.

(** The energy in the file is that of the points up to 2.5 microwatts, for currents of at most 50 mA. *)
Theorem C133_file dt cal l w : (0 <= dt)%R -> default_emu = Ok cal ->
  Forall (fun y => 0 <= fst y <= 5000000 /\ proper (snd y) /\ (fR (snd y) <= 50000000)%R) l ->
  Forall2 (fun y z => store_source cal y = Ok z) l w ->
  (Rabs (energy_of dt (file_points w) - energy_of dt (source_points l)) <= INR (length l) * dt * (25 / 10 ^ 7))%R.
Proof. exact (file_close dt cal l w). Qed.
Print Assumptions C133_file.

(** The harvester: the same for the results of the algorithm, with negative currents (see C05) included; the file
    is that of C80. *)
Theorem C133_harvester np_sum v dtype window step cv ci size dt out xs e w : (forall l, adds_up l (np_sum l)) ->
  (0 < size)%nat -> Z.of_nat (length xs) <= 2 ^ 40 -> fin dt = true -> (0 <= fR dt <= 1)%R ->
  harvester_energy np_sum v dtype window step cv ci size dt out xs = Ok (e, w) ->
  exists c wt zs, from_vhrv v (Some dtype) window step true = Ok (c, wt)
    /\ Forall2 (fun x z => sample_in cv ci x = Ok z) (complete size xs) zs
    /\ (if out then simulate_harvester v dtype window step cv ci (complete size xs) = Ok w else w = [])
    /\ (Forall (fun y => Z.abs (fst y) <= 2 ^ 50 /\ Z.abs (snd y) <= 2 ^ 50) (h_outputs c zs) ->
        fin e = true
        /\ reported size (length xs) (fR e) (energy_of (fR dt) (harvest_points_R (h_outputs c zs))) (throughput (fR dt) (harvest_points_R (h_outputs c zs)))
        /\ (Forall nonneg (h_outputs c zs) -> (0 <= fR e)%R)).
Proof. exact (harvester_reports np_sum v dtype window step cv ci size dt out xs e w). Qed.
Print Assumptions C133_harvester.

Theorem C133_harvester_completes np_sum v v' dtype window step cv ci size dt xs : check_vhrv v = Ok v' -> sensible v (Some dtype) window step true ->
  moderate_pair cv -> moderate_pair ci -> Forall (fun x => u32 (fst x) /\ u32 (snd x)) xs ->
  exists e, harvester_energy np_sum v dtype window step cv ci size dt false xs = Ok (e, []).
Proof. exact (harvester_completes np_sum v v' dtype window step cv ci size dt xs). Qed.
Print Assumptions C133_harvester_completes.

(** From a recording of operating points comes its own energy, from curves at least that of their samples if
    the optimal point is searched. *)
Theorem C133_harvested dt c zs : (0 <= dt)%R ->
  (h_window c <= 1 -> energy_of dt (harvest_points_R (h_outputs c zs)) = energy_of dt (harvest_points_R zs))
  /\ (runs_opt c -> Forall (usable c) zs -> (energy_of dt (harvest_points_R zs) <= energy_of dt (harvest_points_R (h_outputs c zs)))%R).
Proof.
  intros D. split; [|exact (best_energy dt c zs D)]. intros W. now rewrite (pass_outputs c zs W).
Qed.
Print Assumptions C133_harvested.

(** A recording shorter than one block gives no energy and an empty file, ... *)
Theorem C133_short np_sum size dt out xs e w : (length xs < size)%nat ->
  (forall m p v t dtype window step cv ci, source_energy np_sum m p v t dtype window step cv ci size dt out xs = Ok (e, w) -> e = fz 0 /\ w = [])
  /\ (forall v dtype window step cv ci, harvester_energy np_sum v dtype window step cv ci size dt out xs = Ok (e, w) -> e = fz 0 /\ w = []).
Proof.
  intros L. split; intros; [eapply short_source|eapply short_harvester]; eassumption.
Qed.
Print Assumptions C133_short.

Definition left_sum (l : list f64) : f64 := fold_left fadd l (fz 0).
Definition energy_ex (size : nat) : res (f64 * list (Z * Z)) :=
  let* t := res_init (fz 1000) false in
  source_energy left_sum no_math ieee_pow (src_ex (fz 100) (fz 1) (fz 3000) (fz 2500) (fz 1) true) (T_res t) D_ivsample (Some 0) None
    volt_ex curr_ex size (fdec 1 5) true [(200000, 100000); (10, 10); (200000, 100000)].
Definition points_ex : list (Z * Z) :=
  match res_init (fz 1000) false with
  | Ok t => match simulate_source no_math ieee_pow (src_ex (fz 100) (fz 1) (fz 3000) (fz 2500) (fz 1) true) (T_res t) D_ivsample (Some 0) None
              volt_ex curr_ex [(200000, 100000); (10, 10); (200000, 100000)] with
            | Ok (_, l) => map (fun y => (fst y, match fround (snd y) with Ok n => n | Err _ => 0 end)) l | Err _ => [] end
  | Err _ => [] end.
(** ... although its points have some: 5.29 mW for 10 us each. *)
Theorem C133_tail_refuted : points_ex = [(2299992, 2299992); (2299992, 2299992); (2299992, 2299992)]
  /\ match energy_ex (Z.to_nat 10000) with Ok (e, w) => feq e (fz 0) = true /\ w = [] | Err _ => False end.
Proof. vm_compute. repeat split; reflexivity. Qed.
Print Assumptions C133_tail_refuted.

Lemma left_sum_adds l : adds_up l (left_sum l).
Proof.
  unfold left_sum. assert (K : forall l a s, adds_up a s -> adds_up (a ++ l) (fold_left fadd l s)).
  { clear. induction l as [|x l IH]; intros a s H; cbn [fold_left]; [now rewrite app_nil_r|].
    replace (a ++ x :: l) with ((a ++ [x]) ++ l) by (rewrite <- app_assoc; reflexivity). apply IH.
    eapply adds_two; [exact H|apply adds_one|apply Permutation.Permutation_refl]. }
  exact (K l [] (fz 0) zero_adds).
Qed.
(** In blocks of two the first two points are counted, one by one all three; in units of 10^-15 Ws. *)
Example C133_ex :
  (forall l, adds_up l (left_sum l))
  /\ match energy_ex 2, energy_ex 1 with
     | Ok (e2, w2), Ok (e1, w1) => (fround (fmul e2 (fz (10 ^ 15))), w2, fround (fmul e1 (fz (10 ^ 15))), length w1)
     | _, _ => (Err ValueError, [], Err ValueError, 0%nat) end
   = (Ok 105799264, [(30146, 11305); (30146, 11305)], Ok 158698896, 3%nat).
Proof. split; [exact left_sum_adds|]. vm_compute. reflexivity. Qed.
