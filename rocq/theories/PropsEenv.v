(** Property C120: generated energy environments. *)
From Coq Require Import QArith Lqa.
From Verif Require Import PyBase EenvModel EenvSpec EenvProofs.
From Verif Require UartModel.
From Coq Require Import Lia.
Open Scope Z_scope.
Open Scope list_scope.

(** A run that is not interrupted makes a recording for every pair of voltage and current, and metadata that
    tell its duration and energy ... *)
Theorem C120_full : forall energy duration_s repetitions pairs,
  0 < duration_s -> (0 < repetitions)%nat -> sane energy -> usable pairs ->
  exists s, run energy duration_s repetitions pairs None empty = (s, Goes None) /\
  (forall p, In p pairs -> complete energy duration_s repetitions p s) /\
  List.length (s_files s) = List.length pairs /\ List.length (s_metas s) = List.length pairs /\
  tells_duration duration_s s.
Proof. exact full_spec. Qed.
Print Assumptions C120_full.

(** ... and further runs change nothing, interrupted or not. *)
Theorem C120_again : forall energy duration_s repetitions pairs steps s s' st,
  run energy duration_s repetitions pairs steps s = (s', Goes st) ->
  forall steps', run energy duration_s repetitions pairs steps' s' = (s', Goes steps').
Proof. exact again_spec. Qed.
Print Assumptions C120_again.

(** After any number of runs, interrupted anywhere, every recording is one of the pairs, at most of full length,
    and all metadata have a recording of exactly that energy, which is positive. *)
Theorem C120_truth : forall energy duration_s repetitions pairs history,
  let s := runs energy duration_s repetitions pairs history empty in
  NoDup (map fst (s_files s)) /\ NoDup (map fst (s_metas s)) /\
  (forall n r, In (n, r) (s_files s) -> In (r_voltage r, r_current r) pairs /\
     n = name_of duration_s repetitions (r_voltage r) (r_current r) /\ (r_reps r <= repetitions)%nat) /\
  (forall n m, In (n, m) (s_metas s) -> m_duration m = duration_s * Z.of_nat repetitions /\
     exists r, In (n, r) (s_files s) /\ m_energy m = energy r /\ (0 < m_energy m)%Q).
Proof. exact truth_runs. Qed.
Print Assumptions C120_truth.

(** But if a run is interrupted, the next one tells the full duration of a short recording ... *)
Theorem C120_duration_refuted : forall energy duration_s repetitions v c pairs k, (0 < k < repetitions)%nat ->
  0 < duration_s -> (0 < energy (mkRec v c k))%Q ->
  ~ tells_duration duration_s (runs energy duration_s repetitions ((v, c) :: pairs) [Some (S k); None] empty).
Proof.
  intros energy duration_s repetitions v c pairs k H Hd He T.
  destruct (short_spec energy duration_s repetitions v c pairs k H Hd He) as [H1 H2].
  specialize (T _ _ _ H2 H1). cbn [m_duration r_reps] in T. nia.
Qed.
Print Assumptions C120_duration_refuted.

(** ... or, if nothing was recorded yet, fails from now on and never gets to the other pairs. *)
Theorem C120_stuck_refuted : forall energy duration_s repetitions v c pairs history steps, (0 < repetitions)%nat -> sane energy ->
  let s := runs energy duration_s repetitions ((v, c) :: pairs) (Some 1%nat :: history) empty in
  snd (run energy duration_s repetitions ((v, c) :: pairs) steps s) = Failed ValueError /\ s_metas s = [] /\
  List.length (s_files s) = 1%nat.
Proof.
  intros energy duration_s repetitions v c pairs history steps Hr [H0 _] s. unfold s.
  rewrite stuck_spec by auto. rewrite stuck_run by auto. auto.
Qed.
Print Assumptions C120_stuck_refuted.

(** Pairs that are printed the same share a name: the second is never recorded. *)
Theorem C120_names_refuted : forall energy duration_s repetitions, 0 < duration_s -> (0 < repetitions)%nat -> sane energy ->
  run energy duration_s repetitions [(3#1, 12#10000); (3#1, 14#10000)]%Q None empty =
  run energy duration_s repetitions [(3#1, 12#10000)]%Q None empty.
Proof.
  intros energy duration_s repetitions Hd Hr Hs. apply same_name_spec; try assumption; [split; reflexivity|reflexivity].
Qed.
Print Assumptions C120_names_refuted.

(** A run that gets [k] steps does exactly [k] of them, unless it fails or nothing is left to do. *)
Theorem C120_steps : forall energy duration_s repetitions pairs k s,
  let r := run energy duration_s repetitions pairs (Some k) s in
  match snd r with
  | Goes (Some j) => (work (fst r) + j = work s + k)%nat
  | Goes None => False
  | Interrupted => (work (fst r) = work s + k)%nat
  | Failed _ => (work (fst r) <= work s + k)%nat
  end.
Proof. exact counted_run. Qed.
Print Assumptions C120_steps.

(** * Examples *)
Definition ex_energy (r : recording) : Q := (r_voltage r * r_current r * inject_Z (60 * Z.of_nat (r_reps r)))%Q.
Example C120_ex_sane : sane ex_energy.
Proof.
  split.
  - intros v c. unfold ex_energy. cbn [r_voltage r_current r_reps]. change (inject_Z (60 * Z.of_nat 0)) with 0%Q. ring.
  - intros v c k Hv Hc Hk. unfold ex_energy. cbn [r_voltage r_current r_reps].
    apply Qmult_lt_0_compat; [apply Qmult_lt_0_compat; assumption|]. unfold Qlt. cbn [Qnum Qden inject_Z]. lia.
Qed.
Example C120_ex_usable : usable [(3#1, 1#100); (2#1, 1#100); (3#1, 5#1000)]%Q.
Proof.
  split; [|repeat constructor; cbn; lra].
  apply FOP_cons; [apply Forall_cons; [left; reflexivity|apply Forall_cons; [right; reflexivity|constructor]]|].
  apply FOP_cons; [apply Forall_cons; [left; reflexivity|constructor]|]. apply FOP_cons; constructor.
Qed.
Example C120_ex : run ex_energy 60 2 [(3#1, 1#100)]%Q None empty =
  (mkState [((3000, 10, 120), mkRec (3#1) (1#100) 2)] [((3000, 10, 120), mkMeta 120 (360#100))], Goes None).
Proof. vm_compute. reflexivity. Qed.
Example C120_ex_short : runs ex_energy 60 2 [(3#1, 1#100)]%Q [Some 2%nat; Some 0%nat; Some 1%nat] empty =
  mkState [((3000, 10, 120), mkRec (3#1) (1#100) 1)] [((3000, 10, 120), mkMeta 120 (180#100))].
Proof. vm_compute. reflexivity. Qed.
