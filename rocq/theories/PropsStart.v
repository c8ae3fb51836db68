(** C127: tasks start when it was asked for. *)
From Coq Require Import String QArith.
From Verif Require Import PyBase StartModel StartSpec StartProofs.
Open Scope Z_scope.
Open Scope list_scope.

(** An accepted task starts at the instant that was meant, which is not over, or at once when none was given. *)
Theorem C127_requested : forall utc_of offset_at tz iso too_far g dur now t, sensible utc_of offset_at iso g ->
  new_harvest utc_of offset_at tz iso too_far g dur now = Ok t ->
  k_duration t = dur /\ usable_duration dur /\
  ((g = GNone /\ k_start t = None) \/ exists i o, k_start t = Some (Aware i o) /\ means offset_at iso g i /\ now <= i).
Proof. exact harvest_starts. Qed.

(** Every start that means something and is not over is accepted. *)
Theorem C127_accepted : forall utc_of offset_at tz iso too_far g dur now, sensible utc_of offset_at iso g -> usable_duration dur ->
  (forall us, g = GNumber us -> too_far us = None) ->
  g = GNone \/ (exists i, means offset_at iso g i) -> (forall i, means offset_at iso g i -> now <= i) ->
  exists t, new_harvest utc_of offset_at tz iso too_far g dur now = Ok t.
Proof. exact harvest_accepts. Qed.

(** An emulation is accepted like a recording, with an auxiliary voltage that can be used and without actuation. *)
Theorem C127_emulation : forall utc_of offset_at tz iso too_far g dur a act now t,
  new_emulation utc_of offset_at tz iso too_far g dur a act now = Ok t <->
  new_harvest utc_of offset_at tz iso too_far g dur now = Ok t /\ usable_aux a /\ act = false.
Proof. exact emulation_iff. Qed.

(** What is refused is refused with a ValueError, but for values that are no times and numbers out of range. *)
Theorem C127_errors : forall utc_of offset_at tz iso too_far g dur now e,
  new_harvest utc_of offset_at tz iso too_far g dur now = Err e ->
  e = ValueError \/ (g = GOther /\ e = AttributeError) \/ (exists us, g = GNumber us /\ too_far us = Some e).
Proof. exact harvest_err. Qed.

(** The observers of an experiment with a start time begin together, at the instant meant and later
    than all readings of their clocks, write to the same directory and prepare in time. *)
Theorem C127_together : forall utc_of offset_at tz iso too_far strftime name d dur act prep clock os,
  (match d with Naive w => exists_here utc_of offset_at w | _ => True end) ->
  observers_from_xp utc_of offset_at tz iso too_far strftime name (Some d) dur act prep clock = Ok os ->
  length os = length clock /\ exists i off,
    moment_means offset_at d i /\ Forall (fun c => snd c <= i) clock /\
    Forall (fun o => k_start (b_task o) = Some (Aware i off) /\ k_duration (b_task o) = dur /\
      b_dir o = ("experiments/" ++ name ++ "_" ++ strftime (shown d / 1000000))%string /\ earlier prep d (b_prep o)) os.
Proof. exact together. Qed.

(** Without a start time they begin at once, and directory and preparation are named for three minutes
    after the reading of the clock. *)
Theorem C127_at_once : forall utc_of offset_at tz iso too_far strftime name dur act prep clock os,
  observers_from_xp utc_of offset_at tz iso too_far strftime name None dur act prep clock = Ok os ->
  Forall2 (fun c o => k_start (b_task o) = None /\ k_duration (b_task o) = dur /\
    b_dir o = ("experiments/" ++ name ++ "_" ++ strftime ((fst c + offset_at (fst c)) / 1000000 + 180))%string /\
    earlier prep (Aware (fst c + 180 * 1000000) (offset_at (fst c))) (b_prep o)) clock os.
Proof. exact at_once. Qed.

(** A zone one hour before UTC; the text of a second is its last digits. *)
Definition utc1 (w : Z) : Z := w - 3600000000.
Definition off1 (i : Z) : Z := 3600000000.
Definition iso1 (s : string) : option moment :=
  if String.eqb s "noon" then Some (Naive 43200000000) else if String.eqb s "noonZ" then Some (Aware 43200000000 0) else None.
Definition far1 (us : Z) : option exn := if us <? 253402300800000000 then None else Some OverflowError.
Definition digit (z : Z) : string := String (Ascii.ascii_of_nat (48 + Z.to_nat (z mod 10))) EmptyString.
Definition text1 (s : Z) : string := (digit (s / 100) ++ digit (s / 10) ++ digit s)%string.

(** REFUTED: a date is no start, it raises AttributeError; a number out of range raises OverflowError. *)
Theorem C127_date_refuted : exists utc_of offset_at tz iso too_far g g',
  (exists us, g' = GNumber us) /\
  new_harvest utc_of offset_at tz iso too_far g None 0 = Err AttributeError /\
  new_harvest utc_of offset_at tz iso too_far g' None 0 = Err OverflowError.
Proof. exists utc1, off1, 0, iso1, far1, GOther, (GNumber 253402300800000000). split; [eauto|]. split; reflexivity. Qed.

(** REFUTED: without a start time the observers of one experiment may use different directories, and
    none of them waits for the time of the directory. *)
Theorem C127_at_once_refuted : exists utc_of offset_at tz iso too_far strftime clock o1 o2,
  observers_from_xp utc_of offset_at tz iso too_far strftime "x"%string None None false 60000000 clock = Ok [o1; o2] /\
  b_dir o1 <> b_dir o2 /\ k_start (b_task o1) = None /\ k_start (b_task o2) = None.
Proof.
  exists utc1, off1, 0, iso1, far1, text1, [(999999, 1000000); (1000001, 1000002)].
  eexists. eexists. split; [reflexivity|]. cbn. split; [discriminate|auto].
Qed.

(** REFUTED: runs of the same name at different instants may share their directory. *)
Theorem C127_directory_refuted : exists utc_of offset_at tz iso too_far strftime d d' o o' i i',
  observers_from_xp utc_of offset_at tz iso too_far strftime "x"%string (Some d) None false 0 [(0, 0)] = Ok [o] /\
  observers_from_xp utc_of offset_at tz iso too_far strftime "x"%string (Some d') None false 0 [(0, 0)] = Ok [o'] /\
  moment_means offset_at d i /\ moment_means offset_at d' i' /\ i' = i + 3600000000 /\ b_dir o = b_dir o'.
Proof.
  exists utc1, off1, 0, iso1, far1, text1, (Aware 3600000000 7200000000), (Aware 7200000000 3600000000).
  eexists. eexists. exists 3600000000, 7200000000. split; [reflexivity|]. split; [reflexivity|]. repeat split.
Qed.

(** REFUTED: the time of preparation of an experiment without zone cannot be compared to its start. *)
Theorem C127_prep_refuted : exists utc_of offset_at tz iso too_far strftime w o s,
  exists_here utc_of offset_at w /\
  observers_from_xp utc_of offset_at tz iso too_far strftime "x"%string (Some (Naive w)) None false 60000000 [(0, 0)] = Ok [o] /\
  k_start (b_task o) = Some s /\ before (b_prep o) s = Err TypeError.
Proof.
  exists utc1, off1, 0, iso1, far1, text1, 43200000000. eexists. eexists. split; [reflexivity|]. split; [reflexivity|]. split; reflexivity.
Qed.

Example C127_example :
  new_harvest utc1 off1 0 iso1 far1 (GText "noon") (Some 5) 1000 = Ok (mkTask (Some (Aware 39600000000 3600000000)) (Some 5)) /\
  means off1 iso1 (GText "noon") 39600000000 /\
  new_harvest utc1 off1 0 iso1 far1 (GText "noonZ") (Some 5) 1000 = Ok (mkTask (Some (Aware 43200000000 0)) (Some 5)) /\
  new_harvest utc1 off1 0 iso1 far1 (GNumber 999) (Some 5) 1000 = Err ValueError /\
  new_harvest utc1 off1 0 iso1 far1 (GNumber 1000) (Some (-1)) 1000 = Err ValueError /\
  new_emulation utc1 off1 0 iso1 far1 (GNumber 1000) None (AuxText "mid") false 1000 = Err ValueError /\
  new_emulation utc1 off1 0 iso1 far1 (GNumber 1000) None (AuxVolt (9 # 2)) false 1000 = Ok (mkTask (Some (Aware 1000 0)) None).
Proof.
  split; [reflexivity|]. split; [|repeat split]. exists (Naive 43200000000). split; reflexivity.
Qed.

Print Assumptions C127_requested.
Print Assumptions C127_accepted.
Print Assumptions C127_emulation.
Print Assumptions C127_errors.
Print Assumptions C127_together.
Print Assumptions C127_at_once.
Print Assumptions C127_date_refuted.
Print Assumptions C127_at_once_refuted.
Print Assumptions C127_directory_refuted.
Print Assumptions C127_prep_refuted.
