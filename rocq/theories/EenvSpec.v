(** Vocabulary for generated energy environments. *)
From Coq Require Import QArith Qabs.
From Verif Require Import PyBase EenvModel.
Open Scope Z_scope.
Open Scope list_scope.

(** Nothing recorded is no energy; positive voltages and currents give some. *)
Definition sane (energy : recording -> Q) : Prop :=
  (forall v c, energy (mkRec v c 0) == 0)%Q /\
  (forall v c k, 0 < v -> 0 < c -> (0 < k)%nat -> 0 < energy (mkRec v c k))%Q.

(** Pairs with positive values that differ by more than 1 mV or 1 mA. *)
Definition far (a b : Q * Q) : Prop := (1 # 1000 < Qabs (fst a - fst b) \/ 1 # 1000 < Qabs (snd a - snd b))%Q.
Definition usable (pairs : list (Q * Q)) : Prop :=
  ForallOrdPairs far pairs /\ Forall (fun p => 0 < fst p /\ 0 < snd p)%Q pairs.

(** What was recorded for [p], and the metadata. *)
Definition complete (energy : recording -> Q) (duration_s : Z) (repetitions : nat) (p : Q * Q) (s : state) : Prop :=
  exists n, In (n, mkRec (fst p) (snd p) repetitions) (s_files s) /\
  In (n, mkMeta (duration_s * Z.of_nat repetitions) (energy (mkRec (fst p) (snd p) repetitions))) (s_metas s).

(** The metadata of the file [n] tell its duration. *)
Definition tells_duration (duration_s : Z) (s : state) : Prop :=
  forall n m r, In (n, m) (s_metas s) -> In (n, r) (s_files s) -> m_duration m = duration_s * Z.of_nat (r_reps r).

(** The steps that made a state: for each recording its creation and the repetitions, and its metadata. *)
Definition work (s : state) : nat :=
  (fold_right (fun e n => S (r_reps (snd e)) + n) 0 (s_files s) + List.length (s_metas s))%nat.
