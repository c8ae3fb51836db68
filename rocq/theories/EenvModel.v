(** Model of the script that generates static energy environments.

    Code: extra/gen_energy_envs.py (G); EnergyEnvironment of
    shepherd_core/shepherd_core/data_models/content/energy_environment.py (E).

    Simplifications: voltages and currents are exact rationals; a recording is the voltage, the current and
    the number of repetitions appended to it; its energy is a parameter (Reader.energy, see C34); a name
    is the triple of numbers that are printed into it; durations are whole seconds; writing the metadata
    is one step. A run may be interrupted: it gets a number of steps (create a recording, append once,
    write the metadata), or as many as it needs. *)
From Coq Require Import QArith.
From Verif Require Import PyBase FixModel.
From Verif Require UartModel.
Open Scope Z_scope.
Open Scope list_scope.

(** G:33-36, name *)
Definition name : Set := (Z * Z * Z)%type.
Definition name_eqb (a b : name) : bool :=
  match a, b with (a1, a2, a3), (b1, b2, b3) => (a1 =? b1) && (a2 =? b2) && (a3 =? b3) end.

Record recording := mkRec { r_voltage : Q; r_current : Q; r_reps : nat }.
Record metadata := mkMeta { m_duration : Z; m_energy : Q }.

Record state := mkState { s_files : assoc name recording; s_metas : assoc name metadata }.
Definition empty : state := mkState [] [].

Inductive outcome : Set := Goes (steps : option nat) | Interrupted | Failed (e : exn).

(** Steps left, if there are [n] to do; or how many of them can be done. *)
Definition spend (n : nat) (steps : option nat) : (option nat) + nat :=
  match steps with
  | None => inl None
  | Some k => if Nat.leb n k then inl (Some (k - n)%nat) else inr k
  end.

Section Config.
Variable energy : recording -> Q.
Variable duration_s : Z.
Variable repetitions : nat.

Definition name_of (v c : Q) : name :=
  (UartModel.qround (v * 1000), UartModel.qround (c * 1000), duration_s * Z.of_nat repetitions).

(** G:39-51: the recording, unless it exists. *)
Definition gen_file (v c : Q) (steps : option nat) (s : state) : state * outcome :=
  let n := name_of v c in
  match get name_eqb n (s_files s) with
  | Some _ => (s, Goes steps)
  | None =>
    match spend (S repetitions) steps with
    | inl steps => (mkState (put name_eqb n (mkRec v c repetitions) (s_files s)) (s_metas s), Goes steps)
    | inr O => (s, Interrupted)
    | inr (S k) => (mkState (put name_eqb n (mkRec v c k) (s_files s)) (s_metas s), Interrupted)
    end
  end.

(** G:53-72: the metadata, unless they exist; E:34-35: energy and duration must be positive. *)
Definition gen_meta (v c : Q) (steps : option nat) (s : state) : state * outcome :=
  let n := name_of v c in
  match get name_eqb n (s_metas s) with
  | Some _ => (s, Goes steps)
  | None =>
    match get name_eqb n (s_files s) with
    | None => (s, Failed FileNotFoundError)
    | Some r =>
      let duration := duration_s * Z.of_nat repetitions in
      if Qle_bool (energy r) 0 || (duration <=? 0) then (s, Failed ValueError)
      else match spend 1 steps with
           | inl steps => (mkState (s_files s) (put name_eqb n (mkMeta duration (energy r)) (s_metas s)), Goes steps)
           | inr _ => (s, Interrupted)
           end
    end
  end.

(** G:32-72 *)
Fixpoint run (pairs : list (Q * Q)) (steps : option nat) (s : state) : state * outcome :=
  match pairs with
  | [] => (s, Goes steps)
  | (v, c) :: pairs =>
    match gen_file v c steps s with
    | (s, Goes steps) =>
      match gen_meta v c steps s with
      | (s, Goes steps) => run pairs steps s
      | other => other
      end
    | other => other
    end
  end.

(** Several runs of the script. *)
Definition runs (pairs : list (Q * Q)) (history : list (option nat)) (s : state) : state :=
  fold_left (fun s steps => fst (run pairs steps s)) history s.
End Config.
