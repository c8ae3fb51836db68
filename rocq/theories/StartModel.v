(** Model of the start of tasks and experiments:
    shepherd_core/shepherd_core/data_models/task/emulation.py (EM), task/harvest.py (HT) and
    task/observer_tasks.py (OT).

    Times are in microseconds.  The zone of the machine, its clock, datetime.fromisoformat and
    strftime are parameters.  Simplifications: sums and differences of dates do not leave the years 1
    to 9999; only the fields about time, the auxiliary voltage and actuation are modelled. *)
From Coq Require Import String QArith.
From Verif Require Import PyBase.
Open Scope Z_scope.
Open Scope list_scope.

(** A datetime without zone (what a clock shows) or with one (instant and offset of the zone). *)
Inductive moment := Naive (wall : Z) | Aware (instant off : Z).

(** What it shows. *)
Definition shown (d : moment) : Z := match d with Naive w => w | Aware i o => i + o end.
(** datetime + timedelta *)
Definition later (d : moment) (delta : Z) : moment :=
  match d with Naive w => Naive (w + delta) | Aware i o => Aware (i + delta) o end.

(** The values given for a start: none, a number with its microseconds, a text, a datetime, or
    anything else (a date has no tzinfo). *)
Inductive given := GNone | GNumber (us : Z) | GText (s : string) | GMoment (d : moment) | GOther.

(** voltage_aux: a number or a text *)
Inductive aux := AuxVolt (v : Q) | AuxText (s : string).

Section Machine.
  (** When a clock of this place shows [w]; the offset at an instant; local_tz() of timezone.py *)
  Context (utc_of offset_at : Z -> Z) (tz : Z).
  (** datetime.fromisoformat; the exception of datetime.fromtimestamp for numbers it cannot take *)
  Context (iso : string -> option moment) (too_far : Z -> option exn).
  (** strftime("%Y-%m-%d_%H-%M-%S") for the shown second *)
  Context (strftime : Z -> string).

  (** datetime.astimezone() *)
  Definition astimezone (d : moment) : moment :=
    let i := match d with Naive w => utc_of w | Aware i _ => i end in Aware i (offset_at i).

  (** EM:107-108, HT:66-67 *)
  Definition add_zone (d : moment) : moment :=
    match d with Naive _ => astimezone d | Aware _ _ => d end.

  (** EM:98-109, HT:57-68: pre_correction *)
  Definition pre_correction (g : given) : res (option moment) :=
    match g with
    | GNone => Ok None
    | GNumber us => match too_far us with Some e => Err e | None => Ok (Some (Aware us tz)) end
    | GText s => match iso s with Some d => Ok (Some (add_zone d)) | None => Err ValueError end
    | GMoment d => Ok (Some (add_zone d))
    | GOther => Err AttributeError
    end.

  (** [a < b] raises TypeError when only one has a zone. *)
  Definition before (a b : moment) : res bool :=
    match a, b with
    | Naive v, Naive w => Ok (v <? w)
    | Aware i _, Aware j _ => Ok (i <? j)
    | _, _ => Err TypeError
    end.

  Record task := mkTask { k_start : option moment; k_duration : option Z }.

  (** HT:70-83; [now] is the instant of datetime.now().astimezone(). *)
  Definition time_check (start : option moment) (duration : option Z) (now : Z) : res unit :=
    let* past := match start with Some d => before d (Aware now (offset_at now)) | None => Ok false end in
    guard negb past or ValueError ;;
    guard negb (match duration with Some d => d <? 0 | None => false end) or ValueError ;;
    Ok tt.

  Definition new_harvest (g : given) (duration : option Z) (now : Z) : res task :=
    let* s := pre_correction g in
    let* _ := time_check s duration now in
    Ok (mkTask s duration).

  (** EM:79, 122-130: field and check of the auxiliary voltage, no actuation *)
  Definition aux_ok (a : aux) : bool :=
    match a with
    | AuxVolt v => Qle_bool 0 v && Qle_bool v (9 # 2)
    | AuxText s => String.eqb s "main" || String.eqb s "buffer"
    end.
  Definition new_emulation (g : given) (duration : option Z) (a : aux) (actuation : bool) (now : Z) : res task :=
    let* s := pre_correction g in
    guard (match a with AuxVolt _ => aux_ok a | AuxText _ => true end) or ValueError ;;
    let* _ := time_check s duration now in
    guard aux_ok a or ValueError ;;
    guard negb actuation or ValueError ;;
    Ok (mkTask s duration).

  (** OT:48-79 with EM:133-144: of the tasks of one observer the time of preparation, the
      directory and the emulation; [now1] and [now2] are the readings of the clock. *)
  Record observer := mkObs { b_prep : moment; b_dir : string; b_task : task }.
  Definition start_of (x_start : option moment) (now : Z) : moment :=
    match x_start with
    | Some d => d
    | None => later (Aware now (offset_at now)) 180000000
    end.
  Definition observer_from_xp (name : string) (x_start : option moment) (x_duration : option Z)
      (actuation : bool) (prep : Z) (now1 now2 : Z) : res observer :=
    let t := start_of x_start now1 in
    let dir := ("experiments/" ++ name ++ "_" ++ strftime (shown t / 1000000))%string in
    let g := match x_start with Some d => GMoment d | None => GNone end in
    let* e := new_emulation g x_duration (AuxVolt 0) actuation now2 in
    Ok (mkObs (later t (- prep)) dir e).

  (** testbed_tasks.py:38-39: one after the other *)
  Fixpoint observers_from_xp (name : string) (x_start : option moment) (x_duration : option Z)
      (actuation : bool) (prep : Z) (clock : list (Z * Z)) : res (list observer) :=
    match clock with
    | [] => Ok []
    | (n1, n2) :: l =>
      let* o := observer_from_xp name x_start x_duration actuation prep n1 n2 in
      let* os := observers_from_xp name x_start x_duration actuation prep l in
      Ok (o :: os)
    end.
End Machine.
