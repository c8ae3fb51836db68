(** What is meant by a start time. *)
From Coq Require Import String QArith.
From Verif Require Import PyBase StartModel.
Open Scope Z_scope.

(** A clock of this place shows [w] at the instant [i]. *)
Definition clock_shows (offset_at : Z -> Z) (i w : Z) : Prop := i + offset_at i = w.

(** The zone is known: the instant taken for a shown time is one at which it is shown.  (Not so for
    the hour that is left out in spring.) *)
Definition exists_here (utc_of offset_at : Z -> Z) (w : Z) : Prop := clock_shows offset_at (utc_of w) w.

(** The instant [i] is meant by a datetime, by a given value. *)
Definition moment_means (offset_at : Z -> Z) (d : moment) (i : Z) : Prop :=
  match d with Naive w => clock_shows offset_at i w | Aware j _ => i = j end.
Definition means (offset_at : Z -> Z) (iso : string -> option moment) (g : given) (i : Z) : Prop :=
  match g with
  | GNumber us => i = us
  | GText s => exists d, iso s = Some d /\ moment_means offset_at d i
  | GMoment d => moment_means offset_at d i
  | _ => False
  end.

(** The shown time of the value exists. *)
Definition sensible (utc_of offset_at : Z -> Z) (iso : string -> option moment) (g : given) : Prop :=
  match g with
  | GText s => match iso s with Some (Naive w) => exists_here utc_of offset_at w | _ => True end
  | GMoment (Naive w) => exists_here utc_of offset_at w
  | _ => True
  end.

(** Durations and auxiliary voltages that can be used. *)
Definition usable_duration (d : option Z) : Prop := forall z, d = Some z -> 0 <= z.
Definition usable_aux (a : aux) : Prop :=
  match a with
  | AuxVolt v => (0 <= v /\ v <= 9 # 2)%Q
  | AuxText s => s = "main"%string \/ s = "buffer"%string
  end.

(** The second datetime is [delta] before the first one and has its zone. *)
Definition earlier (delta : Z) (d d' : moment) : Prop :=
  match d, d' with
  | Naive w, Naive w' => w' = w - delta
  | Aware i o, Aware i' o' => i' = i - delta /\ o' = o
  | _, _ => False
  end.
