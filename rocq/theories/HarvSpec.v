(** Vocabulary for stating properties of the harvester model.  Nothing here refers to the
    model's state or helper functions: only to the configuration, the stream fed in and the
    stream of results. *)
From Verif Require Import PyBase HarvModel.
Open Scope Z_scope.

(** Power of an operating point in fW. *)
Definition power (x : sample) : Z := fst x * snd x.

(** Operating points the optimal algorithm may use: inside the configured voltage window and not
    consuming energy. *)
Definition usable (c : hcfg) (x : sample) : Prop :=
  h_vmin c <= fst x <= h_vmax c /\ 0 <= power x.

(** The algorithms selected by the number stored in the configuration. *)
Definition runs_opt (c : hcfg) : Prop := h_window c > 1 /\ 2 ^ 14 <= h_algorithm c.
Definition runs_po (c : hcfg) : Prop := h_window c > 1 /\ 2 ^ 13 <= h_algorithm c < 2 ^ 14.
Definition runs_voc (c : hcfg) : Prop := h_window c > 1 /\ 2 ^ 12 <= h_algorithm c < 2 ^ 13.
Definition runs_cv (c : hcfg) : Prop := h_window c > 1 /\ 2 ^ 8 <= h_algorithm c < 2 ^ 12.

(** [src k] names the position of the input that is returned at position [k]
    ([None]: nothing usable is held, (0,0) is returned). *)
Definition opt_explains (c : hcfg) (xs ys : list sample) (src : nat -> option nat) : Prop :=
  length ys = length xs /\
  forall k y, nth_error ys k = Some y ->
    match src k with
    | Some j =>
        (j <= k)%nat /\ nth_error xs j = Some y /\ usable c y /\
        (* not older than two windows *)
        Z.of_nat (k - j) <= 2 * h_window c /\
        (* better than every usable point that was fed later *)
        (forall i x, (j < i <= k)%nat -> nth_error xs i = Some x -> usable c x -> power x < power y)
    | None =>
        y = (0, 0) /\ (forall x, nth_error xs k = Some x -> ~ usable c x)
    end.

(** The held point is only exchanged for the point just fed, because it grew too old,
    or because it delivers no power. *)
Definition opt_steady (c : hcfg) (ys : list sample) (src : nat -> option nat) : Prop :=
  forall k y, (S k < length ys)%nat -> nth_error ys k = Some y ->
    src (S k) = src k \/ src (S k) = Some (S k) \/
    (exists j, src k = Some j /\ (Z.of_nat (S k - j) > 2 * h_window c \/ power y = 0)).

(** Samples that tell the open-circuit voltage: (almost) no current, voltage in range.
    The range is cut at 1 mV from below; a sample at the very maximum carries no information. *)
Definition open_circuit (c : hcfg) (x : sample) : Prop :=
  snd x < h_ilimit c /\ Z.max 1000 (h_vmin c) <= fst x < h_vmax c.

(** Non-negative streams. *)
Definition nonneg (x : sample) : Prop := 0 <= fst x /\ 0 <= snd x.

(** The public attributes [voltage_set_uV] and [voc_now] of the object after the first [k] calls. *)
Definition setpoint_after (c : hcfg) (xs : list sample) (k : nat) : Z :=
  voltage_set (h_state c (firstn k xs)).
Definition voc_after (c : hcfg) (xs : list sample) (k : nat) : Z :=
  voc_now (h_state c (firstn k xs)).

(** [src k] names the input whose voltage is the open-circuit estimate after call [k]
    ([None]: the estimate is the configured maximum). *)
Definition voc_explains (c : hcfg) (xs : list sample) (src : nat -> option nat) : Prop :=
  forall k, (k < length xs)%nat ->
    match src k with
    | Some j =>
        (j <= k)%nat /\ Z.of_nat (k - j) <= 2 * h_window c /\
        (exists x, nth_error xs j = Some x /\ open_circuit c x /\ voc_after c xs (S k) = fst x) /\
        (forall i x, (j < i <= k)%nat -> nth_error xs i = Some x -> open_circuit c x ->
                     voc_after c xs (S k) <= fst x)
    | None =>
        voc_after c xs (S k) = h_vmax c /\
        (forall x, nth_error xs k = Some x -> ~ open_circuit c x)
    end.

(** The estimate is only exchanged for the sample just fed or because it grew too old. *)
Definition voc_steady (c : hcfg) (xs : list sample) (src : nat -> option nat) : Prop :=
  forall k, (S k < length xs)%nat ->
    src (S k) = src k \/ src (S k) = Some (S k) \/
    (exists j, src k = Some j /\ Z.of_nat (S k - j) > 2 * h_window c).

(** Position of call number [k] (from 0) inside its measurement interval: the interval counter
    starts so that two windows pass before the first wrap, if the interval is longer than that. *)
Definition phase (c : hcfg) (k : nat) : Z :=
  if h_interval c >? 2 * h_window c
  then (Z.of_nat k + 1 - 2 * h_window c) mod h_interval c
  else Z.of_nat k mod h_interval c.

(** Constant-voltage harvesting as a function of the stream alone: [S] is the setpoint, [reach] four
    voltage steps.  Whenever two successive voltages lie on different sides of the setpoint and are
    less than [reach] apart, the one closer to the setpoint is taken; else the last result stays. *)
Definition brackets (S reach : Z) (a b : sample) : Prop :=
  ((fst a < S /\ S <= fst b) \/ (fst b < S /\ S <= fst a)) /\ Z.abs (fst b - fst a) < reach.

Definition closer (S : Z) (a b : sample) : Prop := Z.abs (fst a - S) < Z.abs (fst b - S).

(** Configurations whose output comes from the constant-voltage stage, and the extrapolation bit. *)
Definition cv_based (c : hcfg) : Prop := runs_cv c \/ runs_voc c \/ runs_po c.
Definition extrapolates (c : hcfg) : Prop := Z.testbit (h_mode c) 2 = true.

(** The previous result: (0,0) before the first call. *)
Definition output_before (ys : list sample) (k : nat) : sample :=
  match k with O => (0, 0) | S k' => nth k' ys (0, 0) end.

(** Call [k] was an update of the perturb-and-observe algorithm. *)
Definition po_updates (c : hcfg) (k : nat) : Prop := phase c k = 0.

(** [j] and [k] are successive updates. *)
Definition next_update (c : hcfg) (j k : nat) : Prop :=
  (j < k)%nat /\ po_updates c j /\ po_updates c k /\
  forall i, (j < i < k)%nat -> ~ po_updates c i.

(** The power measured at the last update before call [k]; nothing before the first one. *)
Definition power_before (c : hcfg) (ys : list sample) (k : nat) (p : Z) : Prop :=
  (exists j y, next_update c j k /\ nth_error ys j = Some y /\ p = power y) \/
  ((forall j, (j < k)%nat -> ~ po_updates c j) /\ p = 0).

(** Limits of the setpoint, and a setpoint that touches none of them. *)
Definition limited (c : hcfg) (v : Z) : Z :=
  Z.max (h_vstep c) (Z.max (h_vmin c) (Z.min (h_vmax c) v)).
Definition inside (c : hcfg) (v : Z) : Prop :=
  h_vstep c < v /\ h_vmin c < v /\ v < h_vmax c.

(** ** Linear extrapolation *)

(** The sample before call [k], and whether it was below the setpoint of its own call. *)
Definition input_before (xs : list sample) (k : nat) : sample :=
  match k with O => (0, 0) | S k' => nth k' xs (0, 0) end.
Definition below_before (c : hcfg) (xs : list sample) (k : nat) : Prop :=
  match k with O => False | S k' => fst (nth k' xs (0, 0)) < setpoint_after c xs k' end.

(** Way from one operating point to another, and steps along it; backwards both values stop at 0. *)
Definition way (a b : sample) : sample := (fst b - fst a, snd b - snd a).
Definition forth (d y : sample) : sample := (fst y + fst d, snd y + snd d).
Definition back (d y : sample) : sample := (Z.max 0 (fst y - fst d), Z.max 0 (snd y - snd d)).

(** One step along [d] in the direction of the setpoint: upwards from below, else downwards. *)
Definition towards (S : Z) (d y : sample) : sample :=
  if fst y <? S then if 0 <? fst d then forth d y else back d y
  else if 0 <? fst d then back d y else forth d y.

(** One call: [a], [b] successive samples, [was] tells whether [a] was below its setpoint; [y] with direction [d] before,
    [y'] with [d'] after the call. *)
Definition extrapolated (S reach : Z) (was : Prop) (a b y d y' d' : sample) : Prop :=
  let crossed := (was <-> S <= fst b) /\ Z.abs (fst b - fst a) < reach in
  (crossed -> closer S b a -> Z.abs (fst b - S) < reach -> y' = b /\ d' = way a b)
  /\ (crossed -> closer S a b -> Z.abs (fst a - S) < reach -> y' = a /\ d' = way a b)
  /\ (crossed -> ~ (closer S b a /\ Z.abs (fst b - S) < reach) -> ~ (closer S a b /\ Z.abs (fst a - S) < reach) -> y' = y /\ d' = d)
  /\ (~ crossed -> y' = towards S d y /\ d' = d).
