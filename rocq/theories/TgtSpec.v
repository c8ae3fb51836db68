(** Vocabulary for the properties of targets and events. *)
From Coq Require Import ZArith Bool Reals List.
From Flocq Require Import Core IEEE754.BinarySingleNaN.
From Verif Require Import PyBase F64 F64x TgtModel.
Import ListNotations.
Open Scope Z_scope.

(** A current that can be worked with. *)
Definition proper (i : f64) : Prop := fin i = true /\ (0 <= fR i)%R.
(** Neither negative nor undefined (it may be infinite). *)
Definition not_negative (i : f64) : Prop := isnan i = false /\ (0 <= xR i)%R.

(** What is assumed of [math.log] and [math.expm1]: results for ordinary arguments, correct to 30 bits. *)
Definition log_ok (m : pymath) : Prop := forall y, fin y = true -> (1 <= fR y)%R ->
  exists r, m_log m y = Ok r /\ fin r = true /\ (Rabs (fR r - ln (fR y)) <= ln (fR y) * bpow radix2 (-30))%R.
Definition expm1_ok (m : pymath) : Prop := forall x, fin x = true -> (0 <= fR x <= 600)%R ->
  exists r, m_expm1 m x = Ok r /\ fin r = true /\ (Rabs (fR r - (exp (fR x) - 1)) <= (exp (fR x) - 1) * bpow radix2 (-30))%R.

(** Diodes and resistors of usual size: up to 20 V, 1 pA to 1000 A, up to 1 GOhm. *)
Definition usual_diode (Vf If R : f64) : Prop :=
  (fin Vf = true /\ fR Vf <= 20)%R /\ (fin If = true /\ / 1000000000000 <= fR If <= 1000)%R
  /\ (fin R = true /\ fR R <= 1000000000)%R.

(** The time of event [k]. *)
Definition event_time (e : gevent) (k : Z) : R := (fR (ev_delay e) + IZR k * fR (ev_period e))%R.

(** Delay and period are multiples of [2^-j] that leave room for the whole sequence in 53 bits. *)
Definition binary_times (e : gevent) : Prop := exists a b j,
  fR (ev_delay e) = (IZR a * bpow radix2 (- j))%R /\ fR (ev_period e) = (IZR b * bpow radix2 (- j))%R
  /\ 0 <= j <= 1000 /\ 0 <= a /\ 0 < b /\ a + (ev_count e + 1) * b <= 2 ^ 53.

(** The circuit of diode and resistor: Shockley's equation with thermal voltage at 100 degrees Celsius and ideality
    factor 2, scaled such that [If] flows at [Vf]. *)
Definition thermal : R := (2 * (1.380649 * / 10000) * 373.15 / 1.6021766)%R.
Definition scale_current (Vf If : R) : R := (If / (exp (Vf / thermal) - 1))%R.
Definition circuit (Vf If R V I : R) : Prop :=
  (0 <= I)%R /\ (V = R * I + thermal * ln (1 + I / scale_current Vf If))%R.
