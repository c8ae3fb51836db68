(** Vocabulary for the properties of the simulations. *)
From Coq Require Import ZArith Bool Reals List.
From Flocq Require Import Core IEEE754.BinarySingleNaN.
From Verif Require Import PyBase F64 HarvModel HarvSpec CalModel CalSpec ConvModel ConvSpec TgtModel TgtSpec SimModel.
Import ListNotations.
Open Scope Z_scope.

(** The converter does not ask for a voltage (bit 4 of its mode), or the harvester does not work with a setpoint:
    operating points are passed on, or the best point of a curve is searched. *)
Definition asks (c : ccfg) : Prop := Z.testbit (converter_mode c) 4 = true.
Definition heeds (h : hcfg) : Prop := cv_based h.

(** What the converter gets: the results of the harvester and the currents of the target. *)
Definition feed (ys : list sample) (ios : list f64) : list sin_ :=
  map (fun z => mkSin (fz (fst (fst z))) (fz (snd (fst z))) (snd z)) (combine ys ios).

(** A finite current (in nA) of less than 2^940. *)
Definition current_ok (i : f64) : Prop := fin i = true /\ (Rabs (fR i) <= bpow radix2 940)%R.

(** Calibrations of an emulator for which no conversion overflows, in both directions. *)
Definition moderate_cal (cal : cal_emu) : Prop :=
  bounded_cal cal /\ (bpow radix2 (-40) <= fR (cp_gain (adc_C_A cal)))%R /\ (fR (cp_gain (dac_V_A cal)) <= bpow radix2 100)%R.

(** A calibration of a recording. *)
Definition moderate_pair (p : cpair) : Prop :=
  valid_pair p /\ (fR (cp_gain p) <= bpow radix2 100)%R /\ (Rabs (fR (cp_off p)) <= bpow radix2 100)%R.

(** Targets made by their constructors from usual numbers; constant power is missing. *)
Inductive usual_target (m : pymath) : target -> Prop :=
| usual_res R c t : fin R = true -> (fR R <= bpow radix2 900)%R -> res_init R c = Ok t -> usual_target m (T_res t)
| usual_cur a s t : fin a = true -> fin s = true -> (fR a <= bpow radix2 900)%R -> (fR s <= bpow radix2 900)%R ->
    cur_init a s = Ok t -> usual_target m (T_cur t)
| usual_dio Vf If R c t : log_ok m -> expm1_ok m -> usual_diode Vf If R -> diode_init m Vf If R c = Ok t ->
    usual_target m (T_diode t).

(** The operating point in use and the setpoint, attributes of the harvester inside the source. *)
Definition held (st : vsm) : sample :=
  (voltage_hold (vm_hrv st), current_hold (vm_hrv st)).
Definition wanted (st : vsm) : R :=
  match vm_set st with None => IZR (voltage_set (vm_hrv st)) | Some f => fR f end.
(** Distance of a voltage from the setpoint, in double precision. *)
Definition distance (q : R) (x : sample) : R := rnd (Rabs (IZR (fst x) - q)).
(** Between [a] and [b] the curve passed the setpoint (which may have moved from [q0] to [q]) in a small step. *)
Definition crosses (q0 q : R) (reach : Z) (a b : sample) : Prop :=
  ((IZR (fst a) < q0)%R <-> (q <= IZR (fst b))%R) /\ Z.abs (fst b - fst a) < reach.
(** The point that is taken: the one closer to the setpoint, if it is within reach. *)
Definition prefers (q : R) (reach : Z) (a b : sample) : Prop := (distance q a < distance q b)%R /\ (distance q a < IZR reach)%R.

(** Direction of the extrapolation, an attribute of the harvester as well, and a step in it towards the setpoint. *)
Definition direction (st : vsm) : sample := (voltage_delta (vm_hrv st), current_delta (vm_hrv st)).
Definition towards_R (q : R) (d y : sample) : sample :=
  if Rlt_dec (IZR (fst y)) q then if 0 <? fst d then forth d y else back d y
  else if 0 <? fst d then back d y else forth d y.

(** The physical value behind a raw value of a recording. *)
Definition physical (p : cpair) (n : Z) : R := (IZR n * fR (cp_gain p) + fR (cp_off p))%R.
(** Recorded sample of usual size: at most 5 V and 50 mA, offsets of at most one unit. *)
Definition usual_sample (cv ci : cpair) (x : Z * Z) : Prop :=
  u32 (fst x) /\ u32 (snd x) /\ (physical cv (fst x) <= 5)%R /\ (physical ci (snd x) <= / 20)%R.
Definition usual_pair (p : cpair) : Prop := valid_pair p /\ (Rabs (fR (cp_off p)) <= 1)%R.
(** A stored value [n] in units of 1/N stands for [x] (but not less than 0) up to half a step, the integer unit
    1/M in between, and [tiny]. *)
Definition stored_as (n N M : Z) (x tiny : R) : Prop :=
  (Rabs (IZR n / IZR N - Rmax 0 x) <= / (2 * IZR N) + / IZR M + tiny)%R.
(** Neighbouring voltages that rise or fall. *)
Definition rises (l : list Z) : Prop := exists j, (S j < List.length l)%nat /\ nth j l 0 < nth (S j) l 0.
Definition falls (l : list Z) : Prop := exists j, (S j < List.length l)%nat /\ nth (S j) l 0 < nth j l 0.
