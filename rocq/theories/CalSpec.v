(** Vocabulary for the properties of calibrations: real values of the stored numbers. *)
From Coq Require Import ZArith Reals String List.
From Flocq Require Import Core IEEE754.BinarySingleNaN.
From Verif Require Import PyBase F64 CalModel.
Import ListNotations.
Open Scope Z_scope.

(** A pair that passed validation: finite numbers and a positive gain. *)
Definition valid_pair (p : cpair) : Prop :=
  fin (cp_gain p) = true /\ fin (cp_off p) = true /\ (0 < fR (cp_gain p))%R.

(** [n] is [r] rounded to the nearest integer, up to the rounding of the float arithmetic. *)
Definition rounds_to (n : Z) (r : R) : Prop := (Rabs (IZR n - r) <= / 2 + bpow radix2 (-18))%R.

(** What the kernel module expects: six numbers under fixed names, in containers of 32 bits, from gain and
    offset of the current converter, the voltage converter and the output converter (scaled to nano-ampere and
    micro-volt with 8 fractional bits; the last gain is inverse with 20 fractional bits). *)
Definition sysfs_for (cg co vg vo dg dof : R) (l : list (String.string * Z)) : Prop :=
  exists n1 n2 n3 n4 n5 n6 : Z,
    l = [("adc_current_gain", n1); ("adc_current_offset", n2); ("adc_voltage_gain", n3);
         ("adc_voltage_offset", n4); ("dac_voltage_gain", n5); ("dac_voltage_offset", n6)]%string
    /\ (0 <= n1 < 2 ^ 32) /\ (- 2 ^ 31 <= n2 < 2 ^ 31) /\ (0 <= n3 < 2 ^ 32)
    /\ (- 2 ^ 31 <= n4 < 2 ^ 31) /\ (0 <= n5 < 2 ^ 32) /\ (- 2 ^ 31 <= n6 < 2 ^ 31)
    /\ rounds_to n1 (IZR (10 ^ 9 * 2 ^ 8) * cg) /\ rounds_to n2 (IZR (10 ^ 9) * co)
    /\ rounds_to n3 (IZR (10 ^ 6 * 2 ^ 8) * vg) /\ rounds_to n4 (IZR (10 ^ 6) * vo)
    /\ rounds_to n5 (IZR (2 ^ 20) / (IZR (10 ^ 6) * dg)) /\ rounds_to n6 (IZR (10 ^ 6) * dof).

(** All scaled values fit (with one unit to spare). *)
Definition fits (cg co vg vo dg dof : R) : Prop :=
  (IZR (10 ^ 9 * 2 ^ 8) * cg <= IZR (2 ^ 32 - 2))%R /\ (Rabs (IZR (10 ^ 9) * co) <= IZR (2 ^ 31 - 2))%R
  /\ (IZR (10 ^ 6 * 2 ^ 8) * vg <= IZR (2 ^ 32 - 2))%R /\ (Rabs (IZR (10 ^ 6) * vo) <= IZR (2 ^ 31 - 2))%R
  /\ (IZR (2 ^ 20) / (IZR (10 ^ 6) * dg) <= IZR (2 ^ 32 - 2))%R
  /\ (Rabs (IZR (10 ^ 6) * dof) <= IZR (2 ^ 31 - 2))%R.

(** Eight pairs with the same gains and offsets (bit for bit); units are not compared. *)
Definition same_pair (p q : cpair) : Prop := cp_gain p = cp_gain q /\ cp_off p = cp_off q.
Definition same_numbers (c d : cal_cape) : Prop :=
  same_pair (dac_V_Hrv (harvester c)) (dac_V_Hrv (harvester d))
  /\ same_pair (dac_V_Sim (harvester c)) (dac_V_Sim (harvester d))
  /\ same_pair (adc_V_Sense (harvester c)) (adc_V_Sense (harvester d))
  /\ same_pair (adc_C_Hrv (harvester c)) (adc_C_Hrv (harvester d))
  /\ same_pair (dac_V_A (emulator c)) (dac_V_A (emulator d))
  /\ same_pair (dac_V_B (emulator c)) (dac_V_B (emulator d))
  /\ same_pair (adc_C_A (emulator c)) (adc_C_A (emulator d))
  /\ same_pair (adc_C_B (emulator c)) (adc_C_B (emulator d)).
Definition valid_cape (c : cal_cape) : Prop :=
  valid_pair (dac_V_Hrv (harvester c)) /\ valid_pair (dac_V_Sim (harvester c))
  /\ valid_pair (adc_V_Sense (harvester c)) /\ valid_pair (adc_C_Hrv (harvester c))
  /\ valid_pair (dac_V_A (emulator c)) /\ valid_pair (dac_V_B (emulator c))
  /\ valid_pair (adc_C_A (emulator c)) /\ valid_pair (adc_C_B (emulator c)).
Definition bytes (l : list Z) : Prop := Forall (fun b => 0 <= b < 256) l.

(** The raw value of the calibration and the code of the converter differ by at most one. *)
Definition agrees (p : cpair) (hw : f64 -> bool -> res Z) (top : R) : Prop :=
  forall v limited, fin v = true -> (0 <= fR v <= top)%R ->
  exists n m, si_to_raw p v = Ok n /\ hw v limited = Ok m /\ Z.abs (n - m) <= 1.
