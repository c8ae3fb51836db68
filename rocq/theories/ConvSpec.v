(** Vocabulary for the properties of the converter stage. *)
From Coq Require Import ZArith Reals List.
From Flocq Require Import Core IEEE754.BinarySingleNaN.
From Verif Require Import PyBase F64 CalModel CalSpec ConvModel.
Import ListNotations.
Open Scope Z_scope.

Definition u32 (z : Z) : Prop := 0 <= z < 2 ^ 32.
Definition u8 (z : Z) : Prop := 0 <= z < 2 ^ 8.

(** A configuration that passed the validation of [ConverterPRUConfig] and was made from a valid source
    configuration (which limits the three scale exponents to 20). *)
Record valid_ccfg (c : ccfg) : Prop := mkValid {
  vc_mode : u32 (converter_mode c);
  vc_drain : u32 (interval_startup_delay_drain_n c);
  vc_Vin_max : u32 (V_input_max_uV c);
  vc_Iin_max : u32 (I_input_max_nA c);
  vc_Vin_drop : u32 (V_input_drop_uV c);
  vc_R : u32 (R_input_kOhm_n22 c);
  vc_const : u32 (Constant_us_per_nF_n28 c);
  vc_init : u32 (V_intermediate_init_uV c);
  vc_leak : u32 (I_intermediate_leak_nA c);
  vc_en : u32 (V_enable_output_threshold_uV c);
  vc_dis : u32 (V_disable_output_threshold_uV c);
  vc_dV : u32 (dV_enable_output_uV c);
  vc_interval : u32 (interval_check_thresholds_n c);
  vc_pg_en : u32 (V_pwr_good_enable_threshold_uV c);
  vc_pg_dis : u32 (V_pwr_good_disable_threshold_uV c);
  vc_imm : u32 (immediate_pwr_good_signal c);
  vc_gpio : u32 (V_output_log_gpio_threshold_uV c);
  vc_boost : u32 (V_input_boost_threshold_uV c);
  vc_Vmax : u32 (V_intermediate_max_uV c);
  vc_Vout : u32 (V_output_uV c);
  vc_Vbuck : u32 (V_buck_drop_uV c);
  vc_lutV : 0 <= LUT_input_V_min_log2_uV c <= 20;
  vc_lutI : 0 <= LUT_input_I_min_log2_nA c <= 20;
  vc_lutO : 0 <= LUT_output_I_min_log2_nA c <= 20;
  vc_lut_in : List.length (LUT_inp_efficiency_n8 c) = 12%nat
    /\ Forall (fun row => List.length row = 12%nat /\ Forall u8 row) (LUT_inp_efficiency_n8 c);
  vc_lut_out : List.length (LUT_out_inv_efficiency_n4 c) = 12%nat /\ Forall u32 (LUT_out_inv_efficiency_n4 c);
}.

(** Flags of the mode number. *)
Definition has_storage (c : ccfg) : Prop := Z.testbit (converter_mode c) 0 = true.
Definition has_boost (c : ccfg) : Prop := Z.testbit (converter_mode c) 1 = true.
Definition has_buck (c : ccfg) : Prop := Z.testbit (converter_mode c) 2 = true.

(** A calibration for which no conversion overflows. *)
Definition bounded_cal (cal : cal_emu) : Prop :=
  valid_pair (adc_C_A cal) /\ valid_pair (dac_V_A cal)
  /\ (fR (cp_gain (adc_C_A cal)) <= bpow radix2 100)%R /\ (Rabs (fR (cp_off (adc_C_A cal))) <= bpow radix2 100)%R
  /\ (bpow radix2 (-100) <= fR (cp_gain (dac_V_A cal)))%R /\ (Rabs (fR (cp_off (dac_V_A cal))) <= bpow radix2 100)%R.

(** States in which the thresholds are evaluated: after the storage update of some step of some simulation. *)
Definition before_output (c : ccfg) (cal : cal_emu) (s : conv) : Prop :=
  exists xs x s0 s1 s2 n1 n2 n3,
    conv_sim c cal xs = Ok s0
    /\ calc_inp_power c s0 (in_V x) (in_I x) = Ok (s1, n1)
    /\ calc_out_power c cal s1 (in_raw x) = Ok (s2, n2)
    /\ update_cap_storage c s2 = Ok (s, n3).

(** A step is a threshold check. *)
Definition is_check (c : ccfg) (s : conv) : Prop := interval_check_thresholds_n c <= sample_count s + 1.

(** Row of the input table for a voltage: linear scale in steps of [2^k] uV, the last row is open. *)
Definition row_for (k : Z) (v : R) (r : Z) : Prop :=
  0 <= r <= 11 /\ (IZR (r * 2 ^ k) <= v)%R /\ (r < 11 -> (v < IZR ((r + 1) * 2 ^ k))%R).
(** Column for a current: logarithmic scale, the first and last column are open. *)
Definition col_for (k : Z) (i : R) (r : Z) : Prop :=
  0 <= r <= 11 /\ (0 < r -> (IZR (2 ^ (r + k)) <= i)%R) /\ (r < 11 -> (i < IZR (2 ^ (r + 1 + k)))%R).
(** Entry of a table. *)
Definition entry {A} (l : list A) (i : Z) (a : A) : Prop := 0 <= i /\ nth_error l (Z.to_nat i) = Some a.

(** The power drawn from the storage: output power, divided by the efficiency, plus leakage (every operation
    rounds). *)
Definition drawn (eta vout i vmid leak : R) : R := rnd (rnd (rnd (eta * vout) * i) + rnd (vmid * leak)).

(** The new voltage of the storage before it is limited: the balance of the powers over the voltage (at least
    1 uV) is a current, which times the duration of a step over the capacity changes the voltage. *)
Definition charged (vm pi po k : R) : R := rnd (vm + rnd (rnd (rnd (pi - po) / Rmax 1 vm) * k)).
(** The limits of the storage. *)
Definition limited (vmax v : R) : R := Rmax (Rmin v vmax) 1.

(** The first three calls of a step that starts in state [s0] of some simulation. *)
Definition calls (c : ccfg) (cal : cal_emu) (xs : list cin) (x : cin) (s0 s1 s2 s3 : conv) : Prop :=
  exists n1 n2 n3, conv_sim c cal xs = Ok s0
    /\ calc_inp_power c s0 (in_V x) (in_I x) = Ok (s1, n1)
    /\ calc_out_power c cal s1 (in_raw x) = Ok (s2, n2)
    /\ update_cap_storage c s2 = Ok (s3, n3).

(** Input after diode drop and limit. *)
Definition limited_voltage (c : ccfg) (v : R) : R :=
  Rmin (Rmax 0 (rnd (v - IZR (V_input_drop_uV c)))) (IZR (V_input_max_uV c)).
Definition limited_current (c : ccfg) (i : R) : R := Rmin (Rmax 0 i) (IZR (I_input_max_nA c)).

(** Voltage that charges the capacitor of a circuit without boost converter: what is left behind the input
    resistor, as long as the drop over the resistor is not larger than the difference to the capacitor; else the
    voltage of the capacitor.  Without feedback nothing flows from below the voltage of the capacitor. *)
Definition diode_voltage (feedback : bool) (vm w drop : R) : R :=
  let diff := if Rle_dec vm w then rnd (w - vm) else 0%R in
  let v := if Rlt_dec diff drop then vm else rnd (w - drop) in
  if feedback then v else if Rlt_dec v vm then 0%R else v.

(** Output voltage of a converter that is switched on: behind the buck converter the configured voltage as long
    as the storage is high enough, else what is left of the storage behind the drop. *)
Definition out_voltage (c : ccfg) (mid : R) : R :=
  if Z.testbit (converter_mode c) 2 then
    if Rle_dec mid (IZR (V_output_uV c) + IZR (V_buck_drop_uV c))
    then Rmax 0 (rnd (mid - IZR (V_buck_drop_uV c))) else IZR (V_output_uV c)
  else Rmax 0 (rnd (mid - IZR (V_buck_drop_uV c))).
