(** Vocabulary for the properties of harvester and source configurations. *)
From Coq Require Import ZArith Bool Reals List.
From Flocq Require Import Core IEEE754.BinarySingleNaN.
From Verif Require Import PyBase F64 HarvModel CalSpec ConvModel ConvSpec CfgModel.
Import ListNotations.
Open Scope Z_scope.

(** What the documentation of the algorithms promises for one sample of a curve; [None] for the two that record
    curves and can not be emulated. *)
Definition run_named (a : algo) (c : hcfg) (s : hst) (x : sample) : option (hst * sample) :=
  match a with
  | A_neutral => Some (s, x)
  | A_cv => Some (ivcurve_2_cv s x)
  | A_voc => Some (ivcurve_2_mppt_voc c s x)
  | A_po => Some (ivcurve_2_mppt_po c s x)
  | A_opt => Some (ivcurve_2_mppt_opt c s x)
  | A_isc_voc | A_ivcurve => None
  end.
(** Algorithms that deliver operating points and so can be emulated. *)
Definition emulable (a : algo) : Prop := a <> A_isc_voc /\ a <> A_ivcurve.

(** The bit of each algorithm in its register (virtual_harvester.py lines 187-196, shared with the firmware). *)
Definition flag_bit (a : algo) : Z :=
  match a with
  | A_neutral => 0 | A_isc_voc => 3 | A_ivcurve => 4 | A_cv => 8 | A_voc => 12 | A_po => 13 | A_opt => 14
  end.

(** A request for a conversion that makes sense: emulation needs an input of operating points or of curves, for
    curves also the window and voltage step of the recording; the harvester needs an algorithm. *)
Definition sensible (v : vhrv) (dt : option edtype) (w : option Z) (s : option f64) (emu : bool) : Prop :=
  (emu = true -> emulable (vh_algorithm v)
     /\ (dt = Some D_ivsample \/ (dt = Some D_ivcurve /\ w <> None /\ s <> None)))
  /\ (emu = false -> vh_algorithm v <> A_neutral)
  /\ (forall n, w = Some n -> u32 n)
  /\ (forall x, s = Some x -> fin x = true /\ (0 <= fR x <= 4294)%R).

(** A field of the completed dictionary that is missing or inside the documented range. *)
Definition opt_in (o : option f64) (lo hi : R) : Prop :=
  forall x, o = Some x -> fin x = true /\ (lo <= fR x <= hi)%R.
Definition opt_inZ (o : option Z) (lo hi : Z) : Prop := forall x, o = Some x -> lo <= x <= hi.
Definition value (o : option f64) (d : R) : R := match o with Some x => fR x | None => d end.
(** All given fields are inside their ranges and the voltages are ordered (the default of the lower limit for
    durations is the float nearest to 0.01). *)
Definition good_fields (i : vhrv_in) : Prop :=
  opt_inZ (vi_samples i) 8 2000 /\ opt_inZ (vi_wait i) 0 100
  /\ opt_in (vi_voltage i) 0 5000 /\ opt_in (vi_vmin i) 0 5000 /\ opt_in (vi_vmax i) 0 5000
  /\ opt_in (vi_ilimit i) 1 50000 /\ opt_in (vi_step i) 1 1000000 /\ opt_in (vi_setpoint i) 0 1
  /\ opt_in (vi_interval i) (fR (fdec 1 2)) 1000000 /\ opt_in (vi_duration i) (fR (fdec 1 2)) 1000000
  /\ (value (vi_vmin i) 0 <= value (vi_voltage i) 2500 <= value (vi_vmax i) 5000)%R.
(** The step that is used when none is given: the range over the number of steps (every operation rounds). *)
Definition natural_step (i : vhrv_in) : R :=
  rnd (rnd (value (vi_vmax i) 5000 - value (vi_vmin i) 0)
       / IZR (match vi_samples i with Some n => n - 1 | None => 7 end)).

(** What is known about Python's [pow(x, 0.5)]: no negative result. *)
Definition pow_ok (p : pypow) : Prop := forall x r, p_rt p x = Some r -> flt r (fz 0) = false.

(** An entry of the output efficiency table whose inverse is a number. *)
Definition usable_efficiency (x : f64) : Prop := fR x = 0%R \/ (bpow radix2 (-1020) < fR x)%R.

(** The voltage a buck converter needs at its input. *)
Definition V_pre (v : vsrc) : R := rnd (fR (vs_V_out v) + fR (vs_V_buck v)).

(** The capacity in uF times the sampling rate in 1/s, with the lower limit of the capacity (1 nF). *)
Definition cap_R (v : vsrc) : R := rnd (Rmax (fR (vs_C_mid v)) (fR (fdec 1 3)) * 100000).

(** The registers that are copies of fields in other units: times in samples of 10 us, voltages in uV, currents
    in nA, the resistance in kOhm with 22 fractional bits, the inverse capacity, both tables. *)
Record source_regs (v : vsrc) (c : ccfg) : Prop := mkRegs {
  rs_drain : rounds_to (interval_startup_delay_drain_n c) (fR (vs_drain_ms v) * 100);
  rs_check : rounds_to (interval_check_thresholds_n c) (fR (vs_check_ms v) * 100);
  rs_Vin_max : rounds_to (V_input_max_uV c) (fR (vs_Vin_max v) * 1000);
  rs_Iin_max : rounds_to (I_input_max_nA c) (fR (vs_Iin_max v) * 1000000);
  rs_Vin_drop : rounds_to (V_input_drop_uV c) (fR (vs_Vin_drop v) * 1000);
  rs_R : rounds_to (R_input_kOhm_n22 c) (fR (vs_R_in v) * 4194304 / 1000000);
  rs_const : (IZR (Constant_us_per_nF_n28 c) <= 268435456000 / cap_R v < IZR (Constant_us_per_nF_n28 c) + 1)%R;
  rs_init : rounds_to (V_intermediate_init_uV c) (fR (vs_V_init v) * 1000);
  rs_leak : rounds_to (I_intermediate_leak_nA c) (fR (vs_I_leak v));
  rs_pg_en : rounds_to (V_pwr_good_enable_threshold_uV c) (fR (vs_pg_en v) * 1000);
  rs_pg_dis : rounds_to (V_pwr_good_disable_threshold_uV c) (fR (vs_pg_dis v) * 1000);
  rs_imm : immediate_pwr_good_signal c = Z.b2z (vs_pg_immediate v);
  rs_log : rounds_to (V_output_log_gpio_threshold_uV c) (fR (vs_V_log v) * 1000);
  rs_boost : rounds_to (V_input_boost_threshold_uV c) (fR (vs_V_boost v) * 1000);
  rs_Vmax : rounds_to (V_intermediate_max_uV c) (fR (vs_V_mid_max v) * 1000);
  rs_Vout : rounds_to (V_output_uV c) (fR (vs_V_out v) * 1000);
  rs_Vbuck : rounds_to (V_buck_drop_uV c) (fR (vs_V_buck v) * 1000);
  rs_lutV : LUT_input_V_min_log2_uV c = vs_LUT_in_V v;
  rs_lutI : LUT_input_I_min_log2_nA c = vs_LUT_in_I v - 1;
  rs_lutO : LUT_output_I_min_log2_nA c = vs_LUT_out_I v - 1;
  rs_lut_in : Forall2 (Forall2 (fun x n => n = Z.min 255 (ZnearestE (256 * fR x)))) (vs_LUT_in v) (LUT_inp_efficiency_n8 c);
  rs_lut_out : Forall2 (fun x n => (fR x = 0%R /\ n = 2 ^ 14)
                          \/ ((0 < fR x)%R /\ n = Z.min (2 ^ 14) (ZnearestE (rnd (16 / fR x)))))
                 (vs_LUT_out v) (LUT_out_inv_efficiency_n4 c);
}.

(** Accuracy of [pow], for theorems on the voltage drop. *)
Definition pow_accurate (p : pypow) : Prop := forall x, fin x = true -> (0 <= fR x <= 1000000000)%R ->
  (fin (p_sq p x) = true /\ (Rabs (fR (p_sq p x) - fR x * fR x) <= fR x * fR x * bpow radix2 (-51) + bpow radix2 (-1000))%R)
  /\ exists s, p_rt p x = Some s /\ fin s = true /\ (Rabs (fR s - sqrt (fR x)) <= sqrt (fR x) * bpow radix2 (-51))%R.
