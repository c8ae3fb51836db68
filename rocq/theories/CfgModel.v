(** Harvester and source configurations over binary64, their validation and their conversion to the register
    format: shepherd_core/shepherd_core/data_models/content/virtual_harvester.py (lines 34-286) and
    data_models/content/virtual_source.py (lines 20-352).

    Numbers.  A [float] field is a binary64 number: pydantic converts an integer on validation, and the values
    handled before validation (virtual_harvester.py lines 86-98) are represented by the float of the same value
    as well.  Lookup of fixtures and inheritance ([try_completing_model]) are the subject of FixModel; here the
    completed dictionary is the input.  Not modelled: metadata (name, owner, ...), log messages, the conversion of
    a string to [EnergyDType] (line 246), values of other types. *)
From Coq Require Import ZArith Bool List String.
From Flocq Require Import IEEE754.BinarySingleNaN.
From Verif Require Import PyBase F64 CalModel HarvModel ConvModel.
Import ListNotations.
Open Scope Z_scope.

(** virtual_harvester.py lines 21-31: [AlgorithmDType]. *)
Inductive algo := A_neutral | A_isc_voc | A_ivcurve | A_cv | A_voc | A_po | A_opt.
(** energy_environment.py: [EnergyDType]. *)
Inductive edtype := D_ivsample | D_ivcurve | D_isc_voc.
Definition edtype_eqb (a b : edtype) : bool :=
  match a, b with D_ivsample, D_ivsample | D_ivcurve, D_ivcurve | D_isc_voc, D_isc_voc => true | _, _ => false end.

(** commons.py: [samplerate_sps_default]. *)
Definition samplerate : Z := 100000.

(** [Field(ge=lo, le=hi)] on a float of a model with [allow_inf_nan=False]. *)
Definition in_range (lo hi x : f64) : bool := is_finite x && fle lo x && fle x hi.
Definition in_rangeZ (lo hi x : Z) : bool := (lo <=? x) && (x <=? hi).
(** [u32], [u8]: lines 179; virtual_source.py lines 244-245. *)
Definition is_u32 (z : Z) : bool := (0 <=? z) && (z <? 2 ^ 32).
Definition is_u8 (z : Z) : bool := (0 <=? z) && (z <? 2 ^ 8).

(** Lines 43-72: [VirtualHarvesterConfig]. *)
Record vhrv := mkVhrv {
  vh_algorithm : algo;
  vh_samples : Z;
  vh_voltage : f64;      (* mV *)
  vh_vmin : f64;
  vh_vmax : f64;
  vh_ilimit : f64;       (* uA *)
  vh_step : f64;         (* mV; never None after lines 89-98 *)
  vh_setpoint : f64;
  vh_interval : f64;     (* ms *)
  vh_duration : f64;     (* ms *)
  vh_rising : bool;
  vh_extrapolate : bool;
  vh_wait : Z;
}.

(** The dictionary handed to the validator, completed by fixtures: every field but the algorithm may be missing. *)
Record vhrv_in := mkVhrvIn {
  vi_name : string;
  vi_algorithm : algo;
  vi_samples : option Z;
  vi_voltage : option f64;
  vi_vmin : option f64;
  vi_vmax : option f64;
  vi_ilimit : option f64;
  vi_step : option f64;
  vi_setpoint : option f64;
  vi_interval : option f64;
  vi_duration : option f64;
  vi_rising : option bool;
  vi_extrapolate : option bool;
  vi_wait : option Z;
}.
Definition get {A} (o : option A) (d : A) : A := match o with Some a => a | None => d end.

(** An integer that meets a float in an operation: the conversion fails above the range of floats. *)
Definition py_float (z : Z) : res f64 :=
  if Z.abs z <? 2 ^ 1024 - 2 ^ 970 then Ok (fz z) else Err OverflowError.

(** Lines 89-94: the default of the voltage step. *)
Definition default_step (i : vhrv_in) : res f64 :=
  match vi_step i with
  | Some s => Ok s
  | None =>
      let* n := py_float (get (vi_samples i) 8 - 1) in
      fdiv (fabs (fsub (get (vi_vmax i) (fz 5000)) (get (vi_vmin i) (fz 0)))) n
  end.

(** Lines 74-100 (after completion): [query_database], the defaults of the fields and their constraints. *)
Definition complete_vhrv (i : vhrv_in) : res vhrv :=
  guard negb (String.eqb (vi_name i) "neutral") or ValueError ;;
  let* cal := default_hrv in
  let ilimit := fmax (fmul (fz (10 ^ 6)) (raw_to_si (adc_C_Hrv cal) (fz 4) true)) (get (vi_ilimit i) (fz 50000)) in
  let* step0 := default_step i in
  let step := fmax (fmul (fz (10 ^ 3)) (raw_to_si (dac_V_Hrv cal) (fz 4) true)) step0 in
  Ok {| vh_algorithm := vi_algorithm i;
        vh_samples := get (vi_samples i) 8;
        vh_voltage := get (vi_voltage i) (fz 2500);
        vh_vmin := get (vi_vmin i) (fz 0);
        vh_vmax := get (vi_vmax i) (fz 5000);
        vh_ilimit := ilimit;
        vh_step := step;
        vh_setpoint := get (vi_setpoint i) (fdec 70 2);
        vh_interval := get (vi_interval i) (fz 100);
        vh_duration := get (vi_duration i) (fdec 1 1);
        vh_rising := get (vi_rising i) true;
        vh_extrapolate := get (vi_extrapolate i) true;
        vh_wait := get (vi_wait i) 1 |}.

(** The constraints of lines 46-72. *)
Definition fields_vhrv (v : vhrv) : bool :=
  in_rangeZ 8 2000 (vh_samples v)
  && in_range (fz 0) (fz 5000) (vh_voltage v)
  && in_range (fz 0) (fz 5000) (vh_vmin v)
  && in_range (fz 0) (fz 5000) (vh_vmax v)
  && in_range (fz 1) (fz 50000) (vh_ilimit v)
  && in_range (fz 1) (fz 1000000) (vh_step v)
  && in_range (fz 0) (fz 1) (vh_setpoint v)
  && in_range (fdec 1 2) (fz 1000000) (vh_interval v)
  && in_range (fdec 1 2) (fz 1000000) (vh_duration v)
  && in_rangeZ 0 100 (vh_wait v).

(** Lines 102-111: [post_validation]. *)
Definition post_vhrv (v : vhrv) : res vhrv :=
  guard negb (flt (vh_vmax v) (vh_vmin v)) or ValueError ;;
  guard negb (flt (vh_voltage v) (vh_vmin v)) or ValueError ;;
  guard negb (flt (vh_vmax v) (vh_voltage v)) or ValueError ;;
  Ok v.

(** Construction of a [VirtualHarvesterConfig] from keywords. *)
Definition check_vhrv (v : vhrv) : res vhrv := guard fields_vhrv v or ValueError ;; post_vhrv v.
Definition make_vhrv (i : vhrv_in) : res vhrv := let* v := complete_vhrv i in check_vhrv v.

(** Lines 113-114. *)
Definition calc_hrv_mode (v : vhrv) (for_emu : bool) : Z :=
  1 * Z.b2z for_emu + 2 * Z.b2z (vh_rising v) + 4 * Z.b2z (vh_extrapolate v).

(** Lines 187-196: [algo_to_num]. *)
Definition algo_to_num (a : algo) : Z :=
  match a with
  | A_neutral => 2 ^ 0 | A_isc_voc => 2 ^ 3 | A_ivcurve => 2 ^ 4 | A_cv => 2 ^ 8
  | A_voc => 2 ^ 12 | A_po => 2 ^ 13 | A_opt => 2 ^ 14
  end.
(** Lines 198-206: [algo_to_dtype]. *)
Definition algo_to_dtype (a : algo) : edtype :=
  match a with
  | A_isc_voc => D_isc_voc
  | A_ivcurve => D_ivcurve
  | A_neutral | A_cv | A_voc | A_po | A_opt => D_ivsample
  end.

(** Lines 116-130. *)
Definition calc_algorithm_num (v : vhrv) (for_emu : bool) : res Z :=
  let num := algo_to_num (vh_algorithm v) in
  guard negb (for_emu && negb (edtype_eqb (algo_to_dtype (vh_algorithm v)) D_ivsample)) or ValueError ;;
  guard negb (negb for_emu && (num <? algo_to_num A_isc_voc)) or ValueError ;;
  Ok num.

(** Lines 132-149: [calc_timings_ms].  The ratio is only used for a log message, but its divisions may fail. *)
Definition calc_timings_ms (v : vhrv) (for_emu : bool) : res (f64 * f64) :=
  let window_length := vh_samples v * (1 + vh_wait v) in
  let* t0 := fdiv (fz ((1 + vh_wait v) * 1000)) (fz samplerate) in
  let* w := fdiv (fz (window_length * 1000)) (fz samplerate) in
  let tmin := if for_emu then fmax t0 w else t0 in
  let interval := fmin (fmax (vh_interval v) tmin) (fz 1000000) in
  let duration := fmin (fmax (vh_duration v) tmin) interval in
  let* q1 := fdiv duration interval in
  let* q2 := fdiv (vh_duration v) (vh_interval v) in
  let* _ := fdiv q1 q2 in
  Ok (interval, duration).

(** Lines 154-176: [calc_window_size]. *)
Definition calc_window_size (v : vhrv) (dtype : option edtype) (for_emu : bool) : Z :=
  if negb for_emu then vh_samples v
  else match get dtype (algo_to_dtype (vh_algorithm v)) with
       | D_ivcurve => vh_samples v * (1 + vh_wait v)
       | D_ivsample => 0
       | D_isc_voc => 2 * (1 + vh_wait v)
       end.

(** Lines 209-234: the registers, as far as read by the harvester model, and [wait_cycles_n]. *)
Definition hrv_pru : Type := (hcfg * Z)%type.
Definition valid_pru (r : hrv_pru) : bool :=
  let '(c, w) := r in
  is_u32 (h_algorithm c) && is_u32 (h_mode c) && is_u32 (h_window c) && is_u32 (h_voltage c) && is_u32 (h_vmin c)
  && is_u32 (h_vmax c) && is_u32 (h_vstep c) && is_u32 (h_ilimit c) && is_u32 (h_setpoint_n8 c)
  && is_u32 (h_interval c) && is_u32 (h_duration c) && is_u32 w.

(** Milliseconds to samples: [round(ms * samplerate_sps_default * 1e-3)]. *)
Definition ms_to_n (ms : f64) : res Z := fround (fmul (fmul ms (fz samplerate)) (fdec 1 3)).

(** Lines 236-286: [from_vhrv]. *)
Definition from_vhrv (v : vhrv) (dtype : option edtype) (window : option Z) (step_V : option f64) (for_emu : bool)
  : res hrv_pru :=
  guard negb (for_emu && negb (match dtype with Some D_ivsample | Some D_ivcurve => true | _ => false end))
    or NotImplementedError ;;
  let is_curve := match dtype with Some D_ivcurve => true | _ => false end in
  guard negb (for_emu && is_curve && match step_V with None => true | _ => false end) or ValueError ;;
  guard negb (for_emu && is_curve && match window with None => true | _ => false end) or ValueError ;;
  let* t := calc_timings_ms v for_emu in
  let window_size := match window with Some w => w | None => calc_window_size v dtype for_emu end in
  let step := match step_V with Some s => fmul (fz 1000) s | None => vh_step v end in
  let* num := calc_algorithm_num v for_emu in
  let* volt := fround (fmul (vh_voltage v) (fz (10 ^ 3))) in
  let* vmin := fround (fmul (vh_vmin v) (fz (10 ^ 3))) in
  let* vmax := fround (fmul (vh_vmax v) (fz (10 ^ 3))) in
  let* vstep := fround (fmul step (fz (10 ^ 3))) in
  let* ilim := fround (fmul (vh_ilimit v) (fz (10 ^ 3))) in
  let* sp := fround (fmin (fz 255) (fmul (vh_setpoint v) (fz (2 ^ 8)))) in
  let* inter := ms_to_n (fst t) in
  let* dur := ms_to_n (snd t) in
  let r := ({| h_algorithm := num; h_mode := calc_hrv_mode v for_emu; h_window := window_size;
               h_voltage := volt; h_vmin := vmin; h_vmax := vmax; h_vstep := vstep; h_ilimit := ilim;
               h_setpoint_n8 := sp; h_interval := inter; h_duration := dur |}, vh_wait v) in
  guard valid_pru r or ValueError ;;
  Ok r.

(** ** The source: virtual_source.py *)

(** Lines 36-112: [VirtualSourceConfig]. *)
Record vsrc := mkVsrc {
  vs_buck : bool;                  (* enable_buck *)
  vs_boost : bool;                 (* enable_boost *)
  vs_feedback : bool;              (* enable_feedback_to_hrv *)
  vs_drain_ms : f64;               (* interval_startup_delay_drain_ms *)
  vs_harvester : vhrv;
  vs_Vin_max : f64;                (* V_input_max_mV *)
  vs_Iin_max : f64;                (* I_input_max_mA *)
  vs_Vin_drop : f64;               (* V_input_drop_mV *)
  vs_R_in : f64;                   (* R_input_mOhm *)
  vs_C_mid : f64;                  (* C_intermediate_uF *)
  vs_V_init : f64;                 (* V_intermediate_init_mV *)
  vs_I_leak : f64;                 (* I_intermediate_leak_nA *)
  vs_V_en : f64;                   (* V_intermediate_enable_threshold_mV *)
  vs_V_dis : f64;                  (* V_intermediate_disable_threshold_mV *)
  vs_check_ms : f64;               (* interval_check_thresholds_ms *)
  vs_pg_en : f64;                  (* V_pwr_good_enable_threshold_mV *)
  vs_pg_dis : f64;                 (* V_pwr_good_disable_threshold_mV *)
  vs_pg_immediate : bool;          (* immediate_pwr_good_signal *)
  vs_C_out : f64;                  (* C_output_uF *)
  vs_V_log : f64;                  (* V_output_log_gpio_threshold_mV *)
  vs_V_boost : f64;                (* V_input_boost_threshold_mV *)
  vs_V_mid_max : f64;              (* V_intermediate_max_mV *)
  vs_LUT_in : list (list f64);     (* LUT_input_efficiency *)
  vs_LUT_in_V : Z;                 (* LUT_input_V_min_log2_uV *)
  vs_LUT_in_I : Z;                 (* LUT_input_I_min_log2_nA *)
  vs_V_out : f64;                  (* V_output_mV *)
  vs_V_buck : f64;                 (* V_buck_drop_mV *)
  vs_LUT_out : list f64;           (* LUT_output_efficiency *)
  vs_LUT_out_I : Z;                (* LUT_output_I_min_log2_nA *)
}.

(** Lines 20-23: the types of the tables. *)
Definition lut1d (l : list f64) : bool :=
  (Nat.eqb (List.length l) 12) && forallb (in_range (fz 0) (fz 1)) l.
Definition lut2d (l : list (list f64)) : bool := (Nat.eqb (List.length l) 12) && forallb lut1d l.

(** The constraints of the fields, lines 42-112. *)
Definition fields_vsrc (v : vsrc) : bool :=
  in_range (fz 0) (fz 10000) (vs_drain_ms v)
  && in_range (fz 0) (fz 10000) (vs_Vin_max v)
  && in_range (fz 0) (fz 4290) (vs_Iin_max v)
  && in_range (fz 0) (fz 4290000) (vs_Vin_drop v)
  && in_range (fz 0) (fz 4290000) (vs_R_in v)
  && in_range (fz 0) (fz 100000) (vs_C_mid v)
  && in_range (fz 0) (fz 10000) (vs_V_init v)
  && in_range (fz 0) (fz 4290000000) (vs_I_leak v)
  && in_range (fz 0) (fz 10000) (vs_V_en v)
  && in_range (fz 0) (fz 10000) (vs_V_dis v)
  && in_range (fz 0) (fz 4290) (vs_check_ms v)
  && in_range (fz 0) (fz 10000) (vs_pg_en v)
  && in_range (fz 0) (fz 10000) (vs_pg_dis v)
  && in_range (fz 0) (fz 4290000) (vs_C_out v)
  && in_range (fz 0) (fz 4290000) (vs_V_log v)
  && in_range (fz 0) (fz 10000) (vs_V_boost v)
  && in_range (fz 0) (fz 10000) (vs_V_mid_max v)
  && lut2d (vs_LUT_in v)
  && in_rangeZ 0 20 (vs_LUT_in_V v)
  && in_rangeZ 1 20 (vs_LUT_in_I v)
  && in_range (fz 0) (fz 5000) (vs_V_out v)
  && in_range (fz 0) (fz 5000) (vs_V_buck v)
  && lut1d (vs_LUT_out v)
  && in_rangeZ 1 20 (vs_LUT_out_I v).

(** Lines 122-126 and the constraints: validation of a completed configuration.  The harvester is validated
    first, as a field. *)
Definition check_vsrc (v : vsrc) : res vsrc :=
  let* _ := check_vhrv (vs_harvester v) in
  guard fields_vsrc v or ValueError ;;
  let* _ := from_vhrv (vs_harvester v) (Some D_ivsample) None None true in
  Ok v.

(** Python's [pow] on floats, for the two exponents that occur: [p_sq x] is [pow(x, 2)] and [p_rt x] is
    [pow(x, 0.5)], which is complex (None) for a negative finite number. *)
Record pypow := mkPow { p_sq : f64 -> f64; p_rt : f64 -> option f64 }.

Definition omap {A B} (f : A -> B) (o : option A) : option B := match o with Some a => Some (f a) | None => None end.

(** Lines 174-179: complex, negative and undefined values are replaced by zero. *)
Definition protect (o : option f64) : f64 :=
  match o with Some d => if fle (fz 0) d then d else fz 0 | None => fz 0 end.

(** Lines 155-172: the voltage drop of the storage when the output is connected, for both cases. *)
Definition dV_raw (p : pypow) (v : vsrc) : res (option f64 * option f64) :=
  if flt (fz 0) (vs_C_mid v) && flt (fz 0) (vs_C_out v) then
    let* ratio := fdiv (vs_C_out v) (vs_C_mid v) in
    let thrs := omap (fsub (vs_V_en v))
                  (p_rt p (fsub (p_sq p (vs_V_en v)) (fmul ratio (p_sq p (vs_V_out v))))) in
    let low := omap (fun r => fmul (vs_V_out v) (fsub (fz 1) r)) (p_rt p (fsub (fz 1) ratio)) in
    Ok (thrs, low)
  else Ok (Some (fz 0), Some (fz 0)).

(** Lines 128-204: [calc_internal_states]: (dV_enable_output_mV, V_enable_output_threshold_mV,
    V_disable_output_threshold_mV). *)
Definition calc_internal_states (p : pypow) (v : vsrc) : res (f64 * f64 * f64) :=
  let* d := dV_raw p v in
  let dV_thrs := protect (fst d) in
  let dV_low := protect (snd d) in
  if vs_buck v then
    let V_pre := fadd (vs_V_out v) (vs_V_buck v) in
    let V_dis := if flt V_pre (vs_V_dis v) then vs_V_dis v else V_pre in
    if flt V_pre (vs_V_en v) then Ok (dV_thrs, vs_V_en v, V_dis)
    else Ok (dV_low, fadd V_pre dV_low, V_dis)
  else Ok (dV_thrs, vs_V_en v, vs_V_dis v).

(** Lines 206-233: [calc_converter_mode]. *)
Definition calc_converter_mode (v : vsrc) (dtype : edtype) (log_mid : bool) : Z :=
  let storage := flt (fz 0) (vs_C_mid v) in
  let boost := vs_boost v && storage in
  let feedback := vs_feedback v && storage && negb boost && edtype_eqb dtype D_ivcurve in
  1 * Z.b2z storage + 2 * Z.b2z boost + 4 * Z.b2z (vs_buck v) + 8 * Z.b2z log_mid + 16 * Z.b2z feedback.

(** [int(n // y)] for a positive integer [n] below 2^53 and a float.  For quotients below 2^50 CPython's float
    floor division (exact remainder, difference, division, correction) is the exact floor, which is modelled. *)
Definition floor_quot (n : Z) (y : f64) : res Z :=
  match y with
  | B754_zero _ => Err ZeroDivisionError
  | B754_nan => Err ValueError
  | B754_infinity s => Ok (if s then -1 else 0)
  | B754_finite s m e _ =>
      let sm := if s then Zneg m else Zpos m in
      Ok (if 0 <=? e then n / (sm * 2 ^ e) else (n * 2 ^ (- e)) / sm)
  end.

(** Lines 235-241: [calc_cap_constant_us_per_nF_n28]. *)
Definition calc_cap_constant (v : vsrc) : res Z :=
  floor_quot (10 ^ 3 * 2 ^ 28) (fmul (fmax (vs_C_mid v) (fdec 1 3)) (fz samplerate)).

(** [min(255, round(256 * ival))], line 346. *)
Definition lut_in_entry (x : f64) : res Z :=
  let* n := fround (fmul (fz 256) x) in Ok (Z.min 255 n).
(** Line 349. *)
Definition lut_out_entry (x : f64) : res Z :=
  if flt (fz 0) x then
    let* q := fdiv (fz (2 ^ 4)) x in
    let* n := fround q in
    Ok (Z.min (2 ^ 14) n)
  else Ok (2 ^ 14).
Fixpoint mapM {A B} (f : A -> res B) (l : list A) : res (list B) :=
  match l with
  | [] => Ok []
  | a :: r => let* b := f a in let* bs := mapM f r in Ok (b :: bs)
  end.

(** Lines 244-299: the constraints of [ConverterPRUConfig]. *)
Definition valid_cpru (c : ccfg) : bool :=
  is_u32 (converter_mode c) && is_u32 (interval_startup_delay_drain_n c) && is_u32 (V_input_max_uV c)
  && is_u32 (I_input_max_nA c) && is_u32 (V_input_drop_uV c) && is_u32 (R_input_kOhm_n22 c)
  && is_u32 (Constant_us_per_nF_n28 c) && is_u32 (V_intermediate_init_uV c) && is_u32 (I_intermediate_leak_nA c)
  && is_u32 (V_enable_output_threshold_uV c) && is_u32 (V_disable_output_threshold_uV c)
  && is_u32 (dV_enable_output_uV c) && is_u32 (interval_check_thresholds_n c)
  && is_u32 (V_pwr_good_enable_threshold_uV c) && is_u32 (V_pwr_good_disable_threshold_uV c)
  && is_u32 (immediate_pwr_good_signal c) && is_u32 (V_output_log_gpio_threshold_uV c)
  && is_u32 (V_input_boost_threshold_uV c) && is_u32 (V_intermediate_max_uV c) && is_u32 (V_output_uV c)
  && is_u32 (V_buck_drop_uV c) && is_u32 (LUT_input_V_min_log2_uV c) && is_u32 (LUT_input_I_min_log2_nA c)
  && is_u32 (LUT_output_I_min_log2_nA c)
  && (Nat.eqb (List.length (LUT_inp_efficiency_n8 c)) 12)
  && forallb (fun r => (Nat.eqb (List.length r) 12) && forallb is_u8 r) (LUT_inp_efficiency_n8 c)
  && (Nat.eqb (List.length (LUT_out_inv_efficiency_n4 c)) 12) && forallb is_u32 (LUT_out_inv_efficiency_n4 c).

(** [round(x * 1e3)]. *)
Definition milli (x : f64) : res Z := fround (fmul x (fz 1000)).

(** Lines 301-352: [from_vsrc]. *)
Definition from_vsrc (p : pypow) (v : vsrc) (dtype : edtype) (log_mid : bool) : res ccfg :=
  let* st := calc_internal_states p v in
  let '(dV, Ven, Vdis) := st in
  let* r_drain := ms_to_n (vs_drain_ms v) in
  let* r_Vin_max := milli (vs_Vin_max v) in
  let* r_Iin_max := fround (fmul (vs_Iin_max v) (fz 1000000)) in
  let* r_Vin_drop := milli (vs_Vin_drop v) in
  let* r_R := fround (fmul (vs_R_in v) (fmul (fdec 1 6) (fz (2 ^ 22)))) in
  let* r_const := calc_cap_constant v in
  let* r_init := milli (vs_V_init v) in
  let* r_leak := fround (vs_I_leak v) in
  let* r_Ven := milli Ven in
  let* r_Vdis := milli Vdis in
  let* r_dV := milli dV in
  let* r_check := ms_to_n (vs_check_ms v) in
  let* r_pg_en := milli (vs_pg_en v) in
  let* r_pg_dis := milli (vs_pg_dis v) in
  let* r_log := milli (vs_V_log v) in
  let* r_boost := milli (vs_V_boost v) in
  let* r_Vmax := milli (vs_V_mid_max v) in
  let* r_Vout := milli (vs_V_out v) in
  let* r_Vbuck := milli (vs_V_buck v) in
  let* lut_in := mapM (mapM lut_in_entry) (vs_LUT_in v) in
  let* lut_out := mapM lut_out_entry (vs_LUT_out v) in
  let c := {|
    converter_mode := calc_converter_mode v dtype log_mid;
    interval_startup_delay_drain_n := r_drain;
    V_input_max_uV := r_Vin_max;
    I_input_max_nA := r_Iin_max;
    V_input_drop_uV := r_Vin_drop;
    R_input_kOhm_n22 := r_R;
    Constant_us_per_nF_n28 := r_const;
    V_intermediate_init_uV := r_init;
    I_intermediate_leak_nA := r_leak;
    V_enable_output_threshold_uV := r_Ven;
    V_disable_output_threshold_uV := r_Vdis;
    dV_enable_output_uV := r_dV;
    interval_check_thresholds_n := r_check;
    V_pwr_good_enable_threshold_uV := r_pg_en;
    V_pwr_good_disable_threshold_uV := r_pg_dis;
    immediate_pwr_good_signal := Z.b2z (vs_pg_immediate v);
    V_output_log_gpio_threshold_uV := r_log;
    V_input_boost_threshold_uV := r_boost;
    V_intermediate_max_uV := r_Vmax;
    V_output_uV := r_Vout;
    V_buck_drop_uV := r_Vbuck;
    LUT_input_V_min_log2_uV := vs_LUT_in_V v;
    LUT_input_I_min_log2_nA := vs_LUT_in_I v - 1;
    LUT_output_I_min_log2_nA := vs_LUT_out_I v - 1;
    LUT_inp_efficiency_n8 := lut_in;
    LUT_out_inv_efficiency_n4 := lut_out |} in
  guard valid_cpru c or ValueError ;;
  Ok c.
