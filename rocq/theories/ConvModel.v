(** The converter stage of the virtual source over binary64:
    shepherd_core/shepherd_core/vsource/virtual_converter_model.py (all of it) and the part of
    vsource/virtual_source_model.py that drives it.

    Numbers.  Python mixes integers and floats here: most configuration fields are unsigned 32 bit integers and
    a state variable can hold either (for instance [V_mid_uV] starts as integer and [min] may return the integer
    limit).  Every such integer is below 2^53 and is represented by the float of the same value; a product of
    two of them is rounded once when it meets a float, exactly like the float product.  The inputs of
    [calc_inp_power] are arbitrary floats (an integer argument below 2^53 is the float of the same value).
    Exceptions end the simulation: the state at the time of the exception is not modelled. *)
From Coq Require Import ZArith Bool List.
From RecordUpdate Require Import RecordSet.
From Verif Require Import PyBase F64 CalModel.
Import RecordSetNotations ListNotations.
Open Scope Z_scope.

(** data_models/content/virtual_source.py lines 244-299: [ConverterPRUConfig], all fields in order. *)
Record ccfg := mkCcfg {
  converter_mode : Z;
  interval_startup_delay_drain_n : Z;
  V_input_max_uV : Z;
  I_input_max_nA : Z;
  V_input_drop_uV : Z;
  R_input_kOhm_n22 : Z;
  Constant_us_per_nF_n28 : Z;
  V_intermediate_init_uV : Z;
  I_intermediate_leak_nA : Z;
  V_enable_output_threshold_uV : Z;
  V_disable_output_threshold_uV : Z;
  dV_enable_output_uV : Z;
  interval_check_thresholds_n : Z;
  V_pwr_good_enable_threshold_uV : Z;
  V_pwr_good_disable_threshold_uV : Z;
  immediate_pwr_good_signal : Z;
  V_output_log_gpio_threshold_uV : Z;
  V_input_boost_threshold_uV : Z;
  V_intermediate_max_uV : Z;
  V_output_uV : Z;
  V_buck_drop_uV : Z;
  LUT_input_V_min_log2_uV : Z;
  LUT_input_I_min_log2_nA : Z;
  LUT_output_I_min_log2_nA : Z;
  LUT_inp_efficiency_n8 : list (list Z);
  LUT_out_inv_efficiency_n4 : list Z;
}.

(** The mutable attributes of [VirtualConverterModel] (lines 71-105), and the residue of its
    [PruCalibration] (line 33; a class attribute that becomes an instance attribute on the first write). *)
Record conv := mkConv {
  V_input : f64;
  P_inp : f64;
  P_out : f64;
  drain_n : Z;
  V_mid : f64;
  V_request : f64;
  V_out : f64;
  V_out_raw : Z;
  power_good : bool;
  sample_count : Z;
  is_outputting : bool;
  skip_gpio : bool;
  residue : f64;
}.
#[export] Instance eta_conv : Settable conv :=
  settable! mkConv <V_input; P_inp; P_out; drain_n; V_mid; V_request; V_out; V_out_raw; power_good;
                    sample_count; is_outputting; skip_gpio; residue>.

(** Lines 68-69 and 80-86: values derived from the configuration. *)
Definition R_input_kOhm (c : ccfg) : f64 := idiv (fz (R_input_kOhm_n22 c)) (fz (2 ^ 22)).
Definition Constant_us_per_nF (c : ccfg) : f64 := idiv (fz (Constant_us_per_nF_n28 c)) (fz (2 ^ 28)).
Definition mode_bit (c : ccfg) (m : Z) : bool := 0 <? Z.land (converter_mode c) m.
Definition enable_storage (c : ccfg) : bool := mode_bit c 1.
Definition enable_boost (c : ccfg) : bool := mode_bit c 2.
Definition enable_buck (c : ccfg) : bool := mode_bit c 4.
Definition enable_log_mid (c : ccfg) : bool := mode_bit c 8.
Definition feedback_to_hrv (c : ccfg) : bool := mode_bit c 16.
(** Lines 98-100. *)
Definition V_enable (c : ccfg) : Z := Z.max (dV_enable_output_uV c) (V_enable_output_threshold_uV c).

(** Lines 30-32. *)
Definition NOISE_ESTIMATE_nA : Z := 2000.
Definition RESIDUE_SIZE_FACTOR : Z := 30.
Definition RESIDUE_MAX_nA : Z := NOISE_ESTIMATE_nA * RESIDUE_SIZE_FACTOR.

(** Lines 38-48: [conv_adc_raw_to_nA]; takes and returns the residue. *)
Definition conv_adc_raw_to_nA (cal : cal_emu) (res0 : f64) (raw : Z) : f64 * f64 :=
  let i := fmul (raw_to_si (adc_C_A cal) (fz raw) true) (fz (10 ^ 9)) in
  if flt (cp_off (adc_C_A cal)) (fz 0) then
    if flt res0 i then (fsub i res0, fz 0)
    else (fz 0, fmin (fsub res0 i) (fz RESIDUE_MAX_nA))
  else (i, res0).

(** Lines 55-57: [conv_uV_to_dac_raw]. *)
Definition conv_uV_to_dac_raw (cal : cal_emu) (v : f64) : res Z :=
  let* r := si_to_raw (dac_V_A cal) (idiv v (fz (10 ^ 6))) in
  Ok (Z.min r (2 ^ 16 - 1)).

(** Lines 63-105: [__init__]. *)
Definition conv_init (c : ccfg) (cal : cal_emu) : res conv :=
  let* raw := conv_uV_to_dac_raw cal (fz (V_output_uV c)) in
  Ok {| V_input := fz 0; P_inp := fz 0; P_out := fz 0;
        drain_n := interval_startup_delay_drain_n c;
        V_mid := fz (V_intermediate_init_uV c);
        V_request := fz (V_intermediate_init_uV c);
        V_out := fz (V_output_uV c);
        V_out_raw := raw;
        power_good := true;
        sample_count := 4294967280;
        is_outputting := false;
        skip_gpio := false;
        residue := fz 0 |}.

(** Python's [l[i]]. *)
Definition py_at {A} (l : list A) (i : Z) : res A :=
  let j := if i <? 0 then i + Z.of_nat (List.length l) else i in
  if j <? 0 then Err IndexError
  else match nth_error l (Z.to_nat j) with Some a => Ok a | None => Err IndexError end.

Definition LUT_SIZE : Z := 12.

(** [int(math.log2(n)) if n > 0 else 0], lines 243 and 252.  [math.log2] of an integer below 2^48 is accurate
    enough for the truncated value to be the integer logarithm; above, the clamp at 11 hides the difference. *)
Definition pos_log2 (n : Z) : Z := if 0 <? n then Z.log2 n else 0.
(** Lines 244-247, 253-254. *)
Definition pos_clamp (p : Z) : Z := if LUT_SIZE <=? p then LUT_SIZE - 1 else p.

(** Lines 239-248: [get_input_efficiency].  The scale exponents are at most 20 (VirtualSourceConfig), so the
    power of two is a float; for larger ones Python's integer power could not be converted. *)
Definition get_input_efficiency (c : ccfg) (v i : f64) : res f64 :=
  let* qv := fdiv v (fz (2 ^ LUT_input_V_min_log2_uV c)) in
  let* qi := fdiv i (fz (2 ^ LUT_input_I_min_log2_nA c)) in
  let* voltage_n := fint qv in
  let* current_n := fint qi in
  let pos_v := if 0 <? voltage_n then voltage_n else 0 in
  let pos_c := pos_log2 current_n in
  let* row := py_at (LUT_inp_efficiency_n8 c) (pos_clamp pos_v) in
  let* e := py_at row (pos_clamp pos_c) in
  Ok (idiv (fz e) (fz (2 ^ 8))).

(** Lines 250-255: [get_output_inv_efficiency]. *)
Definition get_output_inv_efficiency (c : ccfg) (i : f64) : res f64 :=
  let* qi := fdiv i (fz (2 ^ LUT_output_I_min_log2_nA c)) in
  let* current_n := fint qi in
  let* e := py_at (LUT_out_inv_efficiency_n4 c) (pos_clamp (pos_log2 current_n)) in
  Ok (idiv (fz e) (fz (2 ^ 4))).

(** Lines 107-122: input after diode and limits. *)
Definition input_voltage (c : ccfg) (v : f64) : f64 :=
  let v := fmax (fz 0) v in
  let v := if flt (fz (V_input_drop_uV c)) v then fsub v (fz (V_input_drop_uV c)) else fz 0 in
  fmin v (fz (V_input_max_uV c)).
Definition input_current (c : ccfg) (i : f64) : f64 :=
  fmin (fmax (fz 0) i) (fz (I_input_max_nA c)).

(** Lines 107-159: [calc_inp_power]; returns the new state and the rounded power. *)
Definition calc_inp_power (c : ccfg) (s : conv) (v0 i0 : f64) : res (conv * Z) :=
  let v := input_voltage c v0 in
  let i := input_current c i0 in
  let s := s <| V_input := v |> in
  let '(s, v) :=
    if enable_boost c then
      (s, if flt v (fz (V_input_boost_threshold_uV c)) then fz 0 else v)
    else if enable_storage c then
      let V_diff := if fle (V_mid s) v then fsub v (V_mid s) else fz 0 in
      let V_res_drop := fmul i (R_input_kOhm c) in
      let v := if flt V_diff V_res_drop then V_mid s else fsub v V_res_drop in
      if feedback_to_hrv c then
        (s <| V_request := fadd (fadd (V_mid s) V_res_drop) (fz (V_input_drop_uV c)) |>, v)
      else (s, if flt v (V_mid s) then fz 0 else v)
    else (s <| V_mid := v |>, fz 0) in
  let* eta := if enable_boost c then get_input_efficiency c v i else Ok (fz 1) in
  let p := fmul (fmul eta v) i in
  let s := s <| P_inp := p |> in
  let* n := fround p in
  Ok (s, n).

(** Lines 161-179: [calc_out_power]. *)
Definition calc_out_power (c : ccfg) (cal : cal_emu) (s : conv) (raw0 : Z) : res (conv * Z) :=
  let raw := Z.min (2 ^ 18 - 1) (Z.max 0 raw0) in
  let P_leak := fmul (V_mid s) (fz (I_intermediate_leak_nA c)) in
  let '(i, r) := conv_adc_raw_to_nA cal (residue s) raw in
  let s := s <| residue := r |> in
  let* eta := if enable_buck c then get_output_inv_efficiency c i else Ok (fz 1) in
  let s := s <| P_out := fadd (fmul (fmul eta (V_out s)) i) P_leak |> in
  let s := if 0 <? drain_n s then s <| drain_n := drain_n s - 1 |> <| P_out := fz 0 |> else s in
  let* n := fround (P_out s) in
  Ok (s, n).

(** Lines 182-193: [update_cap_storage]. *)
Definition update_cap_storage (c : ccfg) (s : conv) : res (conv * Z) :=
  let* v := if enable_storage c then
      let V_prot := fmax (fz 1) (V_mid s) in
      let P_sum := fsub (P_inp s) (P_out s) in
      let* I_mid := fdiv P_sum V_prot in
      let dV := fmul I_mid (Constant_us_per_nF c) in
      Ok (fadd (V_mid s) dV)
    else Ok (V_mid s) in
  let v := fmin v (fz (V_intermediate_max_uV c)) in
  let v := fmax v (fz 1) in
  let s := s <| V_mid := v |> in
  let* n := fround v in
  Ok (s, n).

(** Lines 196-197. *)
Definition check_now (c : ccfg) (s : conv) : bool := interval_check_thresholds_n c <=? sample_count s + 1.

(** Lines 195-237: [update_states_and_output]. *)
Definition update_states_and_output (c : ccfg) (cal : cal_emu) (s : conv) : res (conv * Z) :=
  let check := check_now c s in
  let v_now := V_mid s in
  let s := s <| sample_count := sample_count s + 1 |> in
  let s := if check then
      let s := s <| sample_count := 0 |> in
      if is_outputting s then
        if flt v_now (fz (V_disable_output_threshold_uV c)) then s <| is_outputting := false |> else s
      else if fle (fz (V_enable c)) v_now then
        s <| is_outputting := true |> <| V_mid := fsub (V_mid s) (fz (dV_enable_output_uV c)) |>
      else s
    else s in
  let s := if check || negb (immediate_pwr_good_signal c =? 0) then
      if power_good s then
        if fle v_now (fz (V_pwr_good_disable_threshold_uV c)) then s <| power_good := false |> else s
      else if fle (fz (V_pwr_good_enable_threshold_uV c)) v_now then
        s <| power_good := is_outputting s |>
      else s
    else s in
  let* s :=
    if is_outputting s || (0 <? drain_n s) then
      let vo :=
        if negb (enable_buck c) || fle (V_mid s) (fz (V_output_uV c + V_buck_drop_uV c)) then
          if flt (fz (V_buck_drop_uV c)) (V_mid s) then fsub (V_mid s) (fz (V_buck_drop_uV c)) else fz 0
        else fz (V_output_uV c) in
      let* raw := conv_uV_to_dac_raw cal vo in
      Ok (s <| V_out := vo |> <| V_out_raw := raw |>)
    else Ok (s <| V_out := fz 0 |> <| V_out_raw := 0 |>) in
  let s := s <| skip_gpio := flt (V_out s) (fz (V_output_log_gpio_threshold_uV c)) |> in
  Ok (s, V_out_raw s).

(** Getters, lines 266-288. *)
Definition get_P_input_fW (s : conv) : res Z := fround (P_inp s).
Definition get_P_output_fW (s : conv) : res Z := fround (P_out s).
Definition get_V_intermediate_uV (s : conv) : res Z := fround (V_mid s).
Definition get_V_intermediate_raw (cal : cal_emu) (s : conv) : res Z := conv_uV_to_dac_raw cal (V_mid s).
Definition get_I_mid_out_nA (s : conv) : res f64 := fdiv (P_out s) (V_mid s).

(** Input of one simulation step of the converter: voltage and current of the source, code of the current
    converter. *)
Record cin := mkCin { in_V : f64; in_I : f64; in_raw : Z }.

(** vsource/virtual_source_model.py lines 74-81: the four calls of one step, in the order of
    [iterate_sampling].  Returns the state and the four numbers the calls return. *)
Definition conv_step (c : ccfg) (cal : cal_emu) (s : conv) (x : cin) : res (conv * (Z * Z * Z * Z)) :=
  let* (s1, pi) := calc_inp_power c s (in_V x) (in_I x) in
  let* (s2, po) := calc_out_power c cal s1 (in_raw x) in
  let* (s3, vm) := update_cap_storage c s2 in
  let* (s4, raw) := update_states_and_output c cal s3 in
  Ok (s4, (pi, po, vm, raw)).

(** Any number of steps. *)
Fixpoint conv_run (c : ccfg) (cal : cal_emu) (s : conv) (xs : list cin) : res conv :=
  match xs with
  | [] => Ok s
  | x :: xs => let* (s', _) := conv_step c cal s x in conv_run c cal s' xs
  end.

(** A whole simulation. *)
Definition conv_sim (c : ccfg) (cal : cal_emu) (xs : list cin) : res conv :=
  let* s := conv_init c cal in conv_run c cal s xs.

(** virtual_source_model.py lines 59-60 and 62-91: one step of the source behind its harvester.  The output of
    the harvester (line 72, modelled in HarvModel) is an input here, so every harvester is covered, also one
    that is steered by [feedback_to_hrv] (lines 88-89, see SimModel).  [W_inp] and [W_out] start as 0.0. *)
Record src := mkSrc { cnv : conv; W_inp : f64; W_out : f64 }.
Definition src_init (c : ccfg) (cal : cal_emu) : res src :=
  let* s := conv_init c cal in Ok (mkSrc s (fz 0) (fz 0)).
Definition src_step (c : ccfg) (cal : cal_emu) (w : src) (v i : f64) (I_out : f64) : res (src * Z) :=
  let* (s1, pi) := calc_inp_power c (cnv w) v i in
  let* raw := si_to_raw (adc_C_A cal) (fmul I_out (fdec 1 9)) in
  let* (s2, po) := calc_out_power c cal s1 raw in
  let* (s3, vm) := update_cap_storage c s2 in
  let* (s4, vraw) := update_states_and_output c cal s3 in
  let* vout := fint (fmul (raw_to_si (dac_V_A cal) (fz vraw) true) (fz (10 ^ 6))) in
  Ok (mkSrc s4 (fadd (W_inp w) (fz pi)) (fadd (W_out w) (fz po)),
      if enable_log_mid c then vm else vout).
(** Any number of steps of the source. *)
Record sin_ := mkSin { s_V : f64; s_I : f64; s_Iout : f64 }.
Fixpoint src_run (c : ccfg) (cal : cal_emu) (w : src) (xs : list sin_) : res src :=
  match xs with
  | [] => Ok w
  | x :: xs => let* (w', _) := src_step c cal w (s_V x) (s_I x) (s_Iout x) in src_run c cal w' xs
  end.
Definition src_sim (c : ccfg) (cal : cal_emu) (xs : list sin_) : res src :=
  let* w := src_init c cal in src_run c cal w xs.
(** A stream of readings through [conv_adc_raw_to_nA]: the currents and the final residue. *)
Fixpoint adc_stream (cal : cal_emu) (r : f64) (raws : list Z) : list f64 * f64 :=
  match raws with
  | [] => ([], r)
  | raw :: raws => let '(i, r1) := conv_adc_raw_to_nA cal r raw in
                   let '(l, r2) := adc_stream cal r1 raws in (i :: l, r2)
  end.
