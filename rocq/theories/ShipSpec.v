(** What the shipped harvesters and sources should be. *)
From Coq Require Import String Ascii ZArith Bool List Reals.
From Verif Require Import PyBase F64 ConvSpec FixModel FixSpec CfgModel ShipModel.
From Verif Require ProgSpec.
Import ListNotations.
Open Scope Z_scope.
Open Scope list_scope.

(** The harvesters with their algorithms. *)
Definition harvester_names : list (string * algo) :=
  [("ivcurve", A_ivcurve); ("ivcurves", A_ivcurve); ("iv110", A_ivcurve); ("iv1000", A_ivcurve); ("isc_voc", A_isc_voc);
   ("cv20", A_cv); ("cv24", A_cv); ("cv33", A_cv); ("cv10", A_cv);
   ("mppt_voc", A_voc); ("mppt_bq", A_voc); ("mppt_bqt", A_voc); ("mppt_bq_solar", A_voc); ("mppt_bq_thermoelectric", A_voc);
   ("mppt_po", A_po); ("mppt_opt", A_opt); ("direct", A_neutral)]%string.
(** The voltage in the name of a constant-voltage harvester, mV. *)
Definition cv_names : list (string * Z) := [("cv10", 1000); ("cv20", 2000); ("cv24", 2400); ("cv33", 3300)]%string.
(** Samples of one curve at 100 kHz: 110 and 1000 curves in a second. *)
Definition iv_names : list (string * Z) := [("iv110", 909); ("iv1000", 100)]%string.
Definition harvester_synonyms : list (string * string) :=
  [("ivcurve", "ivcurves"); ("ivcurve", "iv110"); ("mppt_bq", "mppt_bq_solar"); ("mppt_bqt", "mppt_bq_thermoelectric")]%string.

(** The sources: boost, buck, fast power-good. *)
Definition source_names : list (string * (bool * bool * bool)) :=
  [("neutral", (false, false, true)); ("direct", (false, false, true));
   ("diode+capacitor", (false, false, true)); ("dio_cap", (false, false, true));
   ("diode+resistor+capacitor", (false, false, true)); ("dio_res_cap", (false, false, true));
   ("BQ25504", (true, false, false)); ("BQ25504s", (true, false, true)); ("BQ25504-Schmitt", (true, false, true));
   ("BQ25570", (true, true, false)); ("BQ25570s", (true, true, true)); ("BQ25570-Schmitt", (true, true, true));
   ("default", (true, true, true))]%string.
Definition source_synonyms : list (string * string) :=
  [("diode+capacitor", "dio_cap"); ("diode+resistor+capacitor", "dio_res_cap"); ("BQ25504s", "BQ25504-Schmitt");
   ("BQ25570s", "BQ25570-Schmitt"); ("BQ25570s", "default")]%string.

(** Asking for a model by name or by number. *)
Definition by_name (s : string) : dict := [("name"%string, VStr s)].
Definition by_id (i : Z) : dict := [("id"%string, VInt i)].

(** The numbers a user may choose for an own source: upper limits (the lower ones are 0) and where they are used. *)
Definition float_limits : list (string * Z * (vsrc -> f64)) :=
  [("interval_startup_delay_drain_ms"%string, 10000, vs_drain_ms);
   ("V_input_max_mV"%string, 10000, vs_Vin_max);
   ("I_input_max_mA"%string, 4290, vs_Iin_max);
   ("V_input_drop_mV"%string, 4290000, vs_Vin_drop);
   ("R_input_mOhm"%string, 4290000, vs_R_in);
   ("C_intermediate_uF"%string, 100000, vs_C_mid);
   ("V_intermediate_init_mV"%string, 10000, vs_V_init);
   ("I_intermediate_leak_nA"%string, 4290000000, vs_I_leak);
   ("V_intermediate_enable_threshold_mV"%string, 10000, vs_V_en);
   ("V_intermediate_disable_threshold_mV"%string, 10000, vs_V_dis);
   ("interval_check_thresholds_ms"%string, 4290, vs_check_ms);
   ("V_pwr_good_enable_threshold_mV"%string, 10000, vs_pg_en);
   ("V_pwr_good_disable_threshold_mV"%string, 10000, vs_pg_dis);
   ("C_output_uF"%string, 4290000, vs_C_out);
   ("V_output_log_gpio_threshold_mV"%string, 4290000, vs_V_log);
   ("V_input_boost_threshold_mV"%string, 10000, vs_V_boost);
   ("V_intermediate_max_mV"%string, 10000, vs_V_mid_max);
   ("V_output_mV"%string, 5000, vs_V_out);
   ("V_buck_drop_mV"%string, 5000, vs_V_buck)].
Definition flags : list (string * (vsrc -> bool)) :=
  [("enable_boost"%string, vs_boost); ("enable_buck"%string, vs_buck); ("enable_feedback_to_hrv"%string, vs_feedback);
   ("immediate_pwr_good_signal"%string, vs_pg_immediate)].
Definition int_limits : list (string * (Z * Z) * (vsrc -> Z)) :=
  [("LUT_input_V_min_log2_uV"%string, (0, 20), vs_LUT_in_V); ("LUT_input_I_min_log2_nA"%string, (1, 20), vs_LUT_in_I);
   ("LUT_output_I_min_log2_nA"%string, (1, 20), vs_LUT_out_I)].
Definition truth (v : FixModel.value) (b : bool) : Prop := v = VOther (if b then "True" else "False").

(** Numbers inside their limits, truth values for the flags, nothing else but name, base and description. *)
Definition own_keys : list string :=
  (["name"; "inherit_from"; "description"; "visible2group"; "visible2all"]%string ++
   map (fun e => fst (fst e)) float_limits ++ map fst flags ++ map (fun e => fst (fst e)) int_limits).
Definition chosen (values : dict) : Prop :=
  (forall k, entry k values <> None -> In k own_keys) /\
  (forall k hi f v, In (k, hi, f) float_limits -> entry k values = Some v ->
     exists x, float_of v = Ok x /\ fin x = true /\ (0 <= fR x <= IZR hi)%R) /\
  (forall k v, In k ("visible2group" :: "visible2all" :: map fst flags)%string -> entry k values = Some v -> exists b, truth v b) /\
  (forall k lo hi f v, In (k, (lo, hi), f) int_limits -> entry k values = Some v -> exists z, v = VInt z /\ lo <= z <= hi).
(** Tables and harvester are not given. *)
Definition no_tables (values : dict) : Prop :=
  Forall (fun k => entry k values = None) ["harvester"; "LUT_input_efficiency"; "LUT_output_efficiency"]%string.

Definition described_by (values : dict) : Prop :=
  exists t, entry "description" values = Some (VStr t) /\ ProgSpec.readable t /\ (String.length t <= 512)%nat.

(** An own source: a name of its own, one of the shipped sources to inherit from, numbers inside their limits; the
    tables and the harvester stay as they are. *)
Definition own_source (base : string) (values : dict) : Prop :=
  python_dict values /\ entry "inherit_from" values = Some (VStr base) /\
  (exists n, entry "name" values = Some (VStr n) /\ ProgSpec.good_name n /\ n <> base) /\
  chosen values /\ (entry "description" values = None \/ described_by values) /\ no_tables values.

(** A source with nothing to inherit from: a name no shipped source has, no number, and something else. *)
Definition plain_source (values : dict) : Prop :=
  python_dict values /\ entry "inherit_from" values = None /\ entry "id" values = None /\
  (exists n, entry "name" values = Some (VStr n) /\ ProgSpec.good_name n /\ forall m a, In (m, a) source_names -> ~ same_text n m) /\
  (entry "description" values = None \/ entry "description" values = Some none_ \/ described_by values) /\
  (2 <= List.length values)%nat /\ no_tables values.
(** Who is shown to others is described. *)
Definition shown_with_text (values : dict) : Prop :=
  forall k, In k ["visible2group"; "visible2all"]%string -> entry k values = Some (VOther "True") ->
    exists t, entry "description" values = Some t /\ t <> none_.
(** The source of the class itself. *)
Definition float_defaults : list (string * Z) :=
  [("interval_startup_delay_drain_ms", 0); ("V_input_max_mV", 10000); ("I_input_max_mA", 4200); ("V_input_drop_mV", 0);
   ("R_input_mOhm", 0); ("C_intermediate_uF", 0); ("V_intermediate_init_mV", 3000); ("I_intermediate_leak_nA", 0);
   ("V_intermediate_enable_threshold_mV", 1); ("V_intermediate_disable_threshold_mV", 0);
   ("interval_check_thresholds_ms", 0); ("V_pwr_good_enable_threshold_mV", 2800);
   ("V_pwr_good_disable_threshold_mV", 2200); ("C_output_uF", 1); ("V_output_log_gpio_threshold_mV", 1400);
   ("V_input_boost_threshold_mV", 0); ("V_intermediate_max_mV", 10000); ("V_output_mV", 2400); ("V_buck_drop_mV", 0)]%string.
Definition flag_defaults : list (string * bool) :=
  [("enable_boost", false); ("enable_buck", false); ("enable_feedback_to_hrv", false); ("immediate_pwr_good_signal", true)]%string.
Definition int_defaults : list (string * Z) :=
  [("LUT_input_V_min_log2_uV", 0); ("LUT_input_I_min_log2_nA", 1); ("LUT_output_I_min_log2_nA", 1)]%string.
Definition is_one (x : f64) : Prop := fin x = true /\ fR x = 1%R.
Definition basic_source (s : vsrc) : Prop :=
  (forall k hi f z, In (k, hi, f) float_limits -> In (k, z) float_defaults -> fin (f s) = true /\ fR (f s) = IZR z) /\
  (forall k f b, In (k, f) flags -> In (k, b) flag_defaults -> f s = b) /\
  (forall k l f z, In (k, l, f) int_limits -> In (k, z) int_defaults -> f s = z) /\
  List.length (vs_LUT_in s) = 12%nat /\ Forall (fun r => List.length r = 12%nat /\ Forall is_one r) (vs_LUT_in s) /\
  List.length (vs_LUT_out s) = 12%nat /\ Forall is_one (vs_LUT_out s).

(** What the own source [w] is: the values that were given and, where there are none, those of the shipped one. *)
Definition takes (values : dict) (s w : vsrc) : Prop :=
  (forall k hi f, In (k, hi, f) float_limits ->
     match entry k values with Some v => float_of v = Ok (f w) | None => f w = f s end) /\
  (forall k f, In (k, f) flags -> match entry k values with Some v => truth v (f w) | None => f w = f s end) /\
  (forall k l f, In (k, l, f) int_limits -> match entry k values with Some v => v = VInt (f w) | None => f w = f s end) /\
  vs_harvester w = vs_harvester s /\ vs_LUT_in w = vs_LUT_in s /\ vs_LUT_out w = vs_LUT_out s.

(** Recordings that can be emulated: operating points, or curves with window and voltage step. *)
Definition recording (dt : edtype) (w : option Z) (s : option f64) : Prop :=
  (dt = D_ivsample \/ (dt = D_ivcurve /\ w <> None /\ s <> None)) /\
  (forall n, w = Some n -> u32 n) /\ (forall x, s = Some x -> fin x = true /\ (0 <= fR x <= 4294)%R).

(** A table as Python writes it: numerals in brackets. *)
Definition numeral (s : string) : Prop :=
  s <> ""%string /\ Forall (fun c => (48 <= nat_of_ascii c <= 57)%nat \/ c = "."%char) (list_ascii_of_string s).
Definition show_list (l : list string) : string := ("[" ++ String.concat ", " l ++ "]")%string.
Definition reads (s : string) (x : f64) : Prop := numeral s /\ float_of (VOther s) = Ok x.

(** An own harvester with nothing to inherit from, and what it takes over. *)
Definition plain_harvester (values : dict) : Prop :=
  python_dict values /\ entry "inherit_from" values = None /\ entry "id" values = None /\
  (exists n, entry "name" values = Some (VStr n) /\ ~ same_text n "neutral" /\ forall m a, In (m, a) harvester_names -> ~ same_text n m) /\
  (2 <= List.length values)%nat.
Definition algorithm_names : list (string * algo) :=
  [("neutral", A_neutral); ("isc_voc", A_isc_voc); ("ivcurve", A_ivcurve); ("cv", A_cv); ("mppt_voc", A_voc);
   ("mppt_po", A_po); ("mppt_opt", A_opt)]%string.
Definition harvester_floats : list (string * f64 * (vhrv -> f64)) :=
  [("voltage_mV"%string, fz 2500, vh_voltage); ("voltage_min_mV"%string, fz 0, vh_vmin); ("voltage_max_mV"%string, fz 5000, vh_vmax);
   ("setpoint_n"%string, fdec 70 2, vh_setpoint); ("interval_ms"%string, fz 100, vh_interval); ("duration_ms"%string, fdec 1 1, vh_duration)].
Definition harvester_ints : list (string * Z * (vhrv -> Z)) :=
  [("samples_n"%string, 8, vh_samples); ("wait_cycles"%string, 1, vh_wait)].
Definition harvester_flags : list (string * (vhrv -> bool)) :=
  [("rising"%string, vh_rising); ("enable_linear_extrapolation"%string, vh_extrapolate)].
Definition takes_harvester (values : dict) (v : vhrv) : Prop :=
  (forall s, entry "algorithm" values = Some (VStr s) -> In (s, vh_algorithm v) algorithm_names) /\
  (forall k x f, In (k, x, f) harvester_floats -> match entry k values with Some u => float_of u = Ok (f v) | None => f v = x end) /\
  (forall k z f, In (k, z, f) harvester_ints -> match entry k values with Some u => u = VInt (f v) | None => f v = z end) /\
  (forall k f, In (k, f) harvester_flags -> match entry k values with Some u => truth u (f v) | None => f v = true end).
