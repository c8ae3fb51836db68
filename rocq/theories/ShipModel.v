(** Models made from the shipped fixtures: the step between the dictionaries of FixModel and the configurations of
    CfgModel, i.e. the validators [query_database] of virtual_harvester.py:74-100 (VH) and virtual_source.py:114-120
    (VS), the defaults of their fields, and base/content.py:66-73.

    A value that is not text carries its str(), from which number, truth value, table and reference are read back;
    pydantic has the objects themselves.  Not modelled: formats of names, descriptions and dates. *)
From Coq Require Import String Ascii ZArith Bool List.
From Verif Require Import PyBase F64 FixModel CfgModel ShipData.
Import ListNotations.
Open Scope Z_scope.
Open Scope list_scope.

(** The number with these digits: mantissa and digits behind the point. *)
Fixpoint decimal (s : string) (m : Z) (k : option Z) : option (Z * Z) :=
  match s with
  | EmptyString => Some (m, match k with Some k => k | None => 0 end)
  | String c s' =>
      match digit c, k with
      | Some d, None => decimal s' (10 * m + d) None
      | Some d, Some n => decimal s' (10 * m + d) (Some (n + 1))
      | None, None => if Ascii.eqb c "." then decimal s' m (Some 0) else None
      | None, Some _ => None
      end
  end.
Definition float_of (v : value) : res f64 :=
  match v with
  | VInt z => py_float z
  | VOther s =>
      match s, decimal s 0 None with
      | EmptyString, _ | _, None => Err ValueError
      | _, Some (m, k) => Ok (fdec m k)
      end
  | VStr _ => Err ValueError
  end.
Definition int_of (v : value) : res Z := match v with VInt z => Ok z | _ => Err ValueError end.
Definition bool_of (v : value) : res bool :=
  match v with
  | VOther s => if String.eqb s "True" then Ok true else if String.eqb s "False" then Ok false else Err ValueError
  | _ => Err ValueError
  end.

(** The rows of a table: numbers in brackets. *)
Fixpoint rows (s : string) (num : string) (row : list f64) (out : list (list f64)) : res (list (list f64)) :=
  match s with
  | EmptyString => Ok (rev out)
  | String c s' =>
      let number := match num with
                    | EmptyString => Ok row
                    | _ => let* x := float_of (VOther num) in Ok (x :: row)
                    end in
      if Ascii.eqb c "[" || Ascii.eqb c " " then rows s' num row out
      else if Ascii.eqb c "," then let* row := number in rows s' "" row out
      else if Ascii.eqb c "]" then
        let* row := number in
        match row with [] => rows s' "" [] out | _ => rows s' "" [] (rev row :: out) end
      else rows s' (num ++ String c "") row out
  end.
Definition table_of (v : value) : res (list (list f64)) :=
  match v with VOther s => rows s "" [] [] | _ => Err ValueError end.
Definition row_of (v : value) : res (list f64) :=
  let* t := table_of v in match t with [r] => Ok r | _ => Err ValueError end.

(** A field with default; [None] as value is not allowed. *)
Definition field {A} (f : value -> res A) (k : string) (d : A) (values : dict) : res A :=
  match dget k values with None => Ok d | Some v => f v end.
Definition optional {A} (f : value -> res A) (k : string) (values : dict) : res (option A) :=
  match dget k values with None => Ok None | Some v => let* x := f v in Ok (Some x) end.

(** VH:21-31, the names of the algorithms. *)
Definition algorithm_of (v : value) : res algo :=
  match v with
  | VStr s =>
      if String.eqb s "neutral" then Ok A_neutral else if String.eqb s "isc_voc" then Ok A_isc_voc
      else if String.eqb s "ivcurve" then Ok A_ivcurve else if String.eqb s "cv" then Ok A_cv
      else if String.eqb s "mppt_voc" then Ok A_voc else if String.eqb s "mppt_po" then Ok A_po
      else if String.eqb s "mppt_opt" then Ok A_opt else Err ValueError
  | _ => Err ValueError
  end.

(** The fields of a harvester, VH:43-72. *)
Definition harvester_in (d : dict) : res vhrv_in :=
  match dget "name" d with
  | Some (VStr name) =>
      let* algorithm := match dget "algorithm" d with
                        | Some v => algorithm_of v
                        | None => if String.eqb name "neutral" then Ok A_neutral (* refused later *) else Err ValueError
                        end in
      let* samples := optional int_of "samples_n" d in
      let* voltage := optional float_of "voltage_mV" d in
      let* vmin := optional float_of "voltage_min_mV" d in
      let* vmax := optional float_of "voltage_max_mV" d in
      let* ilimit := optional float_of "current_limit_uA" d in
      let* step := optional float_of "voltage_step_mV" d in
      let* setpoint := optional float_of "setpoint_n" d in
      let* interval := optional float_of "interval_ms" d in
      let* duration := optional float_of "duration_ms" d in
      let* rising := optional bool_of "rising" d in
      let* extrapolate := optional bool_of "enable_linear_extrapolation" d in
      let* wait := optional int_of "wait_cycles" d in
      Ok (mkVhrvIn name algorithm samples voltage vmin vmax ilimit step setpoint interval duration rising extrapolate wait)
  | Some _ => Err ValueError
  | None => Err KeyError
  end.

(** base/content.py:66-73: who is visible needs a description. *)
Definition visible (d : dict) : res bool :=
  let* g := field bool_of "visible2group" false d in
  let* a := field bool_of "visible2all" false d in
  Ok (g || a).
Definition described (d : dict) : bool :=
  match dget "description" d with None => false | Some v => negb (value_eqb v none_) end.
(** base/shepherd.py:66, no other fields than those of the class (base/content.py:43-61, VH:43-71, VS:42-112). *)
Definition content_fields : list string :=
  ["id"; "name"; "description"; "comment"; "created"; "updated_last"; "owner"; "group"; "visible2group"; "visible2all"]%string.
Definition harvester_fields : list string :=
  content_fields ++ ["algorithm"; "samples_n"; "voltage_mV"; "voltage_min_mV"; "voltage_max_mV"; "current_limit_uA"; "voltage_step_mV";
     "setpoint_n"; "interval_ms"; "duration_ms"; "rising"; "enable_linear_extrapolation"; "wait_cycles"]%string.
Definition source_fields : list string :=
  content_fields ++ ["enable_boost"; "enable_buck"; "enable_feedback_to_hrv"; "interval_startup_delay_drain_ms"; "harvester";
     "V_input_max_mV"; "I_input_max_mA"; "V_input_drop_mV"; "R_input_mOhm"; "C_intermediate_uF"; "V_intermediate_init_mV";
     "I_intermediate_leak_nA"; "V_intermediate_enable_threshold_mV"; "V_intermediate_disable_threshold_mV";
     "interval_check_thresholds_ms"; "V_pwr_good_enable_threshold_mV"; "V_pwr_good_disable_threshold_mV";
     "immediate_pwr_good_signal"; "C_output_uF"; "V_output_log_gpio_threshold_mV"; "V_input_boost_threshold_mV";
     "V_intermediate_max_mV"; "LUT_input_efficiency"; "LUT_input_V_min_log2_uV"; "LUT_input_I_min_log2_nA"; "V_output_mV";
     "V_buck_drop_mV"; "LUT_output_efficiency"; "LUT_output_I_min_log2_nA"]%string.
Definition only (fields : list string) (d : dict) : bool := forallb (fun kv => existsb (String.eqb (fst kv)) fields) d.
Definition content_validation (fields : list string) (d : dict) : res unit :=
  let* v := visible d in
  guard negb v || described d or ValueError;;
  guard only fields d or ValueError;; Ok tt.

(** VirtualHarvesterConfig(values), VH:74-111. *)
Definition make_harvester (depth : nat) (x : fixtures) (values : dict) : res vhrv :=
  let* (d, _) := try_completing_model depth x "VirtualHarvesterConfig" values in
  let d := fill_in_user_data d in
  let* i := harvester_in d in
  let* v := make_vhrv i in
  let* _ := content_validation harvester_fields d in
  Ok v.

(** A reference as in the fixtures: a dictionary with a name. *)
Definition reference_of (v : value) : res dict :=
  match v with
  | VOther s =>
      let n := (String.length s - 12)%nat in
      guard String.eqb s ("{'name': '" ++ substring 10 n s ++ "'}") or ValueError;;
      Ok [("name"%string, VStr (substring 10 n s))]
  | _ => Err ValueError
  end.

(** The fields of a source, VS:38-112. *)
Definition ones : list f64 := repeat (fz 1) 12.
Definition source_in (d : dict) (harvester : vhrv) : res vsrc :=
  let* boost := field bool_of "enable_boost" false d in
  let* buck := field bool_of "enable_buck" false d in
  let* feedback := field bool_of "enable_feedback_to_hrv" false d in
  let* drain := field float_of "interval_startup_delay_drain_ms" (fz 0) d in
  let* vin_max := field float_of "V_input_max_mV" (fz 10000) d in
  let* iin_max := field float_of "I_input_max_mA" (fz 4200) d in
  let* vin_drop := field float_of "V_input_drop_mV" (fz 0) d in
  let* r_in := field float_of "R_input_mOhm" (fz 0) d in
  let* c_mid := field float_of "C_intermediate_uF" (fz 0) d in
  let* v_init := field float_of "V_intermediate_init_mV" (fz 3000) d in
  let* i_leak := field float_of "I_intermediate_leak_nA" (fz 0) d in
  let* v_en := field float_of "V_intermediate_enable_threshold_mV" (fz 1) d in
  let* v_dis := field float_of "V_intermediate_disable_threshold_mV" (fz 0) d in
  let* check := field float_of "interval_check_thresholds_ms" (fz 0) d in
  let* pg_en := field float_of "V_pwr_good_enable_threshold_mV" (fz 2800) d in
  let* pg_dis := field float_of "V_pwr_good_disable_threshold_mV" (fz 2200) d in
  let* immediate := field bool_of "immediate_pwr_good_signal" true d in
  let* c_out := field float_of "C_output_uF" (fz 1) d in
  let* v_log := field float_of "V_output_log_gpio_threshold_mV" (fz 1400) d in
  let* v_boost := field float_of "V_input_boost_threshold_mV" (fz 0) d in
  let* v_mid_max := field float_of "V_intermediate_max_mV" (fz 10000) d in
  let* lut_in := field table_of "LUT_input_efficiency" (repeat ones 12) d in
  let* lut_in_v := field int_of "LUT_input_V_min_log2_uV" 0 d in
  let* lut_in_i := field int_of "LUT_input_I_min_log2_nA" 1 d in
  let* v_out := field float_of "V_output_mV" (fz 2400) d in
  let* v_buck := field float_of "V_buck_drop_mV" (fz 0) d in
  let* lut_out := field row_of "LUT_output_efficiency" ones d in
  let* lut_out_i := field int_of "LUT_output_I_min_log2_nA" 1 d in
  Ok {| vs_buck := buck; vs_boost := boost; vs_feedback := feedback; vs_drain_ms := drain; vs_harvester := harvester;
        vs_Vin_max := vin_max; vs_Iin_max := iin_max; vs_Vin_drop := vin_drop; vs_R_in := r_in; vs_C_mid := c_mid;
        vs_V_init := v_init; vs_I_leak := i_leak; vs_V_en := v_en; vs_V_dis := v_dis; vs_check_ms := check;
        vs_pg_en := pg_en; vs_pg_dis := pg_dis; vs_pg_immediate := immediate; vs_C_out := c_out; vs_V_log := v_log;
        vs_V_boost := v_boost; vs_V_mid_max := v_mid_max; vs_LUT_in := lut_in; vs_LUT_in_V := lut_in_v;
        vs_LUT_in_I := lut_in_i; vs_V_out := v_out; vs_V_buck := v_buck; vs_LUT_out := lut_out; vs_LUT_out_I := lut_out_i |}.

(** VirtualSourceConfig(values), VS:114-126; the default harvester is made when the class is (VS:49). *)
Definition make_source (depth : nat) (x : fixtures) (values : dict) : res vsrc :=
  let* (d, _) := try_completing_model depth x "VirtualSourceConfig" values in
  let d := fill_in_user_data d in
  let* r := field reference_of "harvester" [("name"%string, VStr "mppt_opt")] d in
  let* h := make_harvester depth x r in
  let* v := source_in d h in
  let* v := check_vsrc v in
  let* _ := content_validation source_fields d in
  Ok v.

(** The database as it is after start: Fixtures reads all files (EnvModel); here the two that are used. *)
Definition shipped : res fixtures := insert_all [] (harvesters ++ sources).
