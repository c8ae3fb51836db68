(** The harvesters and sources that come with the library, entry by entry and field by field:
    shepherd_core/shepherd_core/data_models/content/virtual_harvester_fixture.yaml and virtual_source_fixture.yaml.
    A value that is neither text nor integer carries its str() (see FixModel); a reference like [name: cv20] is the
    str() of a dictionary with one entry.  Comments of the files are left out. *)
From Coq Require Import String ZArith List.
From Verif Require Import FixModel.
Import ListNotations.
Open Scope Z_scope.
Open Scope list_scope.

(** virtual_harvester_fixture.yaml:8-168. *)
Definition harvesters : list wrapper := [
  mkWrap "VirtualHarvesterConfig" [
    ("id", VInt 1000);
    ("name", VStr "neutral");
    ("enable_linear_extrapolation", VOther "True");
    ("owner", VStr "Ingmar");
    ("group", VStr "NES Lab");
    ("visible2group", VOther "True");
    ("visible2all", VOther "True");
    ("created", VOther "2022-12-12 12:12:12");
    ("updated_last", VOther "2022-12-12 12:12:12")];
  mkWrap "VirtualHarvesterConfig" [
    ("id", VInt 1100);
    ("name", VStr "ivcurve");
    ("description", VStr "Postpone harvesting by sampling ivcurves (voltage stepped as sawtooth-wave)");
    ("comment", VStr "~110 Hz, Between 50 & 60 Hz line-frequency to avoid standing waves");
    ("inherit_from", VStr "neutral");
    ("algorithm", VStr "ivcurve");
    ("samples_n", VInt 909);
    ("voltage_min_mV", VInt 0);
    ("voltage_max_mV", VInt 5000);
    ("wait_cycles", VInt 0);
    ("rising", VOther "False")];
  mkWrap "VirtualHarvesterConfig" [
    ("id", VInt 1101);
    ("name", VStr "ivcurves");
    ("inherit_from", VStr "ivcurve")];
  mkWrap "VirtualHarvesterConfig" [
    ("id", VInt 1103);
    ("name", VStr "iv110");
    ("inherit_from", VStr "ivcurve")];
  mkWrap "VirtualHarvesterConfig" [
    ("id", VInt 1102);
    ("name", VStr "iv1000");
    ("comment", VStr "Name relates to curves per second");
    ("inherit_from", VStr "ivcurve");
    ("samples_n", VInt 100);
    ("wait_cycles", VInt 0)];
  mkWrap "VirtualHarvesterConfig" [
    ("id", VInt 1200);
    ("name", VStr "isc_voc");
    ("description", VStr "Postpone harvesting by sampling short circuit current & open circuit voltage");
    ("inherit_from", VStr "neutral");
    ("algorithm", VStr "isc_voc");
    ("wait_cycles", VInt 4)];
  mkWrap "VirtualHarvesterConfig" [
    ("id", VInt 2100);
    ("name", VStr "cv20");
    ("description", VStr "Harvesting with constant Voltage");
    ("inherit_from", VStr "neutral");
    ("algorithm", VStr "cv");
    ("voltage_mV", VInt 2000)];
  mkWrap "VirtualHarvesterConfig" [
    ("id", VInt 2101);
    ("name", VStr "cv24");
    ("inherit_from", VStr "cv20");
    ("voltage_mV", VInt 2400)];
  mkWrap "VirtualHarvesterConfig" [
    ("id", VInt 2102);
    ("name", VStr "cv33");
    ("inherit_from", VStr "cv20");
    ("voltage_mV", VInt 3300)];
  mkWrap "VirtualHarvesterConfig" [
    ("id", VInt 2102);
    ("name", VStr "cv10");
    ("inherit_from", VStr "cv20");
    ("voltage_mV", VInt 1000)];
  mkWrap "VirtualHarvesterConfig" [
    ("id", VInt 2200);
    ("name", VStr "mppt_voc");
    ("description", VStr "MPPT based on open circuit voltage for solar");
    ("inherit_from", VStr "neutral");
    ("algorithm", VStr "mppt_voc");
    ("setpoint_n", VOther "0.76");
    ("interval_ms", VInt 100);
    ("duration_ms", VOther "1.2");
    ("current_limit_uA", VInt 5)];
  mkWrap "VirtualHarvesterConfig" [
    ("id", VInt 2201);
    ("name", VStr "mppt_bq");
    ("description", VStr "MPPT of TI BQ-Converters for solar");
    ("inherit_from", VStr "mppt_voc");
    ("setpoint_n", VOther "0.76");
    ("interval_ms", VInt 16000);
    ("duration_ms", VInt 256)];
  mkWrap "VirtualHarvesterConfig" [
    ("id", VInt 2202);
    ("name", VStr "mppt_bqt");
    ("description", VStr "MPPT of TI BQ-Converters for thermoelectric");
    ("inherit_from", VStr "mppt_voc");
    ("setpoint_n", VOther "0.5");
    ("interval_ms", VInt 16000);
    ("duration_ms", VInt 256)];
  mkWrap "VirtualHarvesterConfig" [
    ("id", VInt 2203);
    ("name", VStr "mppt_bq_solar");
    ("inherit_from", VStr "mppt_bq")];
  mkWrap "VirtualHarvesterConfig" [
    ("id", VInt 2204);
    ("name", VStr "mppt_bq_thermoelectric");
    ("inherit_from", VStr "mppt_bqt")];
  mkWrap "VirtualHarvesterConfig" [
    ("id", VInt 2205);
    ("name", VStr "mppt_po");
    ("description", VStr "MPPT based on perturb & observe algorithm");
    ("inherit_from", VStr "neutral");
    ("algorithm", VStr "mppt_po");
    ("voltage_min_mV", VInt 0);
    ("voltage_max_mV", VInt 5000);
    ("voltage_step_mV", VInt 10);
    ("interval_ms", VInt 18)];
  mkWrap "VirtualHarvesterConfig" [
    ("id", VInt 2206);
    ("name", VStr "mppt_opt");
    ("description", VStr "Power-Optimum with very fast PO-Variant (harvesting) or special max-pwr-picker (emulator / ivcurve)");
    ("inherit_from", VStr "mppt_po");
    ("algorithm", VStr "mppt_opt");
    ("voltage_step_mV", VInt 1);
    ("interval_ms", VOther "0.01")];
  mkWrap "VirtualHarvesterConfig" [
    ("id", VInt 3000);
    ("name", VStr "direct");
    ("description", VStr "Disables harvesting, even for ivcurve-input");
    ("inherit_from", VStr "neutral");
    ("algorithm", VStr "neutral")]
]%string.

(** virtual_source_fixture.yaml:6-246. *)
Definition sources : list wrapper := [
  mkWrap "VirtualSourceConfig" [
    ("id", VInt 1000);
    ("name", VStr "neutral");
    ("description", VStr "Direct feed-through of energy environment with no converter (allows on-off-patters)");
    ("enable_boost", VOther "False");
    ("enable_buck", VOther "False");
    ("enable_feedback_to_hrv", VOther "False");
    ("interval_startup_delay_drain_ms", VInt 0);
    ("harvester", VOther "{'name': 'mppt_opt'}");
    ("V_input_max_mV", VInt 10000);
    ("I_input_max_mA", VInt 4200);
    ("V_input_drop_mV", VOther "0.0");
    ("R_input_mOhm", VOther "0.0");
    ("C_intermediate_uF", VOther "0.0");
    ("V_intermediate_init_mV", VInt 3000);
    ("I_intermediate_leak_nA", VOther "0.0");
    ("V_intermediate_enable_threshold_mV", VInt 1);
    ("V_intermediate_disable_threshold_mV", VInt 0);
    ("interval_check_thresholds_ms", VOther "0.0");
    ("V_pwr_good_enable_threshold_mV", VInt 2800);
    ("V_pwr_good_disable_threshold_mV", VInt 2200);
    ("immediate_pwr_good_signal", VOther "True");
    ("C_output_uF", VOther "1.0");
    ("V_output_log_gpio_threshold_mV", VInt 1400);
    ("V_input_boost_threshold_mV", VOther "0.0");
    ("V_intermediate_max_mV", VInt 10000);
    ("LUT_input_efficiency", VOther "[[1.0, 1.0, 1.0, 1.0, 1.0, 1.0, 1.0, 1.0, 1.0, 1.0, 1.0, 1.0], [1.0, 1.0, 1.0, 1.0, 1.0, 1.0, 1.0, 1.0, 1.0, 1.0, 1.0, 1.0], [1.0, 1.0, 1.0, 1.0, 1.0, 1.0, 1.0, 1.0, 1.0, 1.0, 1.0, 1.0], [1.0, 1.0, 1.0, 1.0, 1.0, 1.0, 1.0, 1.0, 1.0, 1.0, 1.0, 1.0], [1.0, 1.0, 1.0, 1.0, 1.0, 1.0, 1.0, 1.0, 1.0, 1.0, 1.0, 1.0], [1.0, 1.0, 1.0, 1.0, 1.0, 1.0, 1.0, 1.0, 1.0, 1.0, 1.0, 1.0], [1.0, 1.0, 1.0, 1.0, 1.0, 1.0, 1.0, 1.0, 1.0, 1.0, 1.0, 1.0], [1.0, 1.0, 1.0, 1.0, 1.0, 1.0, 1.0, 1.0, 1.0, 1.0, 1.0, 1.0], [1.0, 1.0, 1.0, 1.0, 1.0, 1.0, 1.0, 1.0, 1.0, 1.0, 1.0, 1.0], [1.0, 1.0, 1.0, 1.0, 1.0, 1.0, 1.0, 1.0, 1.0, 1.0, 1.0, 1.0], [1.0, 1.0, 1.0, 1.0, 1.0, 1.0, 1.0, 1.0, 1.0, 1.0, 1.0, 1.0], [1.0, 1.0, 1.0, 1.0, 1.0, 1.0, 1.0, 1.0, 1.0, 1.0, 1.0, 1.0]]");
    ("LUT_input_V_min_log2_uV", VInt 0);
    ("LUT_input_I_min_log2_nA", VInt 1);
    ("V_output_mV", VInt 2400);
    ("V_buck_drop_mV", VOther "0.0");
    ("LUT_output_efficiency", VOther "[1.0, 1.0, 1.0, 1.0, 1.0, 1.0, 1.0, 1.0, 1.0, 1.0, 1.0, 1.0]");
    ("LUT_output_I_min_log2_nA", VInt 1);
    ("owner", VStr "Ingmar");
    ("group", VStr "NES Lab");
    ("visible2group", VOther "True");
    ("visible2all", VOther "True");
    ("created", VOther "2022-12-12 12:12:12");
    ("updated_last", VOther "2022-12-12 12:12:12")];
  mkWrap "VirtualSourceConfig" [
    ("id", VInt 1010);
    ("name", VStr "direct");
    ("inherit_from", VStr "neutral");
    ("harvester", VOther "{'name': 'direct'}")];
  mkWrap "VirtualSourceConfig" [
    ("id", VInt 1011);
    ("name", VStr "diode+capacitor");
    ("description", VStr "Simple Converter based on diode and buffer capacitor");
    ("inherit_from", VStr "neutral");
    ("V_input_drop_mV", VInt 300);
    ("C_intermediate_uF", VInt 47);
    ("harvester", VOther "{'name': 'cv20'}");
    ("enable_feedback_to_hrv", VOther "True");
    ("V_intermediate_enable_threshold_mV", VInt 2000);
    ("V_intermediate_disable_threshold_mV", VInt 1800)];
  mkWrap "VirtualSourceConfig" [
    ("id", VInt 1012);
    ("name", VStr "dio_cap");
    ("inherit_from", VStr "diode+capacitor")];
  mkWrap "VirtualSourceConfig" [
    ("id", VInt 1013);
    ("name", VStr "diode+resistor+capacitor");
    ("description", VStr "Simple Converter based on diode, current limiting resistor and buffer capacitor");
    ("inherit_from", VStr "diode+capacitor");
    ("R_input_mOhm", VInt 10000)];
  mkWrap "VirtualSourceConfig" [
    ("id", VInt 1014);
    ("name", VStr "dio_res_cap");
    ("inherit_from", VStr "diode+resistor+capacitor")];
  mkWrap "VirtualSourceConfig" [
    ("id", VInt 1020);
    ("name", VStr "BQ25504");
    ("description", VStr "TI BQ25504 with integrated boost-converter. Values are taken from the DK-Board.");
    ("inherit_from", VStr "neutral");
    ("enable_boost", VOther "True");
    ("harvester", VOther "{'name': 'mppt_bq_solar'}");
    ("V_input_max_mV", VInt 3000);
    ("I_input_max_mA", VInt 100);
    ("C_intermediate_uF", VOther "100.0");
    ("V_intermediate_init_mV", VInt 3000);
    ("I_intermediate_leak_nA", VInt 330);
    ("V_intermediate_enable_threshold_mV", VInt 1000);
    ("V_intermediate_disable_threshold_mV", VInt 0);
    ("interval_check_thresholds_ms", VOther "64.0");
    ("V_pwr_good_enable_threshold_mV", VInt 2800);
    ("V_pwr_good_disable_threshold_mV", VInt 2340);
    ("immediate_pwr_good_signal", VOther "False");
    ("V_input_boost_threshold_mV", VInt 130);
    ("V_intermediate_max_mV", VInt 3600);
    ("LUT_input_efficiency", VOther "[[0.01, 0.01, 0.02, 0.05, 0.1, 0.15, 0.15, 0.2, 0.25, 0.3, 0.3, 0.35], [0.1, 0.2, 0.3, 0.4, 0.5, 0.55, 0.56, 0.57, 0.58, 0.59, 0.6, 0.61], [0.2, 0.4, 0.5, 0.6, 0.65, 0.66, 0.67, 0.68, 0.69, 0.7, 0.71, 0.72], [0.35, 0.55, 0.65, 0.71, 0.73, 0.74, 0.75, 0.75, 0.76, 0.77, 0.77, 0.78], [0.45, 0.65, 0.7, 0.73, 0.75, 0.77, 0.78, 0.79, 0.8, 0.81, 0.81, 0.82], [0.5, 0.7, 0.74, 0.76, 0.78, 0.79, 0.8, 0.81, 0.82, 0.83, 0.83, 0.84], [0.52, 0.73, 0.76, 0.78, 0.8, 0.81, 0.82, 0.83, 0.84, 0.85, 0.85, 0.86], [0.53, 0.75, 0.77, 0.79, 0.81, 0.82, 0.83, 0.84, 0.85, 0.86, 0.86, 0.87], [0.55, 0.77, 0.78, 0.8, 0.82, 0.83, 0.85, 0.86, 0.87, 0.87, 0.87, 0.88], [0.56, 0.78, 0.79, 0.81, 0.83, 0.85, 0.87, 0.88, 0.88, 0.88, 0.88, 0.89], [0.58, 0.79, 0.8, 0.82, 0.84, 0.86, 0.88, 0.89, 0.89, 0.89, 0.89, 0.9], [0.6, 0.8, 0.81, 0.83, 0.85, 0.87, 0.89, 0.9, 0.9, 0.9, 0.9, 0.9]]");
    ("LUT_input_V_min_log2_uV", VInt 17);
    ("LUT_input_I_min_log2_nA", VInt 13)];
  mkWrap "VirtualSourceConfig" [
    ("id", VInt 1021);
    ("name", VStr "BQ25504s");
    ("description", VStr "TI BQ25504 with Schmitt-Trigger for a faster power-good-signal");
    ("inherit_from", VStr "BQ25504");
    ("immediate_pwr_good_signal", VOther "True")];
  mkWrap "VirtualSourceConfig" [
    ("id", VInt 1022);
    ("name", VStr "BQ25504-Schmitt");
    ("inherit_from", VStr "BQ25504s")];
  mkWrap "VirtualSourceConfig" [
    ("id", VInt 1030);
    ("name", VStr "BQ25570");
    ("description", VStr "TI BQ25570 with integrated boost- & buck-converter");
    ("inherit_from", VStr "BQ25504");
    ("enable_boost", VOther "True");
    ("enable_buck", VOther "True");
    ("V_input_max_mV", VInt 5100);
    ("I_input_max_mA", VInt 100);
    ("C_intermediate_uF", VOther "33.0");
    ("V_intermediate_init_mV", VInt 3400);
    ("I_intermediate_leak_nA", VOther "0.0");
    ("V_intermediate_enable_threshold_mV", VInt 3000);
    ("V_intermediate_disable_threshold_mV", VInt 2400);
    ("interval_check_thresholds_ms", VOther "64.0");
    ("V_pwr_good_enable_threshold_mV", VInt 3000);
    ("V_pwr_good_disable_threshold_mV", VInt 2500);
    ("immediate_pwr_good_signal", VOther "False");
    ("C_output_uF", VOther "1.0");
    ("V_input_boost_threshold_mV", VOther "100.0");
    ("V_intermediate_max_mV", VInt 5500);
    ("V_output_mV", VInt 2200);
    ("V_buck_drop_mV", VOther "200.0");
    ("LUT_output_efficiency", VOther "[0.4, 0.5, 0.6, 0.73, 0.82, 0.86, 0.88, 0.9, 0.91, 0.92, 0.93, 0.92]");
    ("LUT_output_I_min_log2_nA", VInt 10)];
  mkWrap "VirtualSourceConfig" [
    ("id", VInt 1031);
    ("name", VStr "BQ25570s");
    ("description", VStr "TI BQ25570 with Schmitt-Trigger for a faster power-good-signal");
    ("inherit_from", VStr "BQ25570");
    ("immediate_pwr_good_signal", VOther "True")];
  mkWrap "VirtualSourceConfig" [
    ("id", VInt 1032);
    ("name", VStr "BQ25570-Schmitt");
    ("inherit_from", VStr "BQ25570s")];
  mkWrap "VirtualSourceConfig" [
    ("id", VInt 1033);
    ("name", VStr "default");
    ("inherit_from", VStr "BQ25570s")]
]%string.

