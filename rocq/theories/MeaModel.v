(** Model of shepherd_core/shepherd_core/data_models/base/cal_measurement.py: calibration
    pairs out of measurements.

    Numbers are exact rationals; every binary64 value is one.  numpy's [polyfit] solves the
    least-squares problem through a singular value decomposition in binary64, here its exact
    solution is taken (and for the rank-deficient problem the one of smallest norm, which is
    what [polyfit] returns besides its RankWarning).  The roundings of the sums are left out. *)
From Coq Require Import String.
From Verif Require Import PyBase.
From Coq Require Import QArith.
Open Scope Q_scope.

(** lines 19-23, CalMeasurementPair. *)
Record mpair := mkMeas { shepherd_raw : Q; reference_si : Q }.

(** calibration.py:51-56, CalibrationPair. *)
Record cpair := mkPair { gain : Q; offset : Q; unit : option string }.

(** numpy's sum() over the values of all measured pairs. *)
Definition total (f : mpair -> Q) (data : list mpair) : Q :=
  fold_right (fun p s => f p + s) 0 data.
Definition count (data : list mpair) : Q := inject_Z (Z.of_nat (List.length data)).
Definition mean (f : mpair -> Q) (data : list mpair) : Q := total f data / count data.

(** line 38, np.polyfit(x, y, 1), as (gain, offset).  [polyfit] scales the two columns of the
    problem to length 1.  If all raw values are the same, then both columns are, and the
    solution of smallest norm gives each of them one half of the value. *)
Definition polyfit1 (data : list mpair) : Q * Q :=
  let xbar := mean shepherd_raw data in
  let ybar := mean reference_si data in
  let sxx := total (fun p => (shepherd_raw p - xbar) * (shepherd_raw p - xbar)) data in
  let sxy := total (fun p => (shepherd_raw p - xbar) * (reference_si p - ybar)) data in
  if Qeq_bool sxx 0 then (ybar / (2 * xbar), ybar / 2)
  else (sxy / sxx, ybar - sxy / sxx * xbar).

(** The limit 0.999 of line 50, as the exact value of that double. *)
Definition r_limit : Q := 8998192055486251 # 9007199254740992.

(** lines 42-50: [rval < 0.999].  The division by a spread of 0 gives NaN (the sum over the fit
    is 0 as well then), which is not smaller than anything. *)
Definition rval_too_low (ssreg sstot : Q) : bool :=
  if Qeq_bool sstot 0 then false else negb (Qle_bool r_limit (ssreg / sstot)).

(** lines 26-57, meas_to_cal.  The first two guards are the validation of the argument (at least
    two pairs, each with a positive raw value; pydantic raises its subclass of ValueError), the
    last one is the constraint on the gain of CalibrationPair (calibration.py:54).
    The name of the component is only used in the message. *)
Definition meas_to_cal (data : list mpair) : res cpair :=
  guard (2 <=? List.length data)%nat or ValueError;;
  guard forallb (fun p => negb (Qle_bool (shepherd_raw p) 0)) data or ValueError;;
  let (g, o) := polyfit1 data in
  let yhat p := g * shepherd_raw p + o in
  let ybar := mean reference_si data in
  let ssreg := total (fun p => (yhat p - ybar) * (yhat p - ybar)) data in
  let sstot := total (fun p => (reference_si p - ybar) * (reference_si p - ybar)) data in
  guard negb (rval_too_low ssreg sstot) or ValueError;;
  guard negb (Qle_bool g 0) or ValueError;;
  Ok (mkPair g o None).

(** calibration.py:98-104 and 139-147, CalibrationHarvester and CalibrationEmulator. *)
Record cal_hrv := mkHrv { dac_V_Hrv : cpair; dac_V_Sim : cpair; adc_V_Sense : cpair; adc_C_Hrv : cpair }.
Record cal_emu := mkEmu { dac_V_A : cpair; dac_V_B : cpair; adc_C_A : cpair; adc_C_B : cpair }.

(** lines 60-66 and 76-82, CalMeasurementHarvester and CalMeasurementEmulator. *)
Record meas_hrv := mkMHrv {
  m_dac_V_Hrv : list mpair; m_dac_V_Sim : list mpair;
  m_adc_V_Sense : list mpair; m_adc_C_Hrv : list mpair }.
Record meas_emu := mkMEmu {
  m_dac_V_A : list mpair; m_dac_V_B : list mpair; m_adc_C_A : list mpair; m_adc_C_B : list mpair }.

(** lines 68-73, CalMeasurementHarvester.to_cal: the loop over the four fields replaces every
    entry of the default. *)
Definition hrv_to_cal (m : meas_hrv) : res cal_hrv :=
  let* a := meas_to_cal (m_dac_V_Hrv m) in
  let* b := meas_to_cal (m_dac_V_Sim m) in
  let* c := meas_to_cal (m_adc_V_Sense m) in
  let* d := meas_to_cal (m_adc_C_Hrv m) in
  Ok (mkHrv a b c d).

(** lines 84-89, CalMeasurementEmulator.to_cal. *)
Definition emu_to_cal (m : meas_emu) : res cal_emu :=
  let* a := meas_to_cal (m_dac_V_A m) in
  let* b := meas_to_cal (m_dac_V_B m) in
  let* c := meas_to_cal (m_adc_C_A m) in
  let* d := meas_to_cal (m_adc_C_B m) in
  Ok (mkEmu a b c d).

(** lines 92-99, CalMeasurementCape; the description of the cape is carried along as [C]. *)
Record meas_cape (C : Type) := mkMCape {
  mc_cape : option C; mc_host : option string;
  mc_harvester : option meas_hrv; mc_emulator : option meas_emu }.
Record cal_cape (C : Type) := mkCape {
  cc_cape : option C; cc_host : option string; cc_harvester : cal_hrv; cc_emulator : cal_emu }.
Arguments mkMCape {C} _ _ _ _.
Arguments mc_cape {C} _.
Arguments mc_host {C} _.
Arguments mc_harvester {C} _.
Arguments mc_emulator {C} _.
Arguments mkCape {C} _ _ _ _.
Arguments cc_cape {C} _.
Arguments cc_host {C} _.
Arguments cc_harvester {C} _.
Arguments cc_emulator {C} _.

(** lines 101-112, CalMeasurementCape.to_cal; [dh] and [de] are the defaults of
    CalibrationCape (calibration.py:217-218). *)
Definition cape_to_cal {C} (dh : cal_hrv) (de : cal_emu) (m : meas_cape C) : res (cal_cape C) :=
  let* h := match mc_harvester m with Some h => hrv_to_cal h | None => Ok dh end in
  let* e := match mc_emulator m with Some e => emu_to_cal e | None => Ok de end in
  Ok (mkCape (mc_cape m) (mc_host m) h e).
