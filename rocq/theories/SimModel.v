(** The simulations: shepherd_core/shepherd_core/vsource/virtual_source_model.py (the whole class),
    virtual_source_simulation.py and virtual_harvester_simulation.py (the loops over the samples).

    Not modelled: files (see FileModel), progress bars, plots, the monitoring of
    internals.  The grouping of samples into buffers has no influence on the loop; it and the energies that the
    functions return are in SumModel.
    A numpy array is handled element by element. *)
From Coq Require Import ZArith Bool List.
From RecordUpdate Require Import RecordUpdate.
From Verif Require FileModel.
From Verif Require Import PyBase F64 HarvModel CalModel ConvModel CfgModel TgtModel.
Import ListNotations.
Open Scope Z_scope.

(** ** Harvester with a setpoint that was written by the converter *)

(** virtual_harvester_model.py lines 111-147 (see [ivcurve_2_cv]), with the float [f] as [voltage_set_uV].  An
    integer is compared with a float by its exact value and converted for a subtraction; voltages are far below
    2^53, where both agree with the operations on floats. *)
Definition ivcurve_2_cv_f (f : f64) (s : hst) (x : sample) : hst * sample :=
  let (v, i) := x in
  let compare_now := flt (fz v) f in
  let step_size_now := Z.abs (v - voltage_last s) in
  let distance_now := fabs (fsub (fz v) f) in
  let distance_last := fabs (fsub (fz (voltage_last s)) f) in
  let s1 :=
    if negb (Bool.eqb compare_now (compare_last s)) && (step_size_now <? step_x4 s) then
      if flt distance_now distance_last && flt distance_now (fz (step_x4 s)) then
        s <| voltage_hold := v |> <| current_hold := i |>
          <| current_delta := i - current_last s |> <| voltage_delta := v - voltage_last s |>
      else if flt distance_last distance_now && flt distance_last (fz (step_x4 s)) then
        s <| voltage_hold := voltage_last s |> <| current_hold := current_last s |>
          <| current_delta := i - current_last s |> <| voltage_delta := v - voltage_last s |>
      else s
    else if lin_extrapolation s then
      if Bool.eqb (flt (fz (voltage_hold s)) f) (voltage_delta s >? 0) then
        s <| voltage_hold := voltage_hold s + voltage_delta s |>
          <| current_hold := current_hold s + current_delta s |>
      else
        let vh := if voltage_hold s >? voltage_delta s
                  then voltage_hold s - voltage_delta s else 0 in
        let ih := if current_hold s >? current_delta s
                  then current_hold s - current_delta s else 0 in
        s <| voltage_hold := vh |> <| current_hold := ih |>
    else s in
  let s2 := s1 <| voltage_last := v |> <| current_last := i |> <| compare_last := compare_now |> in
  (s2, (voltage_hold s2, current_hold s2)).

(** Lines 97-109 with such a setpoint.  mppt_voc and mppt_po write a new setpoint after the call of
    [ivcurve_2_cv]; the converter replaces it at the end of the same step, so it is never read.  What
    mppt_po does with its setpoint, step and direction (lines 184-219) is therefore left out here. *)
Definition ivcurve_sample_f (c : hcfg) (f : f64) (s : hst) (x : sample) : hst * sample :=
  if h_window c <=? 1 then (s, x)
  else if h_algorithm c >=? HRV_MPPT_OPT then ivcurve_2_mppt_opt c s x
  else if h_algorithm c >=? HRV_MPPT_PO then ivcurve_2_cv_f f (tick_interval c s) x
  else if h_algorithm c >=? HRV_MPPT_VOC then ivcurve_2_cv_f f (voc_track c s x) x
  else if h_algorithm c >=? HRV_CV then ivcurve_2_cv_f f s x
  else (s, x).

(** ** virtual_source_model.py *)

(** The object: converter with counters, harvester, and the setpoint if it was written by the converter. *)
Record vsm := mkVsm { vm_src : src; vm_hrv : hst; vm_set : option f64 }.
(** The configurations of both parts. *)
Record vcfg := mkVcfg { vc_cnv : ccfg; vc_hrv : hcfg }.

(** Lines 29-60: [__init__]. *)
Definition vsm_config (p : pypow) (v : vsrc) (dtype : edtype) (window : option Z) (step_V : option f64) (log_mid : bool)
  : res vcfg :=
  let* c := from_vsrc p v dtype log_mid in
  let* h := from_vhrv (vs_harvester v) (Some dtype) window step_V true in
  Ok (mkVcfg c (fst h)).
Definition vsm_init (k : vcfg) (cal : cal_emu) : res vsm :=
  let* w := src_init (vc_cnv k) cal in
  Ok (mkVsm w (h_init (vc_hrv k)) None).

(** Lines 62-91: [iterate_sampling]. *)
Definition iterate_sampling (k : vcfg) (cal : cal_emu) (st : vsm) (v i : Z) (i_out : f64) : res (vsm * Z) :=
  let (h, y) := match vm_set st with
                | None => ivcurve_sample (vc_hrv k) (vm_hrv st) (v, i)
                | Some f => ivcurve_sample_f (vc_hrv k) f (vm_hrv st) (v, i)
                end in
  let* r := src_step (vc_cnv k) cal (vm_src st) (fz (fst y)) (fz (snd y)) i_out in
  let (w, out) := r in
  let set := if feedback_to_hrv (vc_cnv k) then Some (V_request (cnv w)) else vm_set st in
  Ok (mkVsm w h set, out).

(** Any number of calls; the results in order. *)
Fixpoint vsm_run (k : vcfg) (cal : cal_emu) (st : vsm) (xs : list (sample * f64)) : res (vsm * list Z) :=
  match xs with
  | [] => Ok (st, [])
  | (x, io) :: xs =>
      let* r := iterate_sampling k cal st (fst x) (snd x) io in
      let* t := vsm_run k cal (fst r) xs in
      Ok (fst t, snd r :: snd t)
  end.
Definition vsm_sim (k : vcfg) (cal : cal_emu) (xs : list (sample * f64)) : res (vsm * list Z) :=
  let* st := vsm_init k cal in vsm_run k cal st xs.

(** ** virtual_source_simulation.py *)

(** A raw sample of the recording as integers: lines 78-79, 83-84, and virtual_harvester_simulation.py lines
    58-59, 63. *)
Definition sample_in (cv ci : cpair) (x : Z * Z) : res sample :=
  let* v := fint (fmul (raw_to_si cv (fz (fst x)) true) (fz (10 ^ 6))) in
  let* i := fint (fmul (raw_to_si ci (fz (snd x)) true) (fz (10 ^ 9))) in
  Ok (v, i).

(** One pass of the loop, lines 81-88: voltage and current at the target.  The voltage is kept in an array of
    floats and read back as integer.  [get_power_good] (virtual_converter_model.py line 278) is the attribute. *)
Definition loop_step (m : pymath) (t : target) (k : vcfg) (cal : cal_emu) (cv ci : cpair) (st : vsm) (i_out : f64)
    (x : Z * Z) : res (vsm * Z * f64) :=
  let* y := sample_in cv ci x in
  let* r := iterate_sampling k cal st (fst y) (snd y) i_out in
  let (st', v) := r in
  let* uV := fint (fz v) in
  let* i := tgt_step m t uV (power_good (cnv (vm_src st'))) in
  Ok (st', v, i).
Fixpoint loop_run (m : pymath) (t : target) (k : vcfg) (cal : cal_emu) (cv ci : cpair) (st : vsm) (i_out : f64)
    (xs : list (Z * Z)) : res (vsm * list (Z * f64)) :=
  match xs with
  | [] => Ok (st, [])
  | x :: xs =>
      let* r := loop_step m t k cal cv ci st i_out x in
      let '(st', v, i) := r in
      let* u := loop_run m t k cal cv ci st' i xs in
      Ok (fst u, (v, i) :: snd u)
  end.
(** Lines 41-88: the whole simulation with the default calibration of an emulator.  [dtype], [window] and
    [step_V] come from the file. *)
Definition simulate_source (m : pymath) (p : pypow) (v : vsrc) (t : target) (dtype : edtype) (window : option Z)
    (step_V : option f64) (cv ci : cpair) (xs : list (Z * Z)) : res (vsm * list (Z * f64)) :=
  let* cal := default_emu in
  let* k := vsm_config p v dtype window step_V false in
  let* st := vsm_init k cal in
  loop_run m t k cal cv ci st (fz 0) xs.
(** Lines 108-109: what is stored. *)
Definition store_source (cal : cal_emu) (x : Z * f64) : res (Z * Z) :=
  let* v := si_to_raw (dac_V_A cal) (fmul (fdec 1 6) (fz (fst x))) in
  let* i := si_to_raw (adc_C_A cal) (fmul (fdec 1 9) (snd x)) in
  Ok (v, i).

(** ** virtual_harvester_simulation.py *)

(** Lines 67-68: what is stored for an operating point. *)
Definition sample_out (cv ci : cpair) (y : sample) : res (Z * Z) :=
  let* v := si_to_raw cv (idiv (fz (fst y)) (fz (10 ^ 6))) in
  let* i := si_to_raw ci (idiv (fz (snd y)) (fz (10 ^ 9))) in
  Ok (v, i).
Fixpoint harvest_run (c : hcfg) (cv ci : cpair) (h : cal_hrv) (s : hst) (xs : list (Z * Z)) : res (list (Z * Z)) :=
  match xs with
  | [] => Ok []
  | x :: xs =>
      let* y := sample_in cv ci x in
      let (s', z) := ivcurve_sample c s y in
      let* r := sample_out (adc_V_Sense h) (adc_C_Hrv h) z in
      let* l := harvest_run c cv ci h s' xs in
      Ok (r :: l)
  end.
(** Lines 37-69: conversion of the configuration and the loop.  The output has the default calibration. *)
Definition simulate_harvester (v : vhrv) (dtype : edtype) (window : option Z) (step_V : option f64) (cv ci : cpair)
    (xs : list (Z * Z)) : res (list (Z * Z)) :=
  let* h := default_hrv in
  let* c := from_vhrv v (Some dtype) window step_V true in
  harvest_run (fst c) cv ci h (h_init (fst c)) xs.

(** reader.py lines 289-299, [get_voltage_step] without a configuration in the file, over binary64: the smallest
    positive difference of neighbouring raw voltages (uint32, so it wraps) times 1e-3. *)
Definition detected_step (volt : list Z) : option f64 :=
  match FileModel.zmin_list (filter (fun d => 0 <? d) (FileModel.udiffs 32 (firstn 2000 volt))) with
  | None => None
  | Some d => Some (fmul (fdec 1 3) (fz d))
  end.
