(** The energies that the simulations return: virtual_source_simulation.py and virtual_harvester_simulation.py of
    shepherd_core/shepherd_core/vsource, the loops over the buffers of the recording.

    [np_sum] is numpy's sum of an array of floats; its order of additions depends on the version and the
    machine and is a parameter.  [size] is [samples_per_buffer] of the reader (10000), [dt] its [sample_interval_s].
    Not modelled: progress bars, plots and the monitoring of internals. *)
From Coq Require Import ZArith Bool List.
From Verif Require Import PyBase F64 HarvModel CalModel ConvModel CfgModel TgtModel SimModel.
Import ListNotations.
Open Scope Z_scope.

(** reader.py lines 216-238, [read_buffers(is_raw=True)] with its defaults (see FileModel.read_buffers), for
    pairs of voltage and current. *)
Definition buffers {A} (size : nat) (xs : list A) : list (list A) :=
  map (fun k => firstn size (skipn (k * size) xs)) (seq 0 (length xs / size)).

(** Element by element, the first exception ends it. *)
Fixpoint all_ok {A B} (f : A -> res B) (l : list A) : res (list B) :=
  match l with
  | [] => Ok []
  | x :: l => let* y := f x in let* ys := all_ok f l in Ok (y :: ys)
  end.

Section Sums.
Context (np_sum : list f64 -> f64).

(** virtual_source_simulation.py line 106, virtual_harvester_simulation.py line 65: the energy of one buffer. *)
Definition buffer_energy (dt : f64) (ys : list (f64 * f64)) : f64 :=
  fmul (fmul (np_sum (map (fun y => fmul (fst y) (snd y)) ys)) (fdec 1 15)) dt.

(** virtual_source_simulation.py lines 74-110: the loop over the buffers.  [i] is [i_out_nA], [e] is [e_out_Ws];
    with [out] the points are stored as well.  Results: energy and what is in the file. *)
Fixpoint source_buffers (m : pymath) (t : target) (k : vcfg) (cal : cal_emu) (cv ci : cpair) (dt : f64) (out : bool)
    (st : vsm) (i e : f64) (bs : list (list (Z * Z))) : res (f64 * list (Z * Z)) :=
  match bs with
  | [] => Ok (e, [])
  | b :: bs =>
      let* r := loop_run m t k cal cv ci st i b in
      let ys := snd r in
      let e' := fadd e (buffer_energy dt (map (fun y => (fz (fst y), snd y)) ys)) in
      let* w := (if out then all_ok (store_source cal) ys else Ok []) in
      let* u := source_buffers m t k cal cv ci dt out (fst r) (last (map snd ys) i) e' bs in
      Ok (fst u, w ++ snd u)
  end.
(** Lines 26-112 and the return value. *)
Definition source_energy (m : pymath) (p : pypow) (v : vsrc) (t : target) (dtype : edtype) (window : option Z)
    (step_V : option f64) (cv ci : cpair) (size : nat) (dt : f64) (out : bool) (xs : list (Z * Z)) : res (f64 * list (Z * Z)) :=
  let* cal := default_emu in
  let* k := vsm_config p v dtype window step_V false in
  let* st := vsm_init k cal in
  source_buffers m t k cal cv ci dt out st (fz 0) (fz 0) (buffers size xs).

(** virtual_harvester_simulation.py lines 58-64: the samples of one buffer. *)
Fixpoint harvest_points (c : hcfg) (cv ci : cpair) (s : hst) (xs : list (Z * Z)) : res (hst * list sample) :=
  match xs with
  | [] => Ok (s, [])
  | x :: xs =>
      let* y := sample_in cv ci x in
      let (s', z) := ivcurve_sample c s y in
      let* u := harvest_points c cv ci s' xs in
      Ok (fst u, z :: snd u)
  end.
(** Lines 55-69: the loop over the buffers. *)
Fixpoint harvest_buffers (c : hcfg) (cv ci : cpair) (h : cal_hrv) (dt : f64) (out : bool) (s : hst) (e : f64)
    (bs : list (list (Z * Z))) : res (f64 * list (Z * Z)) :=
  match bs with
  | [] => Ok (e, [])
  | b :: bs =>
      let* r := harvest_points c cv ci s b in
      let ys := snd r in
      let e' := fadd e (buffer_energy dt (map (fun y => (fz (fst y), fz (snd y))) ys)) in
      let* w := (if out then all_ok (sample_out (adc_V_Sense h) (adc_C_Hrv h)) ys else Ok []) in
      let* u := harvest_buffers c cv ci h dt out (fst r) e' bs in
      Ok (fst u, w ++ snd u)
  end.
(** Lines 24-72. *)
Definition harvester_energy (v : vhrv) (dtype : edtype) (window : option Z) (step_V : option f64) (cv ci : cpair)
    (size : nat) (dt : f64) (out : bool) (xs : list (Z * Z)) : res (f64 * list (Z * Z)) :=
  let* h := default_hrv in
  let* c := from_vhrv v (Some dtype) window step_V true in
  harvest_buffers (fst c) cv ci h dt out (h_init (fst c)) (fz 0) (buffers size xs).
End Sums.
