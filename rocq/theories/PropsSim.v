(** Properties of the simulations: C78 - C81. *)
From Coq Require Import ZArith Bool Reals Lia Lra List String.
From Flocq Require Import Core IEEE754.BinarySingleNaN.
From Verif Require Import PyBase F64 F64x HarvModel HarvSpec CalModel CalSpec CalDefProofs ConvModel ConvSpec ConvProofs ConvStepProofs
  ConvRunProofs ConvEnergyProofs CfgModel CfgSpec CfgDropProofs TgtModel TgtSpec SimModel SimSpec SimProofs SimLoopProofs SimFeedProofs
  SimTgtProofs SimHrvProofs PropsConv PropsCfg.
Import ListNotations.
Open Scope Z_scope.

(** ** C78: the virtual source is its harvester in series with its converter *)

(** Without feedback (switched off, or a harvester without setpoint) the source gives, step by step, what the
    converter gives for the results of the harvester alone. *)
Theorem C78_series k cal xs st outs : ~ asks (vc_cnv k) \/ ~ heeds (vc_hrv k) -> vsm_sim k cal xs = Ok (st, outs) ->
  let zs := feed (h_outputs (vc_hrv k) (map fst xs)) (map snd xs) in
  src_sim (vc_cnv k) cal zs = Ok (vm_src st) /\ vm_hrv st = h_state (vc_hrv k) (map fst xs) /\ List.length outs = List.length xs
  /\ (forall j o, nth_error outs j = Some o ->
        exists z w0 w1, nth_error zs j = Some z /\ src_sim (vc_cnv k) cal (firstn j zs) = Ok w0
          /\ src_step (vc_cnv k) cal w0 (s_V z) (s_I z) (s_Iout z) = Ok (w1, o)).
Proof. exact (series k cal xs st outs). Qed.
Print Assumptions C78_series.

(** It never raises with proper currents, feedback or not, whatever the samples. *)
Theorem C78_total k cal xs : valid_ccfg (vc_cnv k) -> moderate_cal cal -> Forall (fun x => current_ok (snd x)) xs ->
  exists st outs, vsm_sim k cal xs = Ok (st, outs).
Proof. intros V M F. destruct (source_total k cal xs V M F) as (st & outs & E & _). eauto. Qed.
Print Assumptions C78_total.

(** With feedback: the converter works with an operating point that was fed before (or with none yet), ... *)
Theorem C78_held k cal xs st outs : valid_ccfg (vc_cnv k) -> valid_pair (adc_C_A cal) -> heeds (vc_hrv k) -> ~ extrapolates (vc_hrv k) ->
  vsm_sim k cal xs = Ok (st, outs) -> held st = (0, 0) \/ In (held st) (map fst xs).
Proof. intros V P. exact (held_fed k cal V P xs st outs). Qed.
Print Assumptions C78_held.

(** ... the setpoint is the voltage that the converter asked for in the step before, and a new point is taken
    exactly when the curve passes the setpoint in a small step: the closer one of the two. *)
Theorem C78_feedback k cal xs a ioa b iob st0 outs0 st1 o1 st2 o2 : valid_ccfg (vc_cnv k) -> valid_pair (adc_C_A cal) ->
  asks (vc_cnv k) -> heeds (vc_hrv k) -> ~ extrapolates (vc_hrv k) -> vsm_sim k cal xs = Ok (st0, outs0) ->
  iterate_sampling k cal st0 (fst a) (snd a) ioa = Ok (st1, o1) -> iterate_sampling k cal st1 (fst b) (snd b) iob = Ok (st2, o2) ->
  Z.abs (fst a) <= 2 ^ 50 -> Z.abs (fst b) <= 2 ^ 50 -> 0 <= h_vstep (vc_hrv k) <= 2 ^ 50 ->
  src_step (vc_cnv k) cal (vm_src st1) (fz (fst (held st2))) (fz (snd (held st2))) iob = Ok (vm_src st2, o2)
  /\ wanted st1 = fR (V_request (cnv (vm_src st1)))
  /\ let q := wanted st1 in let reach := 4 * h_vstep (vc_hrv k) in
     (crosses (wanted st0) q reach a b -> prefers q reach b a -> held st2 = b)
     /\ (crosses (wanted st0) q reach a b -> prefers q reach a b -> held st2 = a)
     /\ (~ (crosses (wanted st0) q reach a b /\ (prefers q reach b a \/ prefers q reach a b)) -> held st2 = held st1).
Proof. intros V P. exact (follows k cal V P xs a ioa b iob st0 outs0 st1 o1 st2 o2). Qed.
Print Assumptions C78_feedback.

(** With extrapolation the point moves towards the setpoint in all other steps, along the way between the two points of
    the last crossing. *)
Theorem C78_extrapolate k cal xs a ioa b iob st0 outs0 st1 o1 st2 o2 : valid_ccfg (vc_cnv k) -> valid_pair (adc_C_A cal) ->
  asks (vc_cnv k) -> heeds (vc_hrv k) -> extrapolates (vc_hrv k) -> vsm_sim k cal xs = Ok (st0, outs0) ->
  iterate_sampling k cal st0 (fst a) (snd a) ioa = Ok (st1, o1) -> iterate_sampling k cal st1 (fst b) (snd b) iob = Ok (st2, o2) ->
  Z.abs (fst a) <= 2 ^ 50 -> Z.abs (fst b) <= 2 ^ 50 -> Z.abs (fst (held st1)) <= 2 ^ 50 -> 0 <= h_vstep (vc_hrv k) <= 2 ^ 50 ->
  src_step (vc_cnv k) cal (vm_src st1) (fz (fst (held st2))) (fz (snd (held st2))) iob = Ok (vm_src st2, o2)
  /\ wanted st1 = fR (V_request (cnv (vm_src st1)))
  /\ let q := wanted st1 in let reach := 4 * h_vstep (vc_hrv k) in
     (crosses (wanted st0) q reach a b -> prefers q reach b a -> held st2 = b /\ direction st2 = way a b)
     /\ (crosses (wanted st0) q reach a b -> prefers q reach a b -> held st2 = a /\ direction st2 = way a b)
     /\ (crosses (wanted st0) q reach a b -> ~ prefers q reach b a -> ~ prefers q reach a b -> held st2 = held st1 /\ direction st2 = direction st1)
     /\ (~ crosses (wanted st0) q reach a b -> held st2 = towards_R q (direction st1) (held st1) /\ direction st2 = direction st1).
Proof. intros V P. exact (follows_ext k cal V P xs a ioa b iob st0 outs0 st1 o1 st2 o2). Qed.
Print Assumptions C78_extrapolate.

Definition hrv_reg_ex (n : Z) : hcfg :=
  {| h_algorithm := n; h_mode := 1; h_window := 4; h_voltage := 2000000; h_vmin := 0; h_vmax := 5000000;
     h_vstep := 200000; h_ilimit := 100; h_setpoint_n8 := 200; h_interval := 100; h_duration := 10 |}.
Definition curve_ex : list (sample * f64) :=
  map (fun x => (x, fz 1000000)) [(1900000, 50000); (2050000, 40000); (3100000, 30000); (3250000, 20000); (3400000, 10000)].
Definition run_ex (k : vcfg) : option (list Z * sample) :=
  match vsm_sim k cal_ex curve_ex with Ok (st, l) => Some (l, held st) | Err _ => None end.
(** Without feedback the harvester stays at its own 2 V, with feedback it follows the storage (3.2 V). *)
Example C78_ex :
  run_ex (mkVcfg (cfg_ex 7 0 3200000) (hrv_reg_ex 256)) = Some ([2299987; 2299987; 2299987; 2299987; 2299987], (2050000, 40000))
  /\ run_ex (mkVcfg (cfg_ex 21 0 3200000) (hrv_reg_ex 256)) = Some ([2299987; 2299987; 2299987; 2299987; 2299987], (3250000, 20000)).
Proof. vm_compute. split; reflexivity. Qed.

(** ** C79: the closed loop of source and target completes *)

(** With resistor, current or diode target every valid source runs to the end of every recording; there is one
    output per sample, between 0 and 5 V, with a proper current, and it can be stored. *)
Theorem C79_completes m p v v' hv' t dtype window step cv ci xs : pow_ok p -> check_vsrc v = Ok v' ->
  Forall usable_efficiency (vs_LUT_out v) -> check_vhrv (vs_harvester v) = Ok hv' ->
  sensible (vs_harvester v) (Some dtype) window step true -> usual_target m t ->
  moderate_pair cv -> moderate_pair ci -> Forall (fun x => u32 (fst x) /\ u32 (snd x)) xs ->
  exists st l cal, simulate_source m p v t dtype window step cv ci xs = Ok (st, l) /\ default_emu = Ok cal
    /\ List.length l = List.length xs
    /\ Forall (fun y => 0 <= fst y <= 5000000 /\ proper (snd y)
         /\ exists n j, store_source cal y = Ok (n, j) /\ 0 <= n <= 65535
              /\ (Rabs (IZR n - IZR (fst y) / 1000000 * 13107) <= / 2 + / 500000)%R) l.
Proof. exact (simulation m p v v' hv' t dtype window step cv ci xs). Qed.
Print Assumptions C79_completes.

(** A target with constant power divides by the voltage: it fails in every step that ends without output. *)
Theorem C79_power_off m pt k cal cv ci st i x y st' o : Z.testbit (converter_mode (vc_cnv k)) 3 = false ->
  default_emu = Ok cal -> sample_in cv ci x = Ok y ->
  iterate_sampling k cal st (fst y) (snd y) i = Ok (st', o) ->
  is_outputting (cnv (vm_src st')) = false -> drain_n (cnv (vm_src st')) <= 0 ->
  loop_step m (T_pow pt) k cal cv ci st i x = Err ZeroDivisionError.
Proof.
  intros NL E. destruct default_cal as (cal' & E' & MC & Gd & Od & _). rewrite E in E'. assert (cal' = cal) by congruence. subst cal'.
  exact (power_fails m k NL cal MC Gd Od pt cv ci st i x y st' o).
Qed.
Print Assumptions C79_power_off.

Definition no_math : pymath := mkMath (fun _ => Err ValueError) (fun _ => Err ValueError).
Definition volt_ex : cpair := mkPair (fdec 1 5) (fz 0) None.
Definition curr_ex : cpair := mkPair (fdec 1 8) (fz 0) None.
(** A storage that starts below the threshold ends the simulation in its first step. *)
Theorem C79_power_refuted : exists v t x, accepted v = true /\ pow_init (fdec 1 3) (fdec 1 6) = Ok t
  /\ simulate_source no_math ieee_pow v (T_pow t) D_ivsample (Some 0) None volt_ex curr_ex [x] = Err ZeroDivisionError.
Proof.
  assert (A : accepted (src_ex (fz 100) (fz 1) (fz 3500) (fz 2500) (fz 1) true) = true) by (vm_compute; reflexivity).
  assert (K : match pow_init (fdec 1 3) (fdec 1 6) with
              | Ok t => simulate_source no_math ieee_pow (src_ex (fz 100) (fz 1) (fz 3500) (fz 2500) (fz 1) true)
                  (T_pow t) D_ivsample (Some 0) None volt_ex curr_ex [(200000, 100000)] = Err ZeroDivisionError
              | Err _ => False end) by (vm_compute; reflexivity).
  destruct (pow_init (fdec 1 3) (fdec 1 6)) as [t|]; [|destruct K].
  exists (src_ex (fz 100) (fz 1) (fz 3500) (fz 2500) (fz 1) true), t, (200000, 100000).
  split; [exact A|]. split; [reflexivity|exact K].
Qed.
Print Assumptions C79_power_refuted.

Example C79_ex : match res_init (fz 1000) false with
  | Ok t => match simulate_source no_math ieee_pow (src_ex (fz 100) (fz 1) (fz 3000) (fz 2500) (fz 1) true) (T_res t) D_ivsample (Some 0) None
              volt_ex curr_ex [(200000, 100000); (10, 10)] with
            | Ok (_, l) => map (fun y => (fst y, fround (snd y))) l
            | Err _ => []
            end
  | Err _ => [] end = [(2299992, Ok 2299992); (2299992, Ok 2299992)].
Proof. vm_compute. reflexivity. Qed.

(** ** C80: harvesting from a recording of operating points reproduces it *)

(** With the default calibration every stored value comes back unchanged, although the samples go over whole
    microvolts and nanoamperes. *)
Theorem C80_same v v' w s h xs : check_vhrv v = Ok v' -> sensible v (Some D_ivsample) (Some w) s true -> w <= 1 ->
  default_hrv = Ok h -> Forall (fun x => 0 <= fst x <= 2 ^ 18 /\ 0 <= snd x <= 2 ^ 18) xs ->
  simulate_harvester v D_ivsample (Some w) s (adc_V_Sense h) (adc_C_Hrv h) xs = Ok xs.
Proof. exact (harvest_same v v' w s h xs). Qed.
Print Assumptions C80_same.

(** With any other calibration the stored physical values are those of the recording up to half a step of the new
    calibration and 1 uV or 1 nA; negative values become 0. *)
Theorem C80_near v v' w s cv ci xs : check_vhrv v = Ok v' -> sensible v (Some D_ivsample) (Some w) s true -> w <= 1 ->
  usual_pair cv -> usual_pair ci -> Forall (usual_sample cv ci) xs ->
  exists ys, simulate_harvester v D_ivsample (Some w) s cv ci xs = Ok ys /\
    Forall2 (fun x y => 0 <= fst y /\ 0 <= snd y /\ stored_as (fst y) 51200 (10 ^ 6) (physical cv (fst x)) (/ 10000000000)
      /\ stored_as (snd y) 4915200 (10 ^ 9) (physical ci (snd x)) (/ 1000000000000)) xs ys.
Proof. exact (harvest_near v v' w s cv ci xs). Qed.
Print Assumptions C80_near.

(** For every harvester and recording: the results are those of the algorithm, fed with the recording in uV and nA. *)
Theorem C80_algorithm v dtype w s cv ci xs ys : simulate_harvester v dtype w s cv ci xs = Ok ys ->
  exists h c wt zs, default_hrv = Ok h /\ from_vhrv v (Some dtype) w s true = Ok (c, wt)
    /\ Forall2 (fun x z => fint (fmul (raw_to_si cv (fz (fst x)) true) (fz 1000000)) = Ok (fst z)
                        /\ fint (fmul (raw_to_si ci (fz (snd x)) true) (fz 1000000000)) = Ok (snd z)) xs zs
    /\ Forall2 (fun z y => si_to_raw (adc_V_Sense h) (idiv (fz (fst z)) (fz 1000000)) = Ok (fst y)
                        /\ si_to_raw (adc_C_Hrv h) (idiv (fz (snd z)) (fz 1000000000)) = Ok (snd y)) (h_outputs c zs) ys.
Proof. exact (harvest_outputs v dtype w s cv ci xs ys). Qed.
Print Assumptions C80_algorithm.

(** The step of the voltage is found in the file itself when it has no configuration.  The recording is reproduced
    if its voltage rises somewhere (in the first 2000 samples) or is constant there; ... *)
Theorem C80_file_partial v v' w h xs : check_vhrv v = Ok v' -> emulable (vh_algorithm v) -> 0 <= w <= 1 -> default_hrv = Ok h ->
  Forall (fun x => 0 <= fst x <= 2 ^ 18 /\ 0 <= snd x <= 2 ^ 18) xs ->
  let volt := firstn 2000 (map fst xs) in
  rises volt \/ ~ falls volt ->
  simulate_harvester v D_ivsample (Some w) (detected_step (map fst xs)) (adc_V_Sense h) (adc_C_Hrv h) xs = Ok xs.
Proof. exact (file_same v v' w h xs). Qed.
Print Assumptions C80_file_partial.

(** ... if it only falls, neither the harvester nor the source can be simulated with it. *)
Theorem C80_falling_refuted dtype w cv ci xs : Forall (fun x => 0 <= fst x <= 2 ^ 18) xs ->
  let volt := firstn 2000 (map fst xs) in
  ~ rises volt -> falls volt ->
  (forall v, exists e, simulate_harvester v dtype w (detected_step (map fst xs)) cv ci xs = Err e)
  /\ (forall m p v t, exists e, simulate_source m p v t dtype w (detected_step (map fst xs)) cv ci xs = Err e).
Proof.
  intros HX volt R F. split; [intros v; exact (file_falling v dtype w cv ci xs HX R F)|].
  intros m p v t. exact (source_falling m p v t dtype w cv ci xs HX R F).
Qed.
Print Assumptions C80_falling_refuted.

Definition harvest_ex (xs : list (Z * Z)) : res (list (Z * Z)) :=
  let* h := default_hrv in
  simulate_harvester (hrv_ex A_opt 100 (fz 100)) D_ivsample (Some 0) (detected_step (map fst xs)) (adc_V_Sense h) (adc_C_Hrv h) xs.
Example C80_ex : harvest_ex [(153600, 49152); (153601, 1); (99999, 262143)] = Ok [(153600, 49152); (153601, 1); (99999, 262143)]
  /\ harvest_ex [(153600, 49152); (153599, 49152)] = Err ValueError.
Proof. vm_compute. split; reflexivity. Qed.
Example C80_ex_other : simulate_harvester (hrv_ex A_opt 100 (fz 100)) D_ivsample (Some 0) None volt_ex curr_ex [(200000, 100000)]
  = Ok [(102400, 4915)].
Proof. vm_compute. reflexivity. Qed.

(** ** C81: the storage conserves energy *)

(** A step away from the limits changes the square of the voltage by the balance of the powers (2 k P, where k is
    the length of a step over the capacity) and by the square of the change of voltage. *)
Theorem C81_step_partial c cal xs x s0 s1 s2 s3 : valid_ccfg c -> bounded_cal cal -> has_storage c -> calls c cal xs x s0 s1 s2 s3 ->
  let k := (IZR (Constant_us_per_nF_n28 c) / 268435456)%R in
  let V := fR (V_mid s0) in let V' := fR (V_mid s3) in let P := (fR (P_inp s1) - fR (P_out s2))%R in
  (1 <= V)%R -> (1 < V' < IZR (V_intermediate_max_uV c))%R ->
  (Rabs (V' * V' - V * V - (2 * k * P + (V' - V) * (V' - V))) <= / 562949953421312 * (V * V + k * Rabs P))%R.
Proof. exact (storage_energy c cal xs x s0 s1 s2 s3). Qed.
Print Assumptions C81_step_partial.

(** The last term is energy from nowhere.  An empty storage takes up more than a thousand times the energy
    of the input in one step. *)
Theorem C81_energy_refuted : exists c s0 s1 x pi po vm raw, valid_ccfg c /\ V_intermediate_init_uV c = 0 /\ conv_sim c cal_ex [] = Ok s0
  /\ conv_step c cal_ex s0 x = Ok (s1, (pi, po, vm, raw)) /\ 0 < pi - po
  /\ 1000 * (2 * Constant_us_per_nF_n28 c * (pi - po)) < 2 ^ 28 * (vm * vm).
Proof.
  set (c := cfg_ex 7 0 0). set (x := mkCin (fz 2000000) (fz 10000) 0).
  assert (V : valid_ccfg c) by (apply cfg_ex_valid; unfold u32; lia).
  destruct (sim_total c V cal_ex [] cal_ex_bounded) as [s0 H].
  assert (K : match conv_sim c cal_ex [] with Ok s => match conv_step c cal_ex s x with Ok (_, (pi, po, vm, _)) =>
      (0 <? pi - po) && (1000 * (2 * Constant_us_per_nF_n28 c * (pi - po)) <? 2 ^ 28 * (vm * vm)) | Err _ => false end | Err _ => false end = true)
    by (vm_compute; reflexivity).
  rewrite H in K. destruct (conv_step c cal_ex s0 x) as [[s1 [[[pi po] vm] raw]]|] eqn:E; [|discriminate K].
  apply andb_prop in K. destruct K as [K1 K2]. apply Z.ltb_lt in K1. apply Z.ltb_lt in K2.
  exists c, s0, s1, x, pi, po, vm, raw. repeat (split; [first [assumption|reflexivity]|]). exact K2.
Qed.
Print Assumptions C81_energy_refuted.
(** 10.4 uW for 10 us at 1 V: the square of the voltage grows by the energy (2 k P) and a small surplus. *)
Example C81_ex : match (let* s0 := conv_sim (cfg_ex 7 0 1000000) cal_ex [] in conv_step (cfg_ex 7 0 1000000) cal_ex s0 (mkCin (fz 2000000) (fz 10000) 0)) with
  | Ok (_, (pi, po, vm, _)) => (pi - po, vm) | Err _ => (0, 0) end = (10390625000, 1000010).
Proof. vm_compute. reflexivity. Qed.
