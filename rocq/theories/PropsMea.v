(** Properties of the calibration by measurement: C86 - C88. *)
From Coq Require Import String.
From Verif Require Import PyBase MeaModel MeaSpec MeaProofs.
From Coq Require Import QArith Permutation.
Open Scope Q_scope.

(** The measured points (raw value, reference value). *)
Notation points := (map (fun p => (shepherd_raw p, reference_si p))).
Notation raws := (map shepherd_raw).
Notation positive_raws := (Forall (fun p => 0 < shepherd_raw p)).

(** Three points near the line 2 x + 1, and the device that is exactly on it. *)
Definition near_line : list mpair := [mkMeas 10 21; mkMeas 20 (4101 # 100); mkMeas 30 61].
Definition exact_line : list mpair := [mkMeas 10 21; mkMeas 20 41; mkMeas 30 61].
Definition same_point : list mpair := [mkMeas 10 21; mkMeas 10 21].

(** ** C86: an accepted calibration explains the measurement *)

(** It rises, no other line is nearer to the points, and at most a thousandth of the spread of
    the references is left over. *)
Theorem C86_accepted data c : meas_to_cal data = Ok c ->
  0 < gain c /\ best_line (gain c) (offset c) (points data) /\
  forall s, spread s (points data) -> off_line (gain c) (offset c) (points data) <= left_over * s.
Proof. exact (accepted data c). Qed.
Print Assumptions C86_accepted.

(** Only measurements that no rising line explains are rejected (and rejected with ValueError). *)
Theorem C86_complete data g o s : two_raws (points data) -> positive_raws data ->
  0 < g -> spread s (points data) -> 0 < s -> off_line g o (points data) <= left_over * s ->
  exists c, meas_to_cal data = Ok c.
Proof. exact (MeaProofs.complete data g o s). Qed.
Print Assumptions C86_complete.

Theorem C86_rejects data e : meas_to_cal data = Err e -> e = ValueError.
Proof. exact (meas_err data e). Qed.
Print Assumptions C86_rejects.

(** With two different raw values the measurement leaves no choice. *)
Theorem C86_unique data c g o : two_raws (points data) -> meas_to_cal data = Ok c ->
  best_line g o (points data) -> g == gain c /\ o == offset c.
Proof. exact (MeaProofs.unique data c g o). Qed.
Print Assumptions C86_unique.

(** Without, there is one: the same point measured twice is accepted with some line through it.
    Here the device is 2 x + 1, and the line 21/20 x + 21/2. *)
Theorem C86_repeated_refuted : exists data c g o, positive_raws data /\
  on_line g o (points data) /\ 0 < g /\ meas_to_cal data = Ok c /\ ~ gain c == g /\ ~ offset c == o.
Proof.
  exists same_point, (mkPair (fst (polyfit1 same_point)) (snd (polyfit1 same_point)) None), 2, 1.
  repeat split; try discriminate; try (repeat constructor); vm_compute; reflexivity.
Qed.
Print Assumptions C86_repeated_refuted.

Example C86_near : exists c, meas_to_cal near_line = Ok c /\ gain c == 2 /\ offset c == 301 # 300.
Proof. vm_compute. eexists. split; [reflexivity |]. split; reflexivity. Qed.

Example C86_near_two : two_raws (points near_line).
Proof. exists (10, 21), (30, 61). repeat split; [now left | now right; right; left | discriminate]. Qed.

(** A bent characteristic, a falling one and a constant one are rejected. *)
Example C86_bent : is_ok (meas_to_cal [mkMeas 1 1; mkMeas 2 4; mkMeas 3 9]) = false.
Proof. vm_compute. reflexivity. Qed.
Example C86_falling : is_ok (meas_to_cal [mkMeas 1 3; mkMeas 2 2; mkMeas 3 1]) = false.
Proof. vm_compute. reflexivity. Qed.
Example C86_constant : is_ok (meas_to_cal [mkMeas 1 3; mkMeas 2 3; mkMeas 3 3]) = false.
Proof. vm_compute. reflexivity. Qed.
Example C86_negative : is_ok (meas_to_cal [mkMeas 0 1; mkMeas 2 5]) = false.
Proof. vm_compute. reflexivity. Qed.
Example C86_single : is_ok (meas_to_cal [mkMeas 1 3]) = false.
Proof. vm_compute. reflexivity. Qed.

(** ** C87: calibrating a linear device recovers its gain and offset *)

Theorem C87_linear data g o : two_raws (points data) -> positive_raws data -> 0 < g ->
  on_line g o (points data) ->
  exists c, meas_to_cal data = Ok c /\ gain c == g /\ offset c == o.
Proof. exact (MeaProofs.linear data g o). Qed.
Print Assumptions C87_linear.

(** Errors of the reference values are not amplified at the measured raw values. *)
Theorem C87_noise data c g o : two_raws (points data) -> meas_to_cal data = Ok c ->
  apart (gain c) (offset c) g o (raws data) <= off_line g o (points data).
Proof. exact (noise data c g o). Qed.
Print Assumptions C87_noise.

(** The order of the measurements does not matter. *)
Theorem C87_order data data' c : Permutation data data' -> meas_to_cal data = Ok c ->
  exists c', meas_to_cal data' = Ok c' /\ gain c' == gain c /\ offset c' == offset c.
Proof. exact (MeaProofs.order data data' c). Qed.
Print Assumptions C87_order.

Example C87_exact : exists c, meas_to_cal exact_line = Ok c /\ gain c == 2 /\ offset c == 1.
Proof. vm_compute. eexists. split; [reflexivity |]. split; reflexivity. Qed.

(** The disturbed point is 1/100 off, the calibration 1/300 at each of the three raw values. *)
Example C87_near : off_line 2 1 (points near_line) == 1 # 10000 /\
  apart 2 (301 # 300) 2 1 (raws near_line) == 1 # 30000.
Proof. split; vm_compute; reflexivity. Qed.

(** ** C88: each channel of a calibrated cape comes from its own measurement *)

Theorem C88_channels {C} dh de (m : meas_cape C) c : cape_to_cal dh de m = Ok c ->
  (forall h, mc_harvester m = Some h ->
     Forall2 (fun d p => meas_to_cal d = Ok p)
       [m_dac_V_Hrv h; m_dac_V_Sim h; m_adc_V_Sense h; m_adc_C_Hrv h]
       (let r := cc_harvester c in [dac_V_Hrv r; dac_V_Sim r; adc_V_Sense r; adc_C_Hrv r])) /\
  (mc_harvester m = None -> cc_harvester c = dh) /\
  (forall e, mc_emulator m = Some e ->
     Forall2 (fun d p => meas_to_cal d = Ok p)
       [m_dac_V_A e; m_dac_V_B e; m_adc_C_A e; m_adc_C_B e]
       (let r := cc_emulator c in [dac_V_A r; dac_V_B r; adc_C_A r; adc_C_B r])) /\
  (mc_emulator m = None -> cc_emulator c = de) /\
  cc_cape c = mc_cape m /\ cc_host c = mc_host m.
Proof. exact (cape_pairs dh de m c). Qed.
Print Assumptions C88_channels.

(** A cape of linear channels is calibrated to the lines of its channels. *)
Theorem C88_linear m lines : Forall2 (fun d (l : Q * Q) =>
    two_raws (points d) /\ positive_raws d /\ 0 < fst l /\ on_line (fst l) (snd l) (points d))
    [m_dac_V_Hrv m; m_dac_V_Sim m; m_adc_V_Sense m; m_adc_C_Hrv m] lines ->
  exists c, hrv_to_cal m = Ok c /\
    Forall2 (fun p (l : Q * Q) => gain p == fst l /\ offset p == snd l)
      [dac_V_Hrv c; dac_V_Sim c; adc_V_Sense c; adc_C_Hrv c] lines.
Proof. exact (linear_hrv m lines). Qed.
Print Assumptions C88_linear.

Theorem C88_linear_emu m lines : Forall2 (fun d (l : Q * Q) =>
    two_raws (points d) /\ positive_raws d /\ 0 < fst l /\ on_line (fst l) (snd l) (points d))
    [m_dac_V_A m; m_dac_V_B m; m_adc_C_A m; m_adc_C_B m] lines ->
  exists c, emu_to_cal m = Ok c /\
    Forall2 (fun p (l : Q * Q) => gain p == fst l /\ offset p == snd l)
      [dac_V_A c; dac_V_B c; adc_C_A c; adc_C_B c] lines.
Proof. exact (linear_emu m lines). Qed.
Print Assumptions C88_linear_emu.

(** One bad channel spoils its part, and nothing else does. *)
Theorem C88_bad_hrv m : (exists e, hrv_to_cal m = Err e) <->
  exists d e, In d [m_dac_V_Hrv m; m_dac_V_Sim m; m_adc_V_Sense m; m_adc_C_Hrv m] /\
    meas_to_cal d = Err e.
Proof. exact (bad_hrv m). Qed.
Print Assumptions C88_bad_hrv.

Theorem C88_bad_emu m : (exists e, emu_to_cal m = Err e) <->
  exists d e, In d [m_dac_V_A m; m_dac_V_B m; m_adc_C_A m; m_adc_C_B m] /\ meas_to_cal d = Err e.
Proof. exact (bad_emu m). Qed.
Print Assumptions C88_bad_emu.

(** The unit of a channel, which every default channel names, gets lost by calibrating. *)
Theorem C88_unit_refuted : exists m c u,
  cape_to_cal (C := nat) (mkHrv u u u u) (mkEmu u u u u) m = Ok c /\
  unit u = Some "V"%string /\ unit (dac_V_Hrv (cc_harvester c)) = None.
Proof.
  exists (mkMCape None None (Some (mkMHrv exact_line exact_line exact_line exact_line)) None).
  vm_compute. eexists. exists (mkPair 1 0 (Some "V"%string)). split; [reflexivity |]. split; reflexivity.
Qed.
Print Assumptions C88_unit_refuted.

Example C88_cape : exists c,
  cape_to_cal (C := nat) (mkHrv (mkPair 1 0 None) (mkPair 1 0 None) (mkPair 1 0 None) (mkPair 1 0 None))
    (mkEmu (mkPair 1 0 None) (mkPair 1 0 None) (mkPair 1 0 None) (mkPair 1 0 None))
    (mkMCape (Some 7%nat) None None (Some (mkMEmu exact_line near_line exact_line near_line))) = Ok c /\
  cc_cape c = Some 7%nat /\ gain (dac_V_Hrv (cc_harvester c)) == 1 /\
  offset (dac_V_A (cc_emulator c)) == 1 /\ offset (dac_V_B (cc_emulator c)) == 301 # 300.
Proof. vm_compute. eexists. split; [reflexivity |]. repeat split. Qed.
