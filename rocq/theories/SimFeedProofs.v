(** Proofs about the simulations, part 3: the harvester follows the voltage the converter asks for. *)
From Coq Require Import ZArith Bool Reals Lia Lra Psatz List.
From Flocq Require Import Core IEEE754.BinarySingleNaN.
From RecordUpdate Require Import RecordSet.
From Verif Require Import PyBase F64 F64x HarvModel HarvSpec HarvOptProofs HarvVocProofs HarvCvProofs CalModel CalSpec CalProofs
  CalHwProofs ConvModel ConvSpec ConvProofs ConvStepProofs ConvRunProofs ConvSrcProofs CfgModel TgtModel TgtSpec
  SimModel SimSpec SimProofs SimLoopProofs.
Import RecordSetNotations ListNotations.
Open Scope Z_scope.

(** The stage with a setpoint that was asked for. *)
Lemma cvf_only_vars f s s' x : cv_vars s = cv_vars s' ->
  cv_vars (fst (ivcurve_2_cv_f f s x)) = cv_vars (fst (ivcurve_2_cv_f f s' x))
  /\ snd (ivcurve_2_cv_f f s x) = snd (ivcurve_2_cv_f f s' x).
Proof.
  destruct x as [v i]. unfold cv_vars. intros H. injection H as H1 H2 H3 H4 H5 H6 H7 H8 H9.
  unfold ivcurve_2_cv_f; cbv zeta. rewrite H1, H2, H3, H4, H5, H6, H7, H8, H9.
  set (A := flt (fz v) f). set (B := flt (fabs (fsub (fz v) f)) _). set (C := flt (fabs (fsub (fz v) f)) _).
  set (D := flt (fabs (fsub (fz (voltage_last s')) f)) _). set (E := flt (fabs (fsub (fz (voltage_last s')) f)) _).
  set (F := flt (fz (voltage_hold s')) f). clearbody A B C D E F.
  repeat match goal with |- context [if ?b then _ else _] => destruct b eqn:? end; cbn; split; congruence.
Qed.
Lemma cvf_stage c f s x : cv_based c ->
  snd (ivcurve_sample_f c f s x) = snd (ivcurve_2_cv_f f s x)
  /\ cv_vars (fst (ivcurve_sample_f c f s x)) = cv_vars (fst (ivcurve_2_cv_f f s x)).
Proof.
  unfold cv_based, runs_cv, runs_voc, runs_po, ivcurve_sample_f, HRV_MPPT_OPT, HRV_MPPT_PO, HRV_MPPT_VOC, HRV_CV. intros H.
  destruct (Z.leb_spec (h_window c) 1); [lia|].
  destruct (h_algorithm c >=? 2 ^ 14) eqn:E1; [lia|].
  destruct (h_algorithm c >=? 2 ^ 13) eqn:E2.
  { destruct (cvf_only_vars f (tick_interval c s) s x) as [A B]; [reflexivity|]. auto. }
  destruct (h_algorithm c >=? 2 ^ 12) eqn:E3.
  { destruct (cvf_only_vars f (voc_track c s x) s x) as [A B]; [apply voc_track_vars|]. auto. }
  destruct (h_algorithm c >=? 2 ^ 8) eqn:E4; [auto|lia].
Qed.
Lemma cvf_call f s x :
  let s' := fst (ivcurve_2_cv_f f s x) in let y := snd (ivcurve_2_cv_f f s x) in
  y = (voltage_hold s', current_hold s') /\ (voltage_last s', current_last s') = x
  /\ compare_last s' = flt (fz (fst x)) f /\ step_x4 s' = step_x4 s /\ lin_extrapolation s' = lin_extrapolation s.
Proof.
  destruct x as [v i]. unfold ivcurve_2_cv_f; cbv zeta. cbn [fst].
  set (A := flt (fz v) f). set (B := flt (fabs (fsub (fz v) f)) _). set (C := flt (fabs (fsub (fz v) f)) _).
  set (D := flt (fabs (fsub (fz (voltage_last s)) f)) _). set (E := flt (fabs (fsub (fz (voltage_last s)) f)) _).
  set (F := flt (fz (voltage_hold s)) f). clearbody A B C D E F.
  repeat match goal with |- context [if ?b then _ else _] => destruct b eqn:? end; cbn; repeat split; auto.
Qed.
(** Without extrapolation. *)
Lemma cvf_noext f s x : lin_extrapolation s = false -> let a := (voltage_last s, current_last s) in
  snd (ivcurve_2_cv_f f s x) =
    (if negb (Bool.eqb (flt (fz (fst x)) f) (compare_last s)) && (Z.abs (fst x - fst a) <? step_x4 s) then
       let d v := fabs (fsub (fz v) f) in
       if flt (d (fst x)) (d (fst a)) && flt (d (fst x)) (fz (step_x4 s)) then x
       else if flt (d (fst a)) (d (fst x)) && flt (d (fst a)) (fz (step_x4 s)) then a
       else (voltage_hold s, current_hold s)
     else (voltage_hold s, current_hold s)).
Proof.
  destruct x as [v i]. intros N. unfold ivcurve_2_cv_f; cbv zeta. cbn [fst]. rewrite N.
  set (A := flt (fz v) f). set (B := flt (fabs (fsub (fz v) f)) _). set (C := flt (fabs (fsub (fz v) f)) _).
  set (D := flt (fabs (fsub (fz (voltage_last s)) f)) _). set (E := flt (fabs (fsub (fz (voltage_last s)) f)) _).
  clearbody A B C D E. destruct (negb (Bool.eqb A (compare_last s)) && (Z.abs (v - voltage_last s) <? step_x4 s)); [|reflexivity].
  destruct (B && C); [reflexivity|]. destruct (D && E); reflexivity.
Qed.

(** The comparisons in terms of numbers. *)
Lemma side_R v f : Z.abs v <= 2 ^ 50 -> fin f = true -> (flt (fz v) f = true <-> (IZR v < fR f)%R).
Proof. intros H F. destruct (fz_ok v) as [A B]; [lia|]. rewrite flt_R by assumption. rewrite B. reflexivity. Qed.
Lemma rnd_Rabs r : Rabs (rnd r) = rnd (Rabs r).
Proof. unfold Rabs at 2. destruct (Rcase_abs r). - rewrite rnd_opp. apply Rabs_left1. rewrite <- rnd_0. apply rnd_le. lra.
  - apply Rabs_pos_eq. apply rnd_nonneg. lra. Qed.
Lemma dist_R v f : Z.abs v <= 2 ^ 50 -> fin f = true -> (Rabs (fR f) <= bpow radix2 50)%R ->
  fin (fabs (fsub (fz v) f)) = true /\ fR (fabs (fsub (fz v) f)) = rnd (Rabs (IZR v - fR f)).
Proof.
  intros H F B. destruct (fz_ok v) as [Fv Rv]; [lia|].
  destruct (sub_mag (fz v) f 50 Fv F) as (A & E & _); [|exact B|lia|].
  { rewrite Rv, <- abs_IZR. change (bpow radix2 50) with (IZR (2 ^ 50)). now apply IZR_le. }
  rewrite fabs_fin, fabs_R, E, Rv, rnd_Rabs. auto.
Qed.

Section Cfg.
Variable k : vcfg.
Variable cal : cal_emu.
Let c := vc_cnv k.
Let h := vc_hrv k.
Hypothesis V : valid_ccfg c.
Hypothesis Vp : valid_pair (adc_C_A cal).

(** The voltage that is asked for is an ordinary number. *)
Definition asked (s : conv) : Prop := fin (V_request s) = true /\ (Rabs (fR (V_request s)) <= bpow radix2 50)%R.

Lemma rq_step s x s' t : inv s -> asked s -> conv_step c cal s x = Ok (s', t) -> asked s'.
Proof.
  intros I Q H. destruct (step_split c cal s x s' t H) as (s1 & s2 & s3 & pi & po & vm & raw & H1 & H2 & H3 & H4 & ->).
  assert (E1 : asked s1 /\ vok (V_mid s1) /\ V_out s1 = V_out s /\ residue s1 = residue s /\ drain_n s1 = drain_n s).
  { pose proof (i_mid s I) as Vm. destruct (enable_boost c) eqn:Bo; [|destruct (enable_storage c) eqn:St].
    - destruct (inp_boost c V s (in_V x) (in_I x) Bo) as (e & p & G). cbv zeta in G. destruct G as (_ & E & _).
      rewrite H1 in E. assert (X : s1 = after_inp c s (in_V x) p (V_mid s) (V_request s)) by congruence. subst s1. cbn [after_inp V_request V_mid V_out residue drain_n]. auto.
    - destruct (inp_diode c V s (in_V x) (in_I x) Bo St Vm) as (p & rq & E & _ & _ & _ & G1 & G2).
      rewrite H1 in E. assert (X : s1 = after_inp c s (in_V x) p (V_mid s) rq) by congruence. subst s1. cbn [after_inp V_request V_mid V_out residue drain_n].
      split; [|auto]. unfold asked. cbn [after_inp V_request]. destruct (feedback_to_hrv c).
      + destruct (G1 eq_refl) as [Fr Rr]. split; [exact Fr|]. rewrite Rr. destruct (res_drop_ok c V (in_I x)) as (_ & Ed & Bd).
        rewrite Ed in Bd. destruct Vm as [_ Bm]. destruct (vc_Vin_drop c V) as [D1 D2].
        change (IZR (2 ^ 32)) with 4294967296%R in Bm. change (P2 42) with 4398046511104%R in Bd.
        assert (D3 : (0 <= IZR (V_input_drop_uV c) <= 4294967296)%R) by (split; apply IZR_le; lia).
        set (d := V_drop_R c (in_I x)) in *. clearbody d. set (m := fR (V_mid s)) in *. clearbody m.
        apply rnd_abs; [lia|]. change (bpow radix2 50) with 1125899906842624%R.
        assert (Y : (Rabs (rnd (m + d)) <= bpow radix2 43)%R).
        { apply rnd_abs; [lia|]. change (bpow radix2 43) with 8796093022208%R. apply Rabs_le. lra. }
        change (bpow radix2 43) with 8796093022208%R in Y. apply Rabs_le_inv in Y. apply Rabs_le. lra.
      + rewrite (G2 eq_refl). exact Q.
    - destruct (inp_direct c V s (in_V x) (in_I x) Bo St) as (p & E & _).
      rewrite H1 in E. assert (X : s1 = after_inp c s (in_V x) p (input_voltage c (in_V x)) (V_request s)) by congruence. subst s1. cbn [after_inp V_request V_mid V_out residue drain_n].
      split; [exact Q|]. split; [apply (input_voltage_vok c V)|auto]. }
  destruct E1 as (Q1 & Vm1 & EO & ER & ED).
  assert (VO : vok (V_out s1)) by (rewrite EO; apply I). assert (RO : rok (residue s1)) by (rewrite ER; apply I).
  assert (DO : 0 <= drain_n s1) by (rewrite ED; apply I).
  destruct (out_inv c V cal s1 _ _ _ Vp Vm1 VO RO DO H2) as (q & r & -> & _).
  destruct (cap_inv c V _ _ _ H3) as (v & -> & _). destruct (states_inv c cal _ _ _ H4) as [-> _]. exact Q1.
Qed.

(** One call of the harvester inside the source. *)
Lemma hrv_step st x io st' o : heeds h -> iterate_sampling k cal st (fst x) (snd x) io = Ok (st', o) ->
  let s := vm_hrv st in let s' := vm_hrv st' in
  src_step c cal (vm_src st) (fz (fst (held st'))) (fz (snd (held st'))) io = Ok (vm_src st', o)
  /\ (voltage_last s', current_last s') = x /\ step_x4 s' = step_x4 s /\ lin_extrapolation s' = lin_extrapolation s
  /\ compare_last s' = match vm_set st with None => fst x <? voltage_set s | Some f => flt (fz (fst x)) f end
  /\ held st' = match vm_set st with None => snd (ivcurve_2_cv s x) | Some f => snd (ivcurve_2_cv_f f s x) end
  /\ vm_set st' = if feedback_to_hrv c then Some (V_request (cnv (vm_src st'))) else vm_set st.
Proof.
  intros Hb H. destruct (iterate_split k cal _ _ _ _ _ _ H) as (E1 & E2 & E3). cbv zeta in E1, E2. fold c in E2, E3. fold h in E1, E2.
  cbv zeta. unfold held. rewrite <- surjective_pairing in E1, E2. destruct (vm_set st) as [f|].
  - destruct (cvf_stage h f (vm_hrv st) x Hb) as [S1 S2]. destruct (cvf_call f (vm_hrv st) x) as (C1 & C2 & C3 & C4 & C5).
    apply cv_vars_hold in S2 as (V1 & V2 & V3 & V4 & V5 & _ & _ & V8 & V9). rewrite <- E1 in *. rewrite V1, V2, V3, V4, V5, V8, V9.
    rewrite S1, C1 in E2. rewrite C1. cbn [fst snd] in *. repeat (split; [assumption|]). split; [reflexivity|exact E3].
  - destruct (cv_stage h (vm_hrv st) x Hb) as [S1 S2]. destruct (cv_call (vm_hrv st) x) as (C1 & C2 & C3 & C4 & C5 & _).
    apply cv_vars_hold in S2 as (V1 & V2 & V3 & V4 & V5 & _ & _ & V8 & V9). rewrite <- E1 in *. rewrite V1, V2, V3, V4, V5, V8, V9.
    rewrite S1, C1 in E2. rewrite C1. cbn [fst snd] in *. repeat (split; [assumption|]). split; [reflexivity|exact E3].
Qed.

(** Its extrapolation with a setpoint that was asked for. *)
Lemma cvf_ext f s b : lin_extrapolation s = true -> let a := (voltage_last s, current_last s) in
  let d v := fabs (fsub (fz v) f) in
  let s' := fst (ivcurve_2_cv_f f s b) in let dir := (voltage_delta s, current_delta s) in let y := (voltage_hold s, current_hold s) in
  (snd (ivcurve_2_cv_f f s b), (voltage_delta s', current_delta s')) =
    (if negb (Bool.eqb (flt (fz (fst b)) f) (compare_last s)) && (Z.abs (fst b - fst a) <? step_x4 s) then
       if flt (d (fst b)) (d (fst a)) && flt (d (fst b)) (fz (step_x4 s)) then (b, way a b)
       else if flt (d (fst a)) (d (fst b)) && flt (d (fst a)) (fz (step_x4 s)) then (a, way a b)
       else (y, dir)
     else (if flt (fz (fst y)) f then if 0 <? fst dir then forth dir y else back dir y
           else if 0 <? fst dir then back dir y else forth dir y, dir)).
Proof.
  destruct b as [v i]. intros N. unfold ivcurve_2_cv_f, way, forth, back; cbv zeta. cbn [fst snd]. rewrite N.
  set (A := flt (fz v) f). set (B := flt (fabs (fsub (fz v) f)) _). set (C := flt (fabs (fsub (fz v) f)) _).
  set (D := flt (fabs (fsub (fz (voltage_last s)) f)) _). set (E := flt (fabs (fsub (fz (voltage_last s)) f)) _).
  set (F := flt (fz (voltage_hold s)) f). clearbody A B C D E F.
  destruct (negb (Bool.eqb A (compare_last s)) && (Z.abs (v - voltage_last s) <? step_x4 s)).
  - destruct (B && C); [reflexivity|]. destruct (D && E); reflexivity.
  - rewrite !Z.gtb_ltb. destruct F, (0 <? voltage_delta s); cbn [Bool.eqb]; cbn; try reflexivity;
      (f_equal; f_equal; match goal with |- (if ?y <? ?x then _ else _) = _ => destruct (Z.ltb_spec y x); lia end).
Qed.
Lemma ext_dir st x io st' o f : heeds h -> vm_set st = Some f -> iterate_sampling k cal st (fst x) (snd x) io = Ok (st', o) ->
  direction st' = (let s' := fst (ivcurve_2_cv_f f (vm_hrv st) x) in (voltage_delta s', current_delta s')).
Proof.
  intros Hb Hf H. destruct (iterate_split k cal _ _ _ _ _ _ H) as (E1 & _ & _). cbv zeta in E1. fold h in E1.
  rewrite <- surjective_pairing in E1. rewrite Hf in E1. destruct (cvf_stage h f (vm_hrv st) x Hb) as [_ S2].
  apply cv_vars_hold in S2 as (_ & _ & _ & _ & _ & V6 & V7 & _). rewrite <- E1 in V6, V7. unfold direction. cbv zeta. now rewrite V6, V7.
Qed.

(** What holds after every run. *)
Lemma run_facts xs st outs : heeds h -> vsm_sim k cal xs = Ok (st, outs) ->
  inv (cnv (vm_src st)) /\ asked (cnv (vm_src st))
  /\ step_x4 (vm_hrv st) = 4 * h_vstep h /\ lin_extrapolation (vm_hrv st) = Z.testbit (h_mode h) 2
  /\ (voltage_last (vm_hrv st), current_last (vm_hrv st)) = last (map fst xs) (0, 0)
  /\ (vm_set st = None \/ (feedback_to_hrv c = true /\ vm_set st = Some (V_request (cnv (vm_src st)))))
  /\ (asks c -> xs <> [] -> vm_set st = Some (V_request (cnv (vm_src st)))).
Proof.
  intros Hb. revert st outs. induction xs as [|x xs IH] using rev_ind; intros st outs H.
  - unfold vsm_sim, vsm_init, src_init in H. fold c h in H. destruct (conv_init c cal) as [s|] eqn:E; [|discriminate H].
    cbn [bind vsm_run] in H. assert (X : st = mkVsm (mkSrc s (fz 0) (fz 0)) (h_init h) None) by congruence. subst st.
    cbn [vm_src vm_hrv vm_set cnv]. split; [now apply (init_inv c V cal)|]. split.
    + unfold conv_init in E. destruct (conv_uV_to_dac_raw cal _) as [n|]; [|discriminate E]. cbn [bind] in E.
      apply (f_equal (fun r => match r with Ok a => V_request a | Err _ => fz 0 end)) in E. cbn [V_request] in E.
      unfold asked. rewrite <- E. destruct (vc_init c V) as [D1 D2].
      destruct (fz_ok (V_intermediate_init_uV c)) as [A B]; [lia|]. split; [exact A|]. rewrite B, <- abs_IZR.
      change (bpow radix2 50) with (IZR (2 ^ 50)). apply IZR_le. lia.
    + cbn. repeat split; auto. congruence.
  - destruct (sim_snoc_v k cal _ _ _ _ H) as (st0 & outs0 & o & H0 & H1 & ->).
    destruct (IH st0 outs0 H0) as (I & Q & S4 & LE & _ & SET & _).
    destruct (hrv_step _ _ _ _ _ Hb H1) as (F1 & F2 & F3 & F4 & _ & _ & F7).
    destruct (src_split c cal _ _ _ _ _ _ F1) as (raw & pi & po & vm & vraw & CS & _).
    split; [exact (proj1 (step_inv c V cal _ _ _ _ Vp I CS))|]. split; [exact (rq_step _ _ _ _ I Q CS)|].
    split; [now rewrite F3|]. split; [now rewrite F4|].
    split; [rewrite map_app; cbn [map]; rewrite last_last; exact F2|].
    rewrite F7. split.
    + destruct (feedback_to_hrv c) eqn:FB; [right; auto|]. destruct SET as [->|[X _]]; [now left|]. discriminate X.
    + intros A _. rewrite feedback_bit. unfold asks in A. now rewrite A.
Qed.

(** The point that is used was fed, or nothing is used yet. *)
Lemma held_fed xs st outs : heeds h -> ~ extrapolates h -> vsm_sim k cal xs = Ok (st, outs) ->
  held st = (0, 0) \/ In (held st) (map fst xs).
Proof.
  intros Hb He. revert st outs. induction xs as [|x xs IH] using rev_ind; intros st outs H.
  - unfold vsm_sim, vsm_init in H. destruct (src_init _ cal) as [w|]; [|discriminate H]. cbn [bind vsm_run] in H.
    assert (X : st = mkVsm w (h_init (vc_hrv k)) None) by congruence. subst st. now left.
  - destruct (sim_snoc_v k cal _ _ _ _ H) as (st0 & outs0 & o & H0 & H1 & ->).
    destruct (run_facts _ _ _ Hb H0) as (_ & _ & S4 & LE & LA & SET & _).
    destruct (hrv_step _ _ _ _ _ Hb H1) as (_ & _ & _ & _ & _ & F6 & _).
    assert (N : lin_extrapolation (vm_hrv st0) = false).
    { rewrite LE. unfold extrapolates in He. destruct (Z.testbit (h_mode h) 2); congruence. }
    assert (G : held st = held st0 \/ held st = fst x \/ held st = (voltage_last (vm_hrv st0), current_last (vm_hrv st0))).
    { rewrite F6. destruct (vm_set st0) as [f|].
      - rewrite (cvf_noext f _ _ N). cbv zeta.
        repeat match goal with |- context [if ?b then _ else _] => destruct b end; auto.
      - pose proof (cv_call_noext _ (fst x) N) as G. cbv zeta in G. destruct G as [G|[[G _]|[G _]]]; auto. }
    rewrite map_app, in_app_iff. cbn [map In]. destruct G as [-> |[-> | ->]]; [|auto|].
    + destruct (IH _ _ H0) as [A|A]; auto.
    + rewrite LA. destruct xs as [|y ys]; [now left|]. right. left. apply in_map_iff.
      destruct (exists_last (l := y :: ys)) as (l & z & E); [discriminate|]. rewrite E, map_app. cbn [map]. rewrite last_last.
      exists z. split; [reflexivity|]. apply in_or_app. right. now left.
Qed.

(** With feedback the setpoint is what the converter asked for in the step before. *)
Lemma follows xs a ioa b iob st0 outs0 st1 o1 st2 o2 : asks c -> heeds h -> ~ extrapolates h ->
  vsm_sim k cal xs = Ok (st0, outs0) ->
  iterate_sampling k cal st0 (fst a) (snd a) ioa = Ok (st1, o1) ->
  iterate_sampling k cal st1 (fst b) (snd b) iob = Ok (st2, o2) ->
  Z.abs (fst a) <= 2 ^ 50 -> Z.abs (fst b) <= 2 ^ 50 -> 0 <= h_vstep h <= 2 ^ 50 ->
  src_step c cal (vm_src st1) (fz (fst (held st2))) (fz (snd (held st2))) iob = Ok (vm_src st2, o2)
  /\ wanted st1 = fR (V_request (cnv (vm_src st1)))
  /\ let q := wanted st1 in let reach := 4 * h_vstep h in
     (crosses (wanted st0) q reach a b -> prefers q reach b a -> held st2 = b)
     /\ (crosses (wanted st0) q reach a b -> prefers q reach a b -> held st2 = a)
     /\ (~ (crosses (wanted st0) q reach a b /\ (prefers q reach b a \/ prefers q reach a b)) -> held st2 = held st1).
Proof.
  intros As Hb He H0 H1 H2 Ba Bb Bs.
  assert (H01 : vsm_sim k cal (xs ++ [(a, ioa)]) = Ok (st1, outs0 ++ [o1])).
  { unfold vsm_sim in *. destruct (vsm_init k cal) as [s|]; [|discriminate H0]. cbn [bind] in *. rewrite run_snoc, H0.
    cbn [bind fst snd]. rewrite H1. reflexivity. }
  destruct (run_facts _ _ _ Hb H0) as (_ & [Q0 _] & _ & _ & _ & SET0 & _).
  destruct (run_facts _ _ _ Hb H01) as (_ & [Q1 B1] & S4 & LE & LA & _ & SET1).
  assert (NE : xs ++ [(a, ioa)] <> []) by (destruct xs; discriminate).
  pose proof (SET1 As NE) as E1. clear SET1 NE.
  rewrite map_app in LA. cbn [map fst] in LA. rewrite last_last in LA.
  destruct (hrv_step _ _ _ _ _ Hb H1) as (_ & _ & _ & _ & C1 & _ & _).
  destruct (hrv_step _ _ _ _ _ Hb H2) as (F1 & _ & _ & _ & _ & F6 & _).
  split; [exact F1|]. clear F1. set (f := V_request (cnv (vm_src st1))) in *. assert (W1 : wanted st1 = fR f) by (unfold wanted; rewrite E1; reflexivity).
  rewrite W1, E1 in *. split; [reflexivity|]. cbv zeta.
  assert (N : lin_extrapolation (vm_hrv st1) = false).
  { rewrite LE. unfold extrapolates in He. destruct (Z.testbit (h_mode h) 2); congruence. }
  rewrite (cvf_noext f _ _ N) in F6. cbv zeta in F6. rewrite LA, S4 in F6.
  assert (SA : compare_last (vm_hrv st1) = true <-> (IZR (fst a) < wanted st0)%R).
  { rewrite C1. unfold wanted. destruct SET0 as [->|[_ ->]].
    - rewrite Z.ltb_lt. split; [apply IZR_lt|apply lt_IZR].
    - now apply side_R. }
  pose proof (side_R (fst b) f Bb Q1) as SB.
  destruct (dist_R (fst a) f Ba Q1 B1) as [FA DA]. destruct (dist_R (fst b) f Bb Q1 B1) as [FB DB].
  destruct (fz_ok (4 * h_vstep h)) as [FS RS]; [lia|].
  pose proof (flt_R _ _ FB FA) as L1. pose proof (flt_R _ _ FB FS) as L2. pose proof (flt_R _ _ FA FB) as L3. pose proof (flt_R _ _ FA FS) as L4.
  rewrite DA, DB in L1, L3. rewrite DB, RS in L2. rewrite DA, RS in L4.
  change (rnd (Rabs (IZR (fst a) - fR f))) with (distance (fR f) a) in L1, L3, L4.
  change (rnd (Rabs (IZR (fst b) - fR f))) with (distance (fR f) b) in L1, L2, L3.
  fold (held st1) in F6. unfold prefers, crosses.
  set (X1 := flt (fabs (fsub (fz (fst b)) f)) (fabs (fsub (fz (fst a)) f))) in *. clearbody X1.
  set (X2 := flt (fabs (fsub (fz (fst b)) f)) (fz (4 * h_vstep h))) in *. clearbody X2.
  set (X3 := flt (fabs (fsub (fz (fst a)) f)) (fabs (fsub (fz (fst b)) f))) in *. clearbody X3.
  set (X4 := flt (fabs (fsub (fz (fst a)) f)) (fz (4 * h_vstep h))) in *. clearbody X4.
  set (X5 := flt (fz (fst b)) f) in *. clearbody X5. set (X6 := compare_last (vm_hrv st1)) in *. clearbody X6.
  set (da := distance (fR f) a) in *. set (db := distance (fR f) b) in *. clearbody da db.
  set (q := fR f) in *. clearbody q. set (q0 := wanted st0) in *. clearbody q0.
  clear - F6 SA SB L1 L2 L3 L4.
  assert (CR : ((IZR (fst a) < q0)%R <-> (q <= IZR (fst b))%R) <-> negb (Bool.eqb X5 X6) = true).
  { destruct X5, X6; cbn [negb Bool.eqb]; split; intros G; try reflexivity; try discriminate G;
    repeat match goal with H : true = true <-> _ |- _ => destruct H as [H _]; specialize (H eq_refl) end;
    repeat match goal with H : false = true <-> ?P |- _ => assert (~ P) by (intros Y; apply H in Y; discriminate Y); clear H end;
    try (exfalso; apply Rlt_not_le in SB; tauto); try (split; intros; lra); destruct (Rle_dec q (IZR (fst b))); exfalso; first [lra|tauto]. }
  pose proof (Z.ltb_lt (Z.abs (fst b - fst a)) (4 * h_vstep h)) as L5. rewrite CR, <- L5, <- L1, <- L2, <- L3, <- L4. clear CR SA SB L5.
  destruct (negb (Bool.eqb X5 X6)), (Z.abs (fst b - fst a) <? 4 * h_vstep h); cbn [andb] in F6;
    try (repeat split; intros; try exact F6; exfalso; intuition congruence).
  assert (NB : X1 = true -> X3 = true -> False) by (rewrite L1, L3; lra).
  destruct X1, X2; cbn [andb] in F6;
    try (repeat split; intros; try exact F6; exfalso; intuition congruence);
    destruct X3, X4; cbn [andb] in F6; repeat split; intros; try exact F6; exfalso; intuition congruence.
Qed.

(** With extrapolation. *)
Lemma follows_ext xs a ioa b iob st0 outs0 st1 o1 st2 o2 : asks c -> heeds h -> extrapolates h ->
  vsm_sim k cal xs = Ok (st0, outs0) ->
  iterate_sampling k cal st0 (fst a) (snd a) ioa = Ok (st1, o1) ->
  iterate_sampling k cal st1 (fst b) (snd b) iob = Ok (st2, o2) ->
  Z.abs (fst a) <= 2 ^ 50 -> Z.abs (fst b) <= 2 ^ 50 -> Z.abs (fst (held st1)) <= 2 ^ 50 -> 0 <= h_vstep h <= 2 ^ 50 ->
  src_step c cal (vm_src st1) (fz (fst (held st2))) (fz (snd (held st2))) iob = Ok (vm_src st2, o2)
  /\ wanted st1 = fR (V_request (cnv (vm_src st1)))
  /\ let q := wanted st1 in let reach := 4 * h_vstep h in
     (crosses (wanted st0) q reach a b -> prefers q reach b a -> held st2 = b /\ direction st2 = way a b)
     /\ (crosses (wanted st0) q reach a b -> prefers q reach a b -> held st2 = a /\ direction st2 = way a b)
     /\ (crosses (wanted st0) q reach a b -> ~ prefers q reach b a -> ~ prefers q reach a b -> held st2 = held st1 /\ direction st2 = direction st1)
     /\ (~ crosses (wanted st0) q reach a b -> held st2 = towards_R q (direction st1) (held st1) /\ direction st2 = direction st1).
Proof.
  intros As Hb He H0 H1 H2 Ba Bb Bh Bs.
  assert (H01 : vsm_sim k cal (xs ++ [(a, ioa)]) = Ok (st1, outs0 ++ [o1])).
  { unfold vsm_sim in *. destruct (vsm_init k cal) as [s|]; [|discriminate H0]. cbn [bind] in *. rewrite run_snoc, H0.
    cbn [bind fst snd]. rewrite H1. reflexivity. }
  destruct (run_facts _ _ _ Hb H0) as (_ & [Q0 _] & _ & _ & _ & SET0 & _).
  destruct (run_facts _ _ _ Hb H01) as (_ & [Q1 B1] & S4 & LE & LA & _ & SET1).
  assert (NE : xs ++ [(a, ioa)] <> []) by (destruct xs; discriminate).
  pose proof (SET1 As NE) as E1. clear SET1 NE.
  rewrite map_app in LA. cbn [map fst] in LA. rewrite last_last in LA.
  destruct (hrv_step _ _ _ _ _ Hb H1) as (_ & _ & _ & _ & C1 & _ & _).
  destruct (hrv_step _ _ _ _ _ Hb H2) as (F1 & _ & _ & _ & _ & F6 & _).
  pose proof (ext_dir _ _ _ _ _ _ Hb E1 H2) as F7.
  split; [exact F1|]. clear F1. set (f := V_request (cnv (vm_src st1))) in *. assert (W1 : wanted st1 = fR f) by (unfold wanted; rewrite E1; reflexivity).
  rewrite W1, E1 in *. split; [reflexivity|]. cbv zeta.
  assert (N : lin_extrapolation (vm_hrv st1) = true) by (rewrite LE; exact He).
  assert (F : (held st2, direction st2) = (snd (ivcurve_2_cv_f f (vm_hrv st1) b),
    (let s' := fst (ivcurve_2_cv_f f (vm_hrv st1) b) in (voltage_delta s', current_delta s')))) by (rewrite F6, F7; reflexivity).
  clear F6 F7. pose proof (eq_trans F (cvf_ext f _ b N)) as F6. clear F. cbv zeta in F6. rewrite LA, S4 in F6.
  fold (held st1) in F6. fold (direction st1) in F6. pose proof (side_R (fst (held st1)) f Bh Q1) as SH.
  assert (SA : compare_last (vm_hrv st1) = true <-> (IZR (fst a) < wanted st0)%R).
  { rewrite C1. unfold wanted. destruct SET0 as [->|[_ ->]].
    - rewrite Z.ltb_lt. split; [apply IZR_lt|apply lt_IZR].
    - now apply side_R. }
  pose proof (side_R (fst b) f Bb Q1) as SB.
  destruct (dist_R (fst a) f Ba Q1 B1) as [FA DA]. destruct (dist_R (fst b) f Bb Q1 B1) as [FB DB].
  destruct (fz_ok (4 * h_vstep h)) as [FS RS]; [lia|].
  pose proof (flt_R _ _ FB FA) as L1. pose proof (flt_R _ _ FB FS) as L2. pose proof (flt_R _ _ FA FB) as L3. pose proof (flt_R _ _ FA FS) as L4.
  rewrite DA, DB in L1, L3. rewrite DB, RS in L2. rewrite DA, RS in L4.
  change (rnd (Rabs (IZR (fst a) - fR f))) with (distance (fR f) a) in L1, L3, L4.
  change (rnd (Rabs (IZR (fst b) - fR f))) with (distance (fR f) b) in L1, L2, L3.
  unfold prefers, crosses, towards_R.
  set (X1 := flt (fabs (fsub (fz (fst b)) f)) (fabs (fsub (fz (fst a)) f))) in *. clearbody X1.
  set (X2 := flt (fabs (fsub (fz (fst b)) f)) (fz (4 * h_vstep h))) in *. clearbody X2.
  set (X3 := flt (fabs (fsub (fz (fst a)) f)) (fabs (fsub (fz (fst b)) f))) in *. clearbody X3.
  set (X4 := flt (fabs (fsub (fz (fst a)) f)) (fz (4 * h_vstep h))) in *. clearbody X4.
  set (X5 := flt (fz (fst b)) f) in *. clearbody X5. set (X6 := compare_last (vm_hrv st1)) in *. clearbody X6.
  set (X7 := flt (fz (fst (held st1))) f) in *. clearbody X7.
  set (da := distance (fR f) a) in *. set (db := distance (fR f) b) in *. clearbody da db.
  set (q := fR f) in *. clearbody q. set (q0 := wanted st0) in *. clearbody q0.
  set (y := held st1) in *. clearbody y. set (d := direction st1) in *. clearbody d.
  set (y' := held st2) in *. clearbody y'. set (d' := direction st2) in *. clearbody d'.
  set (wab := way a b) in *. clearbody wab. set (r := 4 * h_vstep h) in *. clearbody r.
  clear - F6 SA SB SH L1 L2 L3 L4.
  assert (CR : ((IZR (fst a) < q0)%R <-> (q <= IZR (fst b))%R) <-> negb (Bool.eqb X5 X6) = true).
  { destruct X5, X6; cbn [negb Bool.eqb]; split; intros G; try reflexivity; try discriminate G;
    repeat match goal with H : true = true <-> _ |- _ => destruct H as [H _]; specialize (H eq_refl) end;
    repeat match goal with H : false = true <-> ?P |- _ => assert (~ P) by (intros Y; apply H in Y; discriminate Y); clear H end;
    try (exfalso; apply Rlt_not_le in SB; tauto); try (split; intros; lra); destruct (Rle_dec q (IZR (fst b))); exfalso; first [lra|tauto]. }
  assert (TW : (if Rlt_dec (IZR (fst y)) q then if 0 <? fst d then forth d y else back d y else if 0 <? fst d then back d y else forth d y)
    = (if X7 then if 0 <? fst d then forth d y else back d y else if 0 <? fst d then back d y else forth d y)).
  { destruct (Rlt_dec (IZR (fst y)) q) as [G|G]; destruct X7; try reflexivity; exfalso; [apply SH in G; discriminate G|apply G, SH; reflexivity]. }
  rewrite TW. clear TW SH.
  assert (NB : X1 = true -> X3 = true -> False) by (rewrite L1, L3; lra).
  pose proof (Z.ltb_lt (Z.abs (fst b - fst a)) r) as L5. rewrite CR, <- L5, <- L1, <- L2, <- L3, <- L4. clear CR SA SB L1 L2 L3 L4 L5.
  generalize dependent (if X7 then if 0 <? fst d then forth d y else back d y else if 0 <? fst d then back d y else forth d y). intros m F6.
  generalize dependent (negb (Bool.eqb X5 X6)). intros X8 F6. generalize dependent (Z.abs (fst b - fst a) <? r). intros X9 F6.
  destruct X8, X9; cbn [andb] in F6; [|split; [|split; [|split]]; intros; first [split; congruence|exfalso; intuition congruence]..].
  destruct X1, X2, X3, X4; cbn [andb] in F6; (split; [|split; [|split]]); intros; first [split; congruence|exfalso; intuition congruence].
Qed.
End Cfg.
