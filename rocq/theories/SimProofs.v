(** Proofs about the simulations, part 1: the source as harvester followed by converter, with and without feedback. *)
From Coq Require Import ZArith Bool Reals Lia Lra Psatz List.
From Flocq Require Import Core IEEE754.BinarySingleNaN.
From RecordUpdate Require Import RecordSet.
From Verif Require Import PyBase F64 F64x HarvModel HarvSpec HarvOptProofs HarvVocProofs HarvCvProofs CalModel CalSpec CalProofs
  CalHwProofs ConvModel ConvSpec ConvProofs ConvStepProofs ConvRunProofs ConvSrcProofs CfgModel TgtModel TgtSpec SimModel SimSpec.
Import RecordSetNotations ListNotations.
Open Scope Z_scope.

(** A harvester without setpoint does not look at it. *)
Lemma deaf_step c f s x : ~ heeds c -> ivcurve_sample_f c f s x = ivcurve_sample c s x.
Proof.
  unfold heeds, cv_based, runs_cv, runs_voc, runs_po. intros H. unfold ivcurve_sample_f, ivcurve_sample.
  unfold HRV_MPPT_OPT, HRV_MPPT_PO, HRV_MPPT_VOC, HRV_CV.
  destruct (Z.leb_spec (h_window c) 1); [reflexivity|].
  destruct (h_algorithm c >=? 2 ^ 14) eqn:E1; [reflexivity|].
  destruct (h_algorithm c >=? 2 ^ 13) eqn:E2; [exfalso; apply H; lia|].
  destruct (h_algorithm c >=? 2 ^ 12) eqn:E3; [exfalso; apply H; lia|].
  destruct (h_algorithm c >=? 2 ^ 8) eqn:E4; [exfalso; apply H; lia|]. reflexivity.
Qed.

Lemma feed_snoc ys y ios io : List.length ys = List.length ios ->
  feed (ys ++ [y]) (ios ++ [io]) = feed ys ios ++ [mkSin (fz (fst y)) (fz (snd y)) io].
Proof.
  unfold feed. intros H. assert (E : combine (ys ++ [y]) (ios ++ [io]) = combine ys ios ++ [(y, io)]).
  { revert ios H. induction ys as [|a ys IH]; intros [|b ios] H; try discriminate H; [reflexivity|].
    cbn [combine app]. rewrite IH by (cbn in H; lia). reflexivity. }
  rewrite E, map_app. reflexivity.
Qed.
Lemma feed_length ys ios : List.length ys = List.length ios -> List.length (feed ys ios) = List.length ys.
Proof. unfold feed. intros H. rewrite map_length, combine_length, <- H. apply Nat.min_id. Qed.

Section Cfg.
Variable k : vcfg.
Variable cal : cal_emu.
Let c := vc_cnv k.
Let h := vc_hrv k.

Lemma run_snoc st xs x : vsm_run k cal st (xs ++ [x]) =
  let* r := vsm_run k cal st xs in
  let* q := iterate_sampling k cal (fst r) (fst (fst x)) (snd (fst x)) (snd x) in Ok (fst q, snd r ++ [snd q]).
Proof.
  revert st. induction xs as [|[a io] xs IH]; intros st; cbn [app vsm_run].
  - destruct x as [x io]. cbn [bind fst snd]. destruct (iterate_sampling _ _ _ _ _ _) as [[st' o]|]; reflexivity.
  - destruct (iterate_sampling _ _ _ _ _ _) as [[st' o]|]; [|reflexivity]. cbn [bind fst snd]. rewrite IH.
    destruct (vsm_run k cal st' xs) as [[s2 l]|]; [|reflexivity]. cbn [bind fst snd].
    destruct (iterate_sampling _ _ _ _ _ _) as [[s3 o3]|]; reflexivity.
Qed.
Lemma sim_snoc_v xs x st outs : vsm_sim k cal (xs ++ [x]) = Ok (st, outs) -> exists st0 outs0 o,
  vsm_sim k cal xs = Ok (st0, outs0) /\ iterate_sampling k cal st0 (fst (fst x)) (snd (fst x)) (snd x) = Ok (st, o)
  /\ outs = outs0 ++ [o].
Proof.
  unfold vsm_sim. destruct (vsm_init k cal) as [s|]; [|intros H; discriminate H]. cbn [bind]. rewrite run_snoc.
  destruct (vsm_run k cal s xs) as [[s2 l]|]; [|intros H; discriminate H]. cbn [bind fst snd].
  destruct (iterate_sampling _ _ _ _ _ _) as [[s3 o3]|] eqn:E; [|intros H; discriminate H]. cbn [bind fst snd].
  intros H. exists s2, l, o3. assert (X : s3 = st /\ l ++ [o3] = outs) by (split; congruence).
  destruct X as [<- <-]. auto.
Qed.

(** One call, taken apart. *)
Lemma iterate_split st v i io st' o : iterate_sampling k cal st v i io = Ok (st', o) ->
  let r := match vm_set st with
           | None => ivcurve_sample h (vm_hrv st) (v, i)
           | Some f => ivcurve_sample_f h f (vm_hrv st) (v, i)
           end in
  vm_hrv st' = fst r
  /\ src_step c cal (vm_src st) (fz (fst (snd r))) (fz (snd (snd r))) io = Ok (vm_src st', o)
  /\ vm_set st' = if feedback_to_hrv c then Some (V_request (cnv (vm_src st'))) else vm_set st.
Proof.
  unfold iterate_sampling. fold h c. cbv zeta. set (r := match vm_set st with None => _ | Some f => _ end).
  clearbody r. destruct r as [s y]. cbn [fst snd]. set (a := fz (fst y)). set (b := fz (snd y)). clearbody a b.
  destruct (src_step c cal (vm_src st) a b io) as [[w out]|]; [|intros H; discriminate H]. cbn [bind].
  intros H. set (z := if feedback_to_hrv c then _ else _) in *.
  assert (X : mkVsm w s z = st' /\ out = o) by (split; congruence). destruct X as [<- <-].
  cbn [vm_hrv vm_src vm_set]. auto.
Qed.

Lemma series xs st outs : ~ asks c \/ ~ heeds h -> vsm_sim k cal xs = Ok (st, outs) ->
  let zs := feed (h_outputs h (map fst xs)) (map snd xs) in
  src_sim c cal zs = Ok (vm_src st) /\ vm_hrv st = h_state h (map fst xs) /\ List.length outs = List.length xs
  /\ forall j o, nth_error outs j = Some o -> exists z w0 w1, nth_error zs j = Some z
       /\ src_sim c cal (firstn j zs) = Ok w0 /\ src_step c cal w0 (s_V z) (s_I z) (s_Iout z) = Ok (w1, o).
Proof.
  intros D. cbv zeta. assert (G : vsm_sim k cal xs = Ok (st, outs) ->
    src_sim c cal (feed (h_outputs h (map fst xs)) (map snd xs)) = Ok (vm_src st) /\ vm_hrv st = h_state h (map fst xs)
    /\ List.length outs = List.length xs
    /\ (vm_set st = None \/ ~ heeds h)
    /\ forall j o, nth_error outs j = Some o -> exists z w0 w1,
         nth_error (feed (h_outputs h (map fst xs)) (map snd xs)) j = Some z
         /\ src_sim c cal (firstn j (feed (h_outputs h (map fst xs)) (map snd xs))) = Ok w0
         /\ src_step c cal w0 (s_V z) (s_I z) (s_Iout z) = Ok (w1, o)).
  2:{ intros H. destruct (G H) as (A & B & C & _ & E). auto. }
  revert st outs. induction xs as [|x xs IH] using rev_ind; intros st outs H.
  - unfold vsm_sim, vsm_init in H. fold c h in H. unfold src_sim.
    destruct (src_init c cal) as [w|] eqn:E; [|discriminate H]. cbn [bind vsm_run] in H.
    assert (X : st = mkVsm w (h_init h) None /\ outs = []) by (split; congruence). destruct X as [-> ->].
    cbn. repeat split; auto. intros [|j] o X; discriminate X.
  - destruct (sim_snoc_v _ _ _ _ H) as (st0 & outs0 & o & H0 & H1 & ->).
    destruct (IH st0 outs0 H0) as (A & B & C & S & E). clear IH.
    destruct (iterate_split _ _ _ _ _ _ H1) as (E1 & E2 & E3). cbv zeta in E1, E2.
    assert (R : match vm_set st0 with
             | None => ivcurve_sample h (vm_hrv st0) (fst (fst x), snd (fst x))
             | Some f => ivcurve_sample_f h f (vm_hrv st0) (fst (fst x), snd (fst x))
             end = ivcurve_sample h (h_state h (map fst xs)) (fst x)).
    { rewrite B, <- surjective_pairing. destruct S as [-> | N]; [reflexivity|]. destruct (vm_set st0); [|reflexivity]. now apply deaf_step. }
    rewrite R in E1, E2. clear R. rewrite !map_app. cbn [map]. rewrite h_outputs_snoc, h_state_snoc.
    set (y := snd (ivcurve_sample h (h_state h (map fst xs)) (fst x))) in *.
    assert (L : List.length (h_outputs h (map fst xs)) = List.length (map snd xs)) by (rewrite h_outputs_length, !map_length; reflexivity).
    rewrite feed_snoc by exact L. set (zs := feed (h_outputs h (map fst xs)) (map snd xs)) in *.
    assert (LZ : List.length zs = List.length xs) by (unfold zs; rewrite feed_length by exact L; rewrite L; apply map_length).
    split.
    { unfold src_sim in *. destruct (src_init c cal) as [w0|]; [|discriminate A]. cbn [bind] in *. rewrite src_run_app, A.
      cbn [bind src_run s_V s_I s_Iout]. rewrite E2. reflexivity. }
    split; [exact E1|]. split; [rewrite !app_length, C; reflexivity|]. split.
    { rewrite E3. destruct D as [D|D]; [|now right]. rewrite feedback_bit. unfold asks in D.
      destruct (Z.testbit (converter_mode c) 4); [congruence|exact S]. }
    intros j o' Hj. apply nth_error_snoc in Hj as [[Lj Hj]|[-> ->]].
    + destruct (E j o' Hj) as (z & w0 & w1 & N & W & T). exists z, w0, w1. split.
      * rewrite nth_error_app1; [exact N|]. rewrite LZ. lia.
      * split; [|exact T]. rewrite firstn_app.
        replace (j - List.length zs)%nat with 0%nat by (rewrite LZ; lia). cbn [firstn]. rewrite app_nil_r. exact W.
    + exists (mkSin (fz (fst y)) (fz (snd y)) (snd x)), (vm_src st0), (vm_src st). cbn [s_V s_I s_Iout]. rewrite C, <- LZ. split.
      * rewrite nth_error_app2, Nat.sub_diag by lia. reflexivity.
      * split; [|exact E2]. rewrite firstn_app, Nat.sub_diag, firstn_all. cbn [firstn]. rewrite app_nil_r. exact A.
Qed.
End Cfg.
