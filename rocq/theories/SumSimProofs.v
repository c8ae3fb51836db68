(** Proofs about the energies that the simulations report, part 2: source and harvester. *)
From Coq Require Import ZArith Bool Reals List Permutation Lia Lra Psatz.
From Flocq Require Import Core IEEE754.BinarySingleNaN.
From Verif Require Import PyBase F64 HarvModel HarvSpec HarvOptProofs CalModel CalSpec CalProofs CalHwProofs CalDefProofs ConvModel ConvSpec ConvProofs ConvStepProofs
  ConvRunProofs ConvSrcProofs CfgModel CfgSpec CfgHrvProofs CfgDropProofs TgtModel TgtSpec TgtProofs TgtConvProofs SimModel SimSpec SimProofs SimLoopProofs SimTgtProofs
  SumModel SumSpec SumProofs.
Import ListNotations.
Open Scope Z_scope.

(** ** The source *)

(** The simulation completes, and what is known of its points (see [simulation]). *)
Lemma source_outputs m p v v' hv' t dtype window step cv ci xs : pow_ok p -> check_vsrc v = Ok v' -> Forall usable_efficiency (vs_LUT_out v) ->
  check_vhrv (vs_harvester v) = Ok hv' -> sensible (vs_harvester v) (Some dtype) window step true -> usual_target m t ->
  moderate_pair cv -> moderate_pair ci -> Forall (fun x => u32 (fst x) /\ u32 (snd x)) xs ->
  exists st l, simulate_source m p v t dtype window step cv ci xs = Ok (st, l)
    /\ Forall (fun y => 0 <= fst y <= 5000000 /\ proper (snd y) /\ current_ok (snd y)) l.
Proof.
  intros P H1 H2 H3 H4 U Hv Hi HX. unfold simulate_source, vsm_config.
  destruct default_cal as (cal & E0 & MC & Gd & Od & _). rewrite E0. cbn [bind].
  destruct (convert_src p v v' dtype false P H1 H2) as (c & E1 & VC & _). rewrite E1. cbn [bind].
  destruct (converts _ _ _ _ _ _ H3 H4) as (h & E2). rewrite E2. cbn [bind fst].
  destruct (source_init (mkVcfg c h) cal VC MC) as (st0 & E3 & I & _). rewrite E3. cbn [bind].
  destruct (mode_bits _ _ _ _ _ _ H1 E1) as (_ & _ & _ & LM & _). rewrite log_bit in LM.
  destruct (loop_total m t (mkVcfg c h) VC LM cal MC Gd Od cv ci xs Hv Hi HX U st0 (fz 0) I) as (st & l & E4 & L & F).
  { destruct (fz_ok 0) as [F0 R0]; [lia|]. split; [exact F0|]. rewrite R0, Rabs_R0. apply bpow_ge_0. }
  exists st, l. split; [exact E4|exact F].
Qed.

Lemma source_reports np_sum m p v v' hv' t dtype window step cv ci size dt out xs : (forall l, adds_up l (np_sum l)) ->
  pow_ok p -> check_vsrc v = Ok v' -> Forall usable_efficiency (vs_LUT_out v) ->
  check_vhrv (vs_harvester v) = Ok hv' -> sensible (vs_harvester v) (Some dtype) window step true -> usual_target m t ->
  moderate_pair cv -> moderate_pair ci -> Forall (fun x => u32 (fst x) /\ u32 (snd x)) xs ->
  (0 < size)%nat -> Z.of_nat (length xs) <= 2 ^ 40 -> fin dt = true -> (0 <= fR dt <= 1)%R ->
  exists e w st l cal, source_energy np_sum m p v t dtype window step cv ci size dt out xs = Ok (e, w)
    /\ simulate_source m p v t dtype window step cv ci (complete size xs) = Ok (st, l) /\ default_emu = Ok cal
    /\ fin e = true /\ (0 <= fR e)%R
    /\ reported size (length xs) (fR e) (energy_of (fR dt) (source_points l)) (energy_of (fR dt) (source_points l))
    /\ if out then Forall2 (fun y z => store_source cal y = Ok z) l w else w = [].
Proof.
  intros NP P H1 H2 H3 H4 U Hv Hi HX S0 N Fdt Bdt.
  assert (HC : Forall (fun x => u32 (fst x) /\ u32 (snd x)) (complete size xs)).
  { apply Forall_forall. intros x I. rewrite Forall_forall in HX. apply HX. unfold complete in I.
    rewrite <- (firstn_skipn (length xs / size * size) xs). apply in_or_app. now left. }
  destruct (source_outputs m p v v' hv' t dtype window step cv ci _ P H1 H2 H3 H4 U Hv Hi HC) as (st & l & E & F).
  destruct default_cal as (cal & E0 & MC & Gd & Od & _).
  pose proof (source_whole np_sum m p v t dtype window step cv ci size dt out xs S0) as K.
  destruct (source_energy np_sum m p v t dtype window step cv ci size dt out xs) as [[e w]|x].
  - destruct K as (cal' & st' & yss & E0' & E' & L & LN & T & W). assert (cal' = cal) by congruence. subst cal'.
    assert (l = concat yss) by congruence. subst l. exists e, w, st, (concat yss), cal. split; [reflexivity|]. split; [exact E|]. split; [exact E0|].
    assert (FX : Forall usual (float_points (concat yss)) /\ map (fun y => (fR (fst y), fR (snd y))) (float_points (concat yss)) = source_points (concat yss)
                 /\ Forall (fun y => (0 <= fst y)%R /\ (0 <= snd y)%R) (source_points (concat yss))).
    { clear - F. induction F as [|[z i] l (B & [Fi Pi] & [_ Bi]) _ (IH1 & IH2 & IH3)]; [repeat constructor|]. cbn [fst snd] in *.
      destruct (fz_ok z) as [Fz Rz]; [lia|]. split; [|split].
      - constructor; [|exact IH1]. unfold usual, flow. cbn [fst snd]. split; [exact Fz|]. split; [exact Fi|]. rewrite Rz, Rabs_mult.
        apply Rle_trans with (bpow radix2 30 * bpow radix2 940)%R; [|rewrite <- bpow_plus; apply bpow_le; lia].
        apply Rmult_le_compat; auto using Rabs_pos. rewrite <- abs_IZR. change (bpow radix2 30) with (IZR (2 ^ 30)). apply IZR_le. lia.
      - cbn [float_points source_points map fst snd]. rewrite Rz. f_equal. exact IH2.
      - constructor; [|exact IH3]. cbn [fst snd]. split; [apply IZR_le; lia|exact Pi]. }
    destruct FX as (X1 & X2 & X3).
    assert (L' : Forall (fun ys => length ys = size) (map float_points yss)).
    { apply Forall_forall. intros ys I. apply in_map_iff in I. destruct I as (zs & <- & I). unfold float_points. rewrite map_length.
      rewrite Forall_forall in L. apply L, I. }
    destruct (blocks_report np_sum dt size (map float_points yss) _ _ (length xs) Fdt Bdt NP (concat_float yss) X2 X1 L') as (F1 & F2 & F3);
      [rewrite map_length; exact LN|exact S0|exact N|]. rewrite <- T in F1, F2, F3.
    split; [exact F1|]. split; [exact (F3 X3)|]. split.
    + assert (TH : throughput (fR dt) (source_points (concat yss)) = energy_of (fR dt) (source_points (concat yss))).
      { unfold throughput. f_equal. rewrite <- map_id. apply map_ext_in. intros y I. rewrite Forall_forall in X3. destruct (X3 y I).
        rewrite !Rabs_pos_eq by assumption. now destruct y. }
      rewrite TH in F2. exact F2.
    + destruct out; [apply all_ok_pairs, W|exact W].
  - exfalso. destruct K as [K|[-> K]]; [rewrite E in K; discriminate K|]. destruct (K cal st l E0 E) as [x' X].
    destruct (all_ok_total (store_source cal) l) as [w W].
    + apply Forall_forall. intros y I. rewrite Forall_forall in F. destruct (F y I) as (B & _ & C).
      destruct (stored cal y MC Gd Od B C) as (n & j & S & _). eauto.
    + rewrite X in W. discriminate W.
Qed.

(** Whatever the target does: the file has no influence on the energy, and an exception comes from the simulation. *)
Lemma source_no_file np_sum m p v t dtype window step cv ci size dt xs : (0 < size)%nat ->
  (forall e w, source_energy np_sum m p v t dtype window step cv ci size dt true xs = Ok (e, w) ->
     source_energy np_sum m p v t dtype window step cv ci size dt false xs = Ok (e, []))
  /\ (forall st l, simulate_source m p v t dtype window step cv ci (complete size xs) = Ok (st, l) ->
     exists e, source_energy np_sum m p v t dtype window step cv ci size dt false xs = Ok (e, []))
  /\ (forall x, simulate_source m p v t dtype window step cv ci (complete size xs) = Err x ->
     source_energy np_sum m p v t dtype window step cv ci size dt false xs = Err x).
Proof.
  intros S0. pose proof (source_whole np_sum m p v t dtype window step cv ci size dt true xs S0) as K1.
  pose proof (source_whole np_sum m p v t dtype window step cv ci size dt false xs S0) as K2.
  destruct (source_energy np_sum m p v t dtype window step cv ci size dt false xs) as [[e2 w2]|x2].
  - destruct K2 as (cal & st & yss & E0 & E & L & LN & T & W). subst w2. split; [|split].
    + intros e w H. rewrite H in K1. destruct K1 as (cal' & st' & yss' & E0' & E' & L' & LN' & T' & _).
      assert (C : concat yss = concat yss') by congruence.
      assert (Q : yss = yss').
      { clear - C L L' LN LN' S0. rewrite <- LN' in LN. clear LN'. revert yss' LN C L'.
        induction L as [|ys yss HL _ IH]; intros [|zs yss'] LN C L'; try discriminate LN; [reflexivity|].
        inversion L' as [|? ? HL' L'']; subst. cbn [concat] in C.
        assert (A : ys = zs /\ concat yss = concat yss').
        { clear - C HL'. revert zs C HL'. induction ys as [|y ys IHy]; intros [|z zs] C HL'; try discriminate HL'; [auto|].
          cbn [app] in C. injection C as -> C. destruct (IHy zs C) as [-> ?]; [now injection HL'|]. auto. }
        destruct A as [-> A]. f_equal. apply IH; [now injection LN|exact A|exact L'']. }
      subst. reflexivity.
    + intros st0 l0 _. exists e2. reflexivity.
    + intros x H. rewrite H in E. discriminate E.
  - destruct K2 as [K2|[K2 _]]; [|discriminate K2]. split; [|split].
    + intros e w H. rewrite H in K1. destruct K1 as (cal' & st' & yss' & E0' & E' & _). rewrite K2 in E'. discriminate E'.
    + intros st l H. rewrite H in K2. discriminate K2.
    + intros x H. congruence.
Qed.

(** ** What is in the file *)

Lemma nano_fine : fin (fdec 1 9) = true /\ (/ 1000000000 * (1 - / 1000000000000000) <= fR (fdec 1 9) <= / 1000000000 * (1 + / 1000000000000000))%R.
Proof.
  destruct (cst (fdec 1 9) 4835703278458517 (-82)) as [A B]; [vm_compute; reflexivity|]. split; [exact A|]. rewrite B.
  change (bpow radix2 (-82)) with (/ 4835703278458516698824704)%R. lra.
Qed.

Lemma stored_both cal y n j : default_emu = Ok cal -> 0 <= fst y <= 5000000 -> proper (snd y) -> (fR (snd y) <= 50000000)%R ->
  store_source cal y = Ok (n, j) ->
  (Rabs (IZR n / 13107 - IZR (fst y) / 10 ^ 6) <= 3815 / 10 ^ 8)%R /\ (Rabs (IZR j / 4915200 - fR (snd y) / 10 ^ 9) <= 1018 / 10 ^ 10)%R.
Proof.
  intros E0 B [Fi Pi] Bi E. destruct default_cal as (cal' & E0' & MC & Gd & Od & Ga & Oa). assert (cal' = cal) by congruence. subst cal'.
  assert (CY : current_ok (snd y)).
  { split; [exact Fi|]. rewrite Rabs_pos_eq by exact Pi. apply Rle_trans with (bpow radix2 30); [|apply bpow_le; lia].
    change (bpow radix2 30) with 1073741824%R. lra. }
  destruct (stored cal y MC Gd Od B CY) as (n' & j' & S & _ & D). assert (n' = n /\ j' = j) as [-> ->] by (rewrite E in S; split; congruence).
  split.
  - apply abs_le in D. apply abs_le. set (q := (IZR (fst y) / 1000000)%R) in *.
    replace (IZR (fst y) / 10 ^ 6)%R with q by (unfold q; f_equal; ring). clearbody q. lra.
  - destruct nano_fine as [Fd Rd]. pose proof eta_tiny as T. pose proof eta64_pos as T0. set (d := fR (fdec 1 9)) in *. set (x := fR (snd y)) in *.
    assert (PX : (- / 1000000000000000 <= d * x - x / 1000000000 <= / 1000000000000000 /\ 0 <= d * x)%R) by (unfold Rdiv; nra).
    destruct (fmul_Big (fdec 1 9) (snd y) Fd Fi) as [F1 R1].
    { fold x d. apply (CalHwProofs.small_Big _ 6); lra. }
    fold x d in R1. pose proof (rnd_step (d * x) 6 ltac:(lra)) as RS. rewrite <- R1 in RS.
    assert (P1 : (0 <= fR (fmul (fdec 1 9) (snd y)))%R) by (rewrite R1; apply rnd_nonneg; lra).
    destruct MC as (BC & _). destruct BC as (VA & _).
    destruct (probe_to_raw (adc_C_A cal) 4915200 (fmul (fdec 1 9) (snd y)) ltac:(lia) VA Ga Oa F1 P1) as (j2 & E1 & E2).
    { change (IZR 4915200) with 4915200%R. set (w := fR (fmul _ _)) in *. clearbody w. lra. }
    assert (j2 = j).
    { unfold store_source in E. destruct (si_to_raw (dac_V_A cal) _) as [n2|]; [|discriminate E]. cbn [bind] in E. rewrite E1 in E. cbn [bind] in E. congruence. }
    subst j2. change (IZR 4915200) with 4915200%R in E2. apply abs_le in E2. apply abs_le.
    set (w := fR (fmul _ (snd y))) in *. clearbody w. set (q := (x / 1000000000)%R) in *.
    replace (x / 10 ^ 9)%R with q by (unfold q; f_equal; ring). clearbody q. lra.
Qed.

Lemma file_close dt cal l w : (0 <= dt)%R -> default_emu = Ok cal ->
  Forall (fun y => 0 <= fst y <= 5000000 /\ proper (snd y) /\ (fR (snd y) <= 50000000)%R) l ->
  Forall2 (fun y z => store_source cal y = Ok z) l w ->
  (Rabs (energy_of dt (file_points w) - energy_of dt (source_points l)) <= INR (length l) * dt * (25 / 10 ^ 7))%R.
Proof.
  intros D E0 B F. unfold energy_of, file_points, source_points. rewrite !map_map. cbn [fst snd]. rewrite <- Rmult_minus_distr_r, Rabs_mult, (Rabs_pos_eq dt) by exact D.
  replace (INR (length l) * dt * (25 / 10 ^ 7))%R with (INR (length l) * (25 / 10 ^ 7) * dt)%R by ring. apply Rmult_le_compat_r; [exact D|].
  revert B. induction F as [|y [n j] l w E _ IH]; intros B; cbn [map Rsum length].
  - rewrite Rminus_0_r, Rabs_R0. cbn. lra.
  - inversion B as [|? ? (B1 & B2 & B3) B']; subst. specialize (IH B'). cbn [fst snd]. rewrite S_INR.
    destruct (stored_both cal y n j E0 B1 B2 B3 E) as [X1 X2].
    match goal with |- context [Rsum (map ?f w)] => set (S1 := Rsum (map f w)) in * end.
    match goal with |- context [Rsum (map ?f l)] => set (S2 := Rsum (map f l)) in * end.
    replace (IZR n / 13107 * 10 ^ 6 / 10 ^ 6 * (IZR j / 4915200 * 10 ^ 9 / 10 ^ 9))%R with (IZR n / 13107 * (IZR j / 4915200))%R by field.
    set (a' := (IZR n / 13107)%R) in *. set (b' := (IZR j / 4915200)%R) in *.
    set (a := (IZR (fst y) / 10 ^ 6)%R) in *. set (b := (fR (snd y) / 10 ^ 9)%R) in *.
    assert (A : (0 <= a <= 5)%R). { unfold a. assert (0 <= IZR (fst y) <= 5000000)%R by (split; apply IZR_le; lia). lra. }
    assert (A2 : (0 <= b <= / 20)%R). { destruct B2 as [_ B2]. unfold b. lra. }
    match goal with |- (Rabs ?q <= _)%R => change q with (a' * b' + S1 - (a * b + S2))%R end.
    replace (a' * b' + S1 - (a * b + S2))%R with ((a' * b' - a * b) + (S1 - S2))%R by ring.
    eapply Rle_trans; [apply Rabs_triang|].
    assert (G : (Rabs (a' * b' - a * b) <= 25 / 10 ^ 7)%R).
    { clearbody a a' b b'. clear - A A2 X1 X2.
      replace (a' * b' - a * b)%R with ((a' - a) * b + a * (b' - b) + (a' - a) * (b' - b))%R by ring.
      eapply Rle_trans; [apply Rabs_triang|]. rewrite (Rabs_mult (a' - a) (b' - b)).
      assert (Y1 : (Rabs (a' - a) * Rabs (b' - b) <= 3815 / 10 ^ 8 * (1018 / 10 ^ 10))%R) by (apply Rmult_le_compat; auto using Rabs_pos).
      assert (Y2 : (Rabs ((a' - a) * b + a * (b' - b)) <= 3815 / 10 ^ 8 * / 20 + 5 * (1018 / 10 ^ 10))%R).
      { eapply Rle_trans; [apply Rabs_triang|]. rewrite !Rabs_mult, (Rabs_pos_eq a), (Rabs_pos_eq b) by lra.
        apply Rplus_le_compat; apply Rmult_le_compat; try lra; apply Rabs_pos. }
      lra. }
    clearbody S1 S2. lra.
Qed.

(** ** The harvester *)

Lemma points_app c cv ci a b : forall s,
  harvest_points c cv ci s (a ++ b) =
  let* r := harvest_points c cv ci s a in let* q := harvest_points c cv ci (fst r) b in Ok (fst q, snd r ++ snd q).
Proof.
  induction a as [|x a IH]; intros s; cbn [app harvest_points bind fst snd].
  - destruct (harvest_points c cv ci s b) as [[s' l]|e]; reflexivity.
  - destruct (sample_in cv ci x) as [y|e]; cbn [bind]; [|reflexivity]. destruct (ivcurve_sample c s y) as [s1 z]. rewrite IH.
    destruct (harvest_points c cv ci s1 a) as [[s2 l]|e]; cbn [bind fst snd]; [|reflexivity].
    destruct (harvest_points c cv ci s2 b) as [[s3 l']|e]; reflexivity.
Qed.
Lemma points_outputs c cv ci xs : forall s s' l, harvest_points c cv ci s xs = Ok (s', l) ->
  exists zs, Forall2 (fun x z => sample_in cv ci x = Ok z) xs zs /\ h_run c s zs = (s', l) /\ length l = length xs.
Proof.
  induction xs as [|x xs IH]; intros s s' l; cbn [harvest_points].
  - intros E. assert (s' = s /\ l = []) as [-> ->] by (split; congruence). exists []. split; [constructor|]. split; reflexivity.
  - destruct (sample_in cv ci x) as [y|e] eqn:E1; cbn [bind]; [|discriminate]. destruct (ivcurve_sample c s y) as [s1 z] eqn:E2.
    destruct (harvest_points c cv ci s1 xs) as [[s2 l2]|e] eqn:E3; cbn [bind fst snd]; [|discriminate].
    intros E. assert (s' = s2 /\ l = z :: l2) as [-> ->] by (split; congruence). destruct (IH _ _ _ E3) as (zs & A & B & L). exists (y :: zs).
    split; [constructor; assumption|]. cbn [h_run length]. rewrite E2, B, L. split; reflexivity.
Qed.

Lemma harvest_split np_sum c cv ci h dt out bs : forall s e e' w, harvest_buffers np_sum c cv ci h dt out s e bs = Ok (e', w) ->
  exists s' yss, harvest_points c cv ci s (concat bs) = Ok (s', concat yss) /\ map (@length _) yss = map (@length _) bs
    /\ e' = total dt np_sum e (map float_samples yss) /\ (if out then all_ok (sample_out (adc_V_Sense h) (adc_C_Hrv h)) (concat yss) = Ok w else w = []).
Proof.
  induction bs as [|b bs IH]; intros s e e' w; cbn [harvest_buffers concat].
  - intros E. assert (e' = e /\ w = []) as [-> ->] by (split; congruence). exists s, []. cbn. destruct out; auto.
  - rewrite points_app. destruct (harvest_points c cv ci s b) as [[s1 ys]|x] eqn:E1; cbn [bind fst snd]; [|discriminate].
    set (e1 := fadd e _).
    destruct (if out then all_ok (sample_out (adc_V_Sense h) (adc_C_Hrv h)) ys else Ok []) as [w1|x] eqn:W; cbn [bind]; [|discriminate].
    destruct (harvest_buffers np_sum c cv ci h dt out s1 e1 bs) as [[e2 w2]|x] eqn:E2; cbn [bind fst snd]; [|discriminate].
    intros E. assert (e' = e2 /\ w = w1 ++ w2) as [-> ->] by (split; congruence).
    destruct (IH _ _ _ _ E2) as (s' & yss & A & L & T & S). exists s', (ys :: yss). rewrite A. cbn [bind fst snd concat map total fold_left].
    split; [reflexivity|]. split; [rewrite L; f_equal; destruct (points_outputs _ _ _ _ _ _ _ E1) as (? & _ & _ & Q); exact Q|]. split; [exact T|].
    destruct out; [rewrite all_ok_app, W, S; reflexivity|]. assert (w1 = []) by congruence. subst. reflexivity.
Qed.

(** With a target file or without, [simulate_harvester] is the loop without blocks. *)
Lemma points_run c cv ci h xs : forall s s' l w, harvest_points c cv ci s xs = Ok (s', l) ->
  all_ok (sample_out (adc_V_Sense h) (adc_C_Hrv h)) l = Ok w -> harvest_run c cv ci h s xs = Ok w.
Proof.
  induction xs as [|x xs IH]; intros s s' l w; cbn [harvest_points harvest_run].
  - intros E. assert (l = []) by congruence. subst l. cbn. congruence.
  - destruct (sample_in cv ci x) as [y|e]; cbn [bind]; [|discriminate]. destruct (ivcurve_sample c s y) as [s1 z].
    destruct (harvest_points c cv ci s1 xs) as [[s2 l2]|e] eqn:E3; cbn [bind fst snd]; [|discriminate].
    intros E. assert (l = z :: l2) by congruence. subst l. cbn [all_ok].
    destruct (sample_out _ _ z) as [r|]; cbn [bind]; [|discriminate].
    destruct (all_ok _ l2) as [w2|] eqn:E4; cbn [bind]; [|discriminate]. intros W. assert (w = r :: w2) by congruence. subst w.
    rewrite (IH _ _ _ _ E3 E4). reflexivity.
Qed.

Definition moderate_sample (y : sample) : Prop := Z.abs (fst y) <= 2 ^ 50 /\ Z.abs (snd y) <= 2 ^ 50.

Lemma harvester_reports np_sum v dtype window step cv ci size dt out xs e w : (forall l, adds_up l (np_sum l)) ->
  (0 < size)%nat -> Z.of_nat (length xs) <= 2 ^ 40 -> fin dt = true -> (0 <= fR dt <= 1)%R ->
  harvester_energy np_sum v dtype window step cv ci size dt out xs = Ok (e, w) ->
  exists c wt zs, from_vhrv v (Some dtype) window step true = Ok (c, wt)
    /\ Forall2 (fun x z => sample_in cv ci x = Ok z) (complete size xs) zs
    /\ (if out then simulate_harvester v dtype window step cv ci (complete size xs) = Ok w else w = [])
    /\ (Forall moderate_sample (h_outputs c zs) ->
        fin e = true
        /\ reported size (length xs) (fR e) (energy_of (fR dt) (harvest_points_R (h_outputs c zs))) (throughput (fR dt) (harvest_points_R (h_outputs c zs)))
        /\ (Forall nonneg (h_outputs c zs) -> (0 <= fR e)%R)).
Proof.
  intros NP S0 N Fdt Bdt. unfold harvester_energy, simulate_harvester. destruct default_hrv as [h|] eqn:E0; cbn [bind]; [|discriminate].
  destruct (from_vhrv v (Some dtype) window step true) as [[c wt]|]; cbn [bind fst]; [|discriminate]. intros H.
  destruct (buffers_blocks size xs S0) as (C & L & LN). destruct (harvest_split _ _ _ _ _ _ _ _ _ _ _ _ H) as (s' & yss & A & LL & T & W).
  rewrite C in A. destruct (points_outputs _ _ _ _ _ _ _ A) as (zs & Z1 & Z2 & _). exists c, wt, zs. split; [reflexivity|]. split; [exact Z1|].
  split; [destruct out; [exact (points_run _ _ _ _ _ _ _ _ _ A W)|exact W]|].
  assert (HO : h_outputs c zs = concat yss) by (unfold h_outputs; rewrite Z2; reflexivity). rewrite HO. intros M.
  assert (Q : Forall (fun n => n = size) (map (@length _) yss)).
  { rewrite LL. apply Forall_forall. intros n I. apply in_map_iff in I. destruct I as (b & <- & I). rewrite Forall_forall in L. apply L, I. }
  assert (L' : Forall (fun ys => length ys = size) (map float_samples yss)).
  { apply Forall_forall. intros ys I. apply in_map_iff in I. destruct I as (z & <- & I). unfold float_samples. rewrite map_length.
    rewrite Forall_forall in Q. apply Q, in_map, I. }
  assert (LN' : length (map float_samples yss) = (length xs / size)%nat).
  { rewrite map_length, <- LN, <- (map_length (@length _) (buffers size xs)), <- LL, map_length. reflexivity. }
  assert (FX : Forall usual (float_samples (concat yss)) /\ map (fun y => (fR (fst y), fR (snd y))) (float_samples (concat yss)) = harvest_points_R (concat yss)).
  { clear - M. induction M as [|[a b] l [Ba Bb] _ [IH1 IH2]]; [split; constructor|]. cbn [fst snd] in *.
    destruct (fz_ok a) as [Fa Ra]; [lia|]. destruct (fz_ok b) as [Fb Rb]; [lia|]. split.
    - constructor; [|exact IH1]. unfold usual, flow. cbn [fst snd]. split; [exact Fa|]. split; [exact Fb|]. rewrite Ra, Rb, Rabs_mult, <- !abs_IZR.
      apply Rle_trans with (bpow radix2 50 * bpow radix2 50)%R; [|rewrite <- bpow_plus; apply bpow_le; lia].
      change (bpow radix2 50) with (IZR (2 ^ 50)). apply Rmult_le_compat; try (apply IZR_le; lia).
    - cbn [float_samples harvest_points_R map fst snd]. rewrite Ra, Rb. f_equal. exact IH2. }
  destruct FX as [X1 X2].
  destruct (blocks_report np_sum dt size (map float_samples yss) _ _ (length xs) Fdt Bdt NP (concat_floats yss) X2 X1 L' LN' S0 N) as (F1 & F2 & F3).
  rewrite <- T in F1, F2, F3. split; [exact F1|]. split; [exact F2|]. intros NN. apply F3.
  clear - NN. induction NN as [|[a b] l [Ha Hb] _ IH]; [constructor|]. constructor; [|exact IH]. cbn [fst snd] in *. split; apply IZR_le; assumption.
Qed.

(** It completes without a file. *)
Lemma harvester_completes np_sum v v' dtype window step cv ci size dt xs : check_vhrv v = Ok v' -> sensible v (Some dtype) window step true ->
  moderate_pair cv -> moderate_pair ci -> Forall (fun x => u32 (fst x) /\ u32 (snd x)) xs ->
  exists e, harvester_energy np_sum v dtype window step cv ci size dt false xs = Ok (e, []).
Proof.
  intros H1 H2 Hv Hi HX. unfold harvester_energy. destruct default_hrv_ok as (h & E0 & _). rewrite E0. cbn [bind].
  destruct (converts _ _ _ _ _ _ H1 H2) as (c & E1). rewrite E1. cbn [bind]. generalize (fst (c, [] : list unit)) as c0.
  intros _. set (c1 := fst _). assert (HB : Forall (Forall (fun x => u32 (fst x) /\ u32 (snd x))) (buffers size xs)).
  { apply Forall_forall. intros b I. unfold buffers in I. apply in_map_iff in I. destruct I as (k & <- & _).
    apply Forall_forall. intros x I. rewrite Forall_forall in HX. apply HX.
    rewrite <- (firstn_skipn (k * size) xs). apply in_or_app. right.
    rewrite <- (firstn_skipn size (skipn (k * size) xs)). apply in_or_app. now left. }
  generalize (h_init c1) as s. generalize (fz 0) as e. revert HB. generalize (buffers size xs) as bs. clear - Hv Hi.
  induction bs as [|b bs IH]; intros HB e s; cbn [harvest_buffers]; [eauto|]. inversion HB as [|? ? Hb HB']; subst.
  assert (P : exists s' l, harvest_points c1 cv ci s b = Ok (s', l)).
  { clear - Hv Hi Hb. revert s. induction Hb as [|x b [X1 X2] _ IH]; intros s; cbn [harvest_points]; [eauto|].
    destruct (sample_total cv ci x Hv Hi X1 X2) as [y E]. rewrite E. cbn [bind]. destruct (ivcurve_sample c1 s y) as [s1 z].
    destruct (IH s1) as (s2 & l & E2). rewrite E2. cbn [bind fst snd]. eauto. }
  destruct P as (s1 & l & E). rewrite E. cbn [bind fst snd].
  destruct (IH HB' (fadd e (buffer_energy np_sum dt (map (fun y => (fz (fst y), fz (snd y))) l))) s1) as (e2 & E2). rewrite E2. cbn [bind fst snd]. eauto.
Qed.

(** Passing points on, and the best of the curve. *)
Lemma pass_outputs c zs : h_window c <= 1 -> h_outputs c zs = zs.
Proof.
  intros W. unfold h_outputs. generalize (h_init c). induction zs as [|z zs IH]; intros s; [reflexivity|]. cbn [h_run].
  unfold ivcurve_sample. rewrite (proj2 (Z.leb_le _ _) W). specialize (IH s). destruct (h_run c s zs) as [s2 l]. cbn [snd] in *. now f_equal.
Qed.

Lemma outputs_length c zs : forall s, length (snd (h_run c s zs)) = length zs.
Proof.
  induction zs as [|z zs IH]; intros s; [reflexivity|]. cbn [h_run]. destruct (ivcurve_sample c s z) as [s1 y]. specialize (IH s1).
  destruct (h_run c s1 zs) as [s2 l]. cbn [snd length] in *. now f_equal.
Qed.

Lemma best_energy dt c zs : (0 <= dt)%R -> runs_opt c -> Forall (usable c) zs ->
  (energy_of dt (harvest_points_R zs) <= energy_of dt (harvest_points_R (h_outputs c zs)))%R.
Proof.
  intros D R U. rewrite !energy_flow. apply Rmult_le_compat_r; [exact D|]. apply Rmult_le_compat_r; [lra|].
  assert (K : forall k x y, nth_error zs k = Some x -> nth_error (h_outputs c zs) k = Some y -> HarvSpec.power x <= HarvSpec.power y).
  { intros k x y X Y. apply (opt_not_worse c zs k x y R X); [|exact Y]. rewrite Forall_forall in U. apply U. eapply nth_error_In, X. }
  assert (L : length (h_outputs c zs) = length zs) by apply outputs_length.
  revert K L. generalize (h_outputs c zs) as l. clear. induction zs as [|z zs IH]; intros [|y l] K L; try discriminate L; cbn [harvest_points_R map Rsum]; [lra|].
  pose proof (K 0%nat z y eq_refl eq_refl) as H. specialize (IH l (fun k => K (S k)) ltac:(now injection L)).
  cbn [fst snd]. rewrite <- !mult_IZR. unfold HarvSpec.power in H. apply IZR_le in H. unfold harvest_points_R in IH. lra.
Qed.

(** ** Recordings shorter than one block *)
Lemma short_none {A} size (xs : list A) : (length xs < size)%nat -> buffers size xs = [] /\ complete size xs = [].
Proof.
  intros L. unfold buffers, complete. rewrite Nat.div_small by exact L. split; reflexivity.
Qed.
Lemma short_source np_sum m p v t dtype window step cv ci size dt out xs e w : (length xs < size)%nat ->
  source_energy np_sum m p v t dtype window step cv ci size dt out xs = Ok (e, w) -> e = fz 0 /\ w = [].
Proof.
  intros L. unfold source_energy. rewrite (proj1 (short_none size xs L)). destruct default_emu as [cal|]; cbn [bind]; [|discriminate].
  destruct (vsm_config p v dtype window step false) as [k|]; cbn [bind]; [|discriminate]. destruct (vsm_init k cal); cbn [bind]; [|discriminate].
  cbn [source_buffers]. intros E. split; congruence.
Qed.
Lemma short_harvester np_sum v dtype window step cv ci size dt out xs e w : (length xs < size)%nat ->
  harvester_energy np_sum v dtype window step cv ci size dt out xs = Ok (e, w) -> e = fz 0 /\ w = [].
Proof.
  intros L. unfold harvester_energy. rewrite (proj1 (short_none size xs L)). destruct default_hrv as [h|]; cbn [bind]; [|discriminate].
  destruct (from_vhrv v (Some dtype) window step true) as [k|]; cbn [bind]; [|discriminate].
  cbn [harvest_buffers]. intros E. split; congruence.
Qed.
