(** Proofs about the simulations, part 2: nothing overflows. *)
From Coq Require Import ZArith Bool Reals Lia Lra Psatz List.
From Flocq Require Import Core IEEE754.BinarySingleNaN.
From RecordUpdate Require Import RecordSet.
From Verif Require Import PyBase F64 F64x HarvModel HarvSpec CalModel CalSpec CalProofs
  CalHwProofs CalDefProofs ConvModel ConvSpec ConvProofs ConvStepProofs ConvRunProofs ConvSrcProofs CfgModel TgtModel TgtSpec
  SimModel SimSpec SimProofs.
Import RecordSetNotations ListNotations.
Open Scope Z_scope.

(** Sizes as powers of two. *)
Lemma bpow_fmt e : -1000 <= e <= 1023 -> fmt (bpow radix2 e).
Proof. intros H. rewrite <- (Rmult_1_l (bpow radix2 e)). apply (fmt_scaled 1 e); lia. Qed.
Lemma rnd_abs r e : -1000 <= e <= 1023 -> (Rabs r <= bpow radix2 e)%R -> (Rabs (rnd r) <= bpow radix2 e)%R.
Proof.
  intros H L. apply Rabs_le, rnd_between; [apply fmt_opp|..]; try now apply bpow_fmt. now apply Rabs_le_inv.
Qed.
Lemma bpow_Big e : e <= 1023 -> (bpow radix2 e <= Big)%R.
Proof. intros H. now apply bpow_le. Qed.

Lemma mul_mag x y a b : fin x = true -> fin y = true -> (Rabs (fR x) <= bpow radix2 a)%R -> (Rabs (fR y) <= bpow radix2 b)%R ->
  -1000 <= a + b <= 1023 ->
  fin (fmul x y) = true /\ fR (fmul x y) = rnd (fR x * fR y) /\ (Rabs (fR (fmul x y)) <= bpow radix2 (a + b))%R.
Proof.
  intros Fx Fy Hx Hy H. assert (M : (Rabs (fR x * fR y) <= bpow radix2 (a + b))%R).
  { rewrite Rabs_mult, bpow_plus. apply Rmult_le_compat; auto using Rabs_pos. }
  destruct (fmul_Big x y Fx Fy) as [A B]; [eapply Rle_trans; [exact M|apply bpow_Big; lia]|].
  split; [exact A|]. split; [exact B|]. rewrite B. now apply rnd_abs.
Qed.
Lemma plus_mag u v a : (Rabs u <= bpow radix2 a)%R -> (Rabs v <= bpow radix2 a)%R -> (Rabs (u + v) <= bpow radix2 (a + 1))%R.
Proof.
  intros A B. rewrite bpow_plus. change (bpow radix2 1) with 2%R. eapply Rle_trans; [apply Rabs_triang|]. lra.
Qed.
Lemma add_mag x y a : fin x = true -> fin y = true -> (Rabs (fR x) <= bpow radix2 a)%R -> (Rabs (fR y) <= bpow radix2 a)%R ->
  -1000 <= a <= 1022 ->
  fin (fadd x y) = true /\ fR (fadd x y) = rnd (fR x + fR y) /\ (Rabs (fR (fadd x y)) <= bpow radix2 (a + 1))%R.
Proof.
  intros Fx Fy Hx Hy H. pose proof (plus_mag _ _ _ Hx Hy) as M.
  destruct (fadd_Big x y Fx Fy) as [A B]; [eapply Rle_trans; [exact M|apply bpow_Big; lia]|].
  split; [exact A|]. split; [exact B|]. rewrite B. apply rnd_abs; [lia|exact M].
Qed.
Lemma sub_mag x y a : fin x = true -> fin y = true -> (Rabs (fR x) <= bpow radix2 a)%R -> (Rabs (fR y) <= bpow radix2 a)%R ->
  -1000 <= a <= 1022 ->
  fin (fsub x y) = true /\ fR (fsub x y) = rnd (fR x - fR y) /\ (Rabs (fR (fsub x y)) <= bpow radix2 (a + 1))%R.
Proof.
  intros Fx Fy Hx Hy H. assert (M : (Rabs (fR x - fR y) <= bpow radix2 (a + 1))%R).
  { apply plus_mag; [exact Hx|]. now rewrite Rabs_Ropp. }
  destruct (fsub_Big x y Fx Fy) as [A B]; [eapply Rle_trans; [exact M|apply bpow_Big; lia]|].
  split; [exact A|]. split; [exact B|]. rewrite B. apply rnd_abs; [lia|exact M].
Qed.
Lemma mag_le r a b : a <= b -> (Rabs r <= bpow radix2 a)%R -> (Rabs r <= bpow radix2 b)%R.
Proof. intros H L. eapply Rle_trans; [exact L|]. now apply bpow_le. Qed.
Lemma quot_mag u v a b : (Rabs u <= bpow radix2 a)%R -> (bpow radix2 b <= v)%R -> (Rabs (u / v) <= bpow radix2 (a - b))%R.
Proof.
  intros A B. pose proof (bpow_gt_0 radix2 b). unfold Rdiv, Zminus. rewrite Rabs_mult, bpow_plus, bpow_opp.
  apply Rmult_le_compat; auto using Rabs_pos. rewrite Rabs_pos_eq by (apply Rlt_le, Rinv_0_lt_compat; lra). apply Rinv_le; lra.
Qed.

(** Conversion of an SI value. *)
Lemma si_total p si b : valid_pair p -> -1000 <= b <= 60 -> (bpow radix2 b <= fR (cp_gain p))%R -> (Rabs (fR (cp_off p)) <= bpow radix2 100)%R ->
  fin si = true -> (Rabs (fR si) <= bpow radix2 (1022 + Z.min 0 b))%R -> -1000 <= 1022 + Z.min 0 b ->
  100 <= 1022 + Z.min 0 b -> exists n, si_to_raw p si = Ok n.
Proof.
  intros (Fg & Fo & Pg) Hb Bg Bo Fs Bs H1 H2. unfold si_to_raw.
  destruct (sub_mag si (cp_off p) (1022 + Z.min 0 b) Fs Fo Bs) as (A & _ & B); [apply (mag_le _ 100); [lia|exact Bo]|lia|].
  pose proof (quot_mag _ _ _ _ B Bg) as Q.
  destruct (fdiv_Big _ _ A Fg) as (q & E & Fq & _); [lra|eapply Rle_trans; [exact Q|apply bpow_Big; lia]|].
  rewrite E. cbn [bind]. rewrite fround_ok by (apply fmax_fin; [exact Fq|apply fz_fin; lia]). eauto.
Qed.

Section Cfg.
Variable c : ccfg.
Hypothesis V : valid_ccfg c.
Variable cal : cal_emu.
Hypothesis MC : moderate_cal cal.

Lemma dac_back n : 0 <= n <= 65535 -> let x := fmul (raw_to_si (dac_V_A cal) (fz n) true) (fz (10 ^ 6)) in
  fin x = true /\ fR x = rnd (rnd (rnd (IZR n * fR (cp_gain (dac_V_A cal))) + fR (cp_off (dac_V_A cal))) * 1000000).
Proof.
  intros H. destruct MC as ((_ & (Fg & Fo & Pg) & _ & _ & _ & Bo) & _ & Bg). cbv zeta. unfold raw_to_si.
  destruct (fz_ok n) as [Fn Rn]; [lia|]. destruct (fz_ok (10 ^ 6)) as [F6 R6]; [lia|]. change (IZR (10 ^ 6)) with 1000000%R in R6.
  assert (B1 : (Rabs (fR (fz n)) <= bpow radix2 16)%R).
  { rewrite Rn, <- abs_IZR. change (bpow radix2 16) with 65536%R. apply IZR_le. lia. }
  assert (B2 : (Rabs (fR (cp_gain (dac_V_A cal))) <= bpow radix2 100)%R) by (rewrite Rabs_pos_eq by lra; exact Bg).
  destruct (mul_mag _ _ _ _ Fn Fg B1 B2) as (F1 & E1 & M1); [lia|]. change (16 + 100) with 116 in M1.
  destruct (add_mag _ _ 116 F1 Fo M1) as (F2 & E2 & M2); [apply (mag_le _ 100); [lia|exact Bo]|lia|]. change (116 + 1) with 117 in M2.
  assert (B3 : (Rabs (fR (fz (10 ^ 6))) <= bpow radix2 20)%R).
  { rewrite R6, Rabs_pos_eq by lra. change (bpow radix2 20) with 1048576%R. lra. }
  destruct (mul_mag _ _ _ _ F2 F6 M2 B3) as (F3 & E3 & _); [lia|]. split; [exact F3|].
  rewrite E3, E2, E1, Rn, R6. reflexivity.
Qed.

Lemma nano_ok : fin (fdec 1 9) = true /\ (0 <= fR (fdec 1 9) <= 1)%R.
Proof.
  destruct (cst (fdec 1 9) 4835703278458517 (-82)) as [A B]; [vm_compute; reflexivity|]. split; [exact A|]. rewrite B.
  split; [apply Rmult_le_pos; [apply IZR_le; lia|apply bpow_ge_0]|].
  change (bpow radix2 (-82)) with (/ IZR (2 ^ 82))%R. apply (Rmult_le_reg_r (IZR (2 ^ 82))); [apply IZR_lt; lia|].
  rewrite Rmult_assoc, Rinv_l by (apply not_0_IZR; lia). rewrite Rmult_1_r, Rmult_1_l. apply IZR_le. lia.
Qed.

Lemma out_code io : current_ok io -> exists raw, si_to_raw (adc_C_A cal) (fmul io (fdec 1 9)) = Ok raw.
Proof.
  intros [Fi Bi]. destruct MC as ((Vp & _ & _ & Bo & _) & Bg & _). destruct nano_ok as [Fn Bn].
  assert (B1 : (Rabs (fR (fdec 1 9)) <= bpow radix2 0)%R) by (rewrite Rabs_pos_eq by lra; apply Bn).
  destruct (mul_mag _ _ _ _ Fi Fn Bi B1) as (F1 & _ & M1); [lia|].
  apply (si_total _ _ (-40) Vp ltac:(lia) Bg Bo F1); try lia. apply (mag_le _ (940 + 0)); [lia|exact M1].
Qed.

(** A step of the source always succeeds. *)
Lemma src_total w v i io : inv (cnv w) -> current_ok io -> exists w' o, src_step c cal w v i io = Ok (w', o) /\ inv (cnv w').
Proof.
  intros I Hi. destruct (out_code io Hi) as [raw Er]. destruct (step_total c V cal (cnv w) (mkCin v i raw) (proj1 MC) I) as (s' & t & E).
  destruct (step_split c cal _ _ _ _ E) as (s1 & s2 & s3 & pi & po & vm & vr & H1 & H2 & H3 & H4 & _). cbn [in_V in_I in_raw] in *.
  pose proof (states_raw c cal _ _ _ H4) as Hr. destruct (dac_back vr Hr) as [Fx _].
  pose proof (proj1 (step_inv c V cal _ _ _ _ (proj1 (proj1 MC)) I E)) as I'.
  unfold src_step. rewrite H1. cbn [bind]. rewrite Er. cbn [bind]. rewrite H2. cbn [bind]. rewrite H3. cbn [bind]. rewrite H4. cbn [bind].
  rewrite fint_ok by exact Fx. cbn [bind]. eexists. eexists. split; [reflexivity|]. cbn [cnv]. exact I'.
Qed.
Lemma src_init_ok : exists w, src_init c cal = Ok w /\ inv (cnv w) /\ W_inp w = fz 0 /\ W_out w = fz 0.
Proof.
  unfold src_init. destruct (sim_total c V cal [] (proj1 MC)) as [s E]. unfold conv_sim in E.
  destruct (conv_init c cal) as [s0|] eqn:E0; [|discriminate E]. cbn [bind]. exists (mkSrc s0 (fz 0) (fz 0)).
  split; [reflexivity|]. split; [|auto]. cbn [cnv]. now apply (init_inv c V cal).
Qed.
End Cfg.

(** The source with its harvester. *)
Lemma iterate_total k cal st v i io : valid_ccfg (vc_cnv k) -> moderate_cal cal -> inv (cnv (vm_src st)) -> current_ok io ->
  exists st' o, iterate_sampling k cal st v i io = Ok (st', o) /\ inv (cnv (vm_src st')).
Proof.
  intros V MC I Hi. unfold iterate_sampling. set (r := match vm_set st with None => _ | Some f => _ end). clearbody r.
  destruct r as [s y]. destruct (src_total _ V cal MC (vm_src st) (fz (fst y)) (fz (snd y)) io I Hi) as (w & o & E & I').
  rewrite E. cbn [bind]. eexists. eexists. split; [reflexivity|exact I'].
Qed.
Lemma source_init k cal : valid_ccfg (vc_cnv k) -> moderate_cal cal ->
  exists st, vsm_init k cal = Ok st /\ inv (cnv (vm_src st)) /\ vm_set st = None /\ vm_hrv st = h_init (vc_hrv k).
Proof.
  intros V MC. unfold vsm_init. destruct (src_init_ok _ V cal MC) as (w & E & I & _). rewrite E. cbn [bind].
  eexists. split; [reflexivity|]. auto.
Qed.
Lemma source_total k cal xs : valid_ccfg (vc_cnv k) -> moderate_cal cal -> Forall (fun x => current_ok (snd x)) xs ->
  exists st outs, vsm_sim k cal xs = Ok (st, outs) /\ inv (cnv (vm_src st)).
Proof.
  intros V MC H. unfold vsm_sim. destruct (source_init k cal V MC) as (st & E & I & _). rewrite E. cbn [bind]. clear E.
  revert st I. induction H as [|[x io] xs Hx _ IH]; intros st I; cbn [vsm_run]; [eauto|].
  destruct (iterate_total k cal st (fst x) (snd x) io V MC I Hx) as (st' & o & E & I'). rewrite E. cbn [bind fst snd].
  destruct (IH st' I') as (st2 & l & E2 & I2). rewrite E2. cbn [bind fst snd]. eauto.
Qed.
