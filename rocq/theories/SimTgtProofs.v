(** Proofs about the simulations, part 4: the closed loop of source and target. *)
From Coq Require Import ZArith Bool Reals Lia Lra Psatz List.
From Flocq Require Import Core IEEE754.BinarySingleNaN.
From RecordUpdate Require Import RecordSet.
From Verif Require Import PyBase F64 F64x HarvModel HarvSpec CalModel CalSpec CalProofs
  CalHwProofs CalDefProofs ConvModel ConvSpec ConvProofs ConvStepProofs ConvRunProofs ConvSrcProofs CfgModel CfgSpec CfgHrvProofs CfgDropProofs TgtModel TgtSpec
  TgtProofs TgtDiodeProofs TgtConvProofs SimModel SimSpec SimProofs SimLoopProofs.
Import RecordSetNotations ListNotations.
Open Scope Z_scope.

(** The default calibration. *)
Lemma default_cal : exists cal, default_emu = Ok cal /\ moderate_cal cal
  /\ fR (cp_gain (dac_V_A cal)) = rnd (/ 13107) /\ fR (cp_off (dac_V_A cal)) = 0%R
  /\ fR (cp_gain (adc_C_A cal)) = rnd (/ 4915200) /\ fR (cp_off (adc_C_A cal)) = 0%R.
Proof.
  destruct default_parts as (h & e & d & v & c & _ & E & D & _ & C & _ & ->). exists (mkEmu d d c c). split; [exact E|].
  assert (K1 : valid_pair d /\ fR (cp_gain d) = rnd (/ 13107) /\ fR (cp_off d) = 0%R).
  { refine ((fun H => conj (proj1 H) (conj (proj1 (proj2 H)) (proj1 (proj2 (proj2 H))))) (probe dac_voltage_to_raw _ 13107 d _ _ _ D));
      [vm_compute; reflexivity|vm_compute; reflexivity|lia]. }
  destruct K1 as (Vd & Gd & Od).
  assert (K2 : valid_pair c /\ fR (cp_gain c) = rnd (/ 4915200) /\ fR (cp_off c) = 0%R).
  { refine ((fun H => conj (proj1 H) (conj (proj1 (proj2 H)) (proj1 (proj2 (proj2 H))))) (probe adc_current_to_raw _ 4915200 c _ _ _ C));
      [vm_compute; reflexivity|vm_compute; reflexivity|lia]. }
  destruct K2 as (Vc & Gc & Oc).
  cbn [dac_V_A adc_C_A]. split; [|auto].
  assert (Hd : (bpow radix2 (-14) <= fR (cp_gain d) <= bpow radix2 0)%R).
  { rewrite Gd. change (bpow radix2 (-14)) with (/ 16384)%R. change (bpow radix2 0) with 1%R. apply rnd_between.
    - change (/ 16384)%R with (bpow radix2 (-14)). apply bpow_fmt. lia.
    - change 1%R with (bpow radix2 0). apply bpow_fmt. lia.
    - split; [apply Rinv_le; lra|]. lra. }
  assert (Hc : (bpow radix2 (-23) <= fR (cp_gain c) <= bpow radix2 0)%R).
  { rewrite Gc. change (bpow radix2 (-23)) with (/ 8388608)%R. change (bpow radix2 0) with 1%R. apply rnd_between.
    - change (/ 8388608)%R with (bpow radix2 (-23)). apply bpow_fmt. lia.
    - change 1%R with (bpow radix2 0). apply bpow_fmt. lia.
    - split; [apply Rinv_le; lra|]. lra. }
  pose proof (bpow_le radix2 0 100 ltac:(lia)). pose proof (bpow_le radix2 (-100) (-14) ltac:(lia)).
  pose proof (bpow_le radix2 (-40) (-23) ltac:(lia)). pose proof (bpow_ge_0 radix2 100).
  unfold moderate_cal, bounded_cal. cbn [dac_V_A adc_C_A]. rewrite Od, Oc, Rabs_R0. repeat split; try assumption; try apply Vd; try apply Vc; lra.
Qed.

(** The voltage at the target. *)
Lemma default_volt n : 0 <= n <= 65535 -> let g := rnd (/ 13107) in
  (0 <= rnd (rnd (rnd (IZR n * g) + 0) * 1000000) < 5000001)%R.
Proof.
  intros H g. assert (G : (0 <= g <= / 13107 + / 4503599627370496)%R).
  { pose proof (rnd_err (/ 13107)) as E. rewrite (Rabs_pos_eq (/ 13107)), u64_val in E by lra. pose proof eta_tiny. apply Rabs_le_inv in E.
    fold g in E. split; [unfold g; apply rnd_nonneg; lra|]. lra. }
  assert (N : (0 <= IZR n <= 65535)%R) by (split; apply IZR_le; lia). clearbody g. set (x := IZR n) in *. clearbody x.
  rewrite Rplus_0_r. rewrite (rnd_id (rnd (x * g))) by apply rnd_fmt.
  assert (P : (0 <= x * g <= 5 + / 34359738368)%R).
  { split; [apply Rmult_le_pos; lra|]. apply Rle_trans with (65535 * (/ 13107 + / 4503599627370496))%R; [apply Rmult_le_compat; lra|lra]. }
  assert (Q : (0 <= rnd (x * g) <= 5 + / 17179869184)%R).
  { split; [apply rnd_nonneg; lra|]. apply rnd_le_fmt; [|lra].
    replace (5 + / 17179869184)%R with (IZR 85899345921 * bpow radix2 (-34))%R by (change (bpow radix2 (-34)) with (/ 17179869184)%R; lra).
    apply fmt_scaled; lia. }
  split; [apply rnd_nonneg; lra|]. apply Rle_lt_trans with (5000000 + / 4)%R; [|lra].
  apply rnd_le_fmt; [|lra]. replace (5000000 + / 4)%R with (IZR 20000001 * bpow radix2 (-2))%R by (change (bpow radix2 (-2)) with (/ 4)%R; lra).
  apply fmt_scaled; lia.
Qed.

(** The targets. *)
Lemma draws m t uV pg : usual_target m t -> 0 <= uV <= 5000000 ->
  exists i, tgt_step m t uV pg = Ok i /\ proper i /\ current_ok i.
Proof.
  intros U H. assert (HU : (0 <= IZR uV <= 5000000)%R) by (split; apply IZR_le; lia).
  destruct U as [R c t FR BR E|a s t Fa Fs Ba Bs E|Vf If R c t ML ME UD E]; cbn [tgt_step].
  - destruct (resistor R c t uV pg FR BR E ltac:(lia)) as (i & S & P & A & Z0). exists i. split; [exact S|]. split; [exact P|].
    destruct P as [Fi Pi]. split; [exact Fi|]. rewrite Rabs_pos_eq by exact Pi.
    assert (C : (pg = true \/ c = false) \/ (pg = false /\ c = true)) by (destruct pg, c; auto).
    destruct C as [C|[C1 C2]]; [|rewrite (Z0 C1 C2); apply bpow_ge_0].
    specialize (A C). assert (PR : (/ 1024 <= fR R)%R).
    { unfold res_init in E. destruct (fle R (fdec 1 3)) eqn:L; [discriminate E|]. destruct dec3 as [F3 D3].
      apply fle_R_false in L; [|exact FR|exact F3]. lra. }
    assert (Q : (0 <= IZR uV / (fR R / 1000) <= 5120000000000)%R).
    { unfold Rdiv. rewrite Rinv_mult, Rinv_inv.
      assert (I : (0 < / fR R <= 1024)%R) by (split; [apply Rinv_0_lt_compat; lra|rewrite <- (Rinv_inv 1024); apply Rinv_le; lra]).
      set (y := (/ fR R)%R) in *. clearbody y. clear - I HU. split; [apply Rmult_le_pos; nra|]. nra. }
    set (y := (IZR uV / (fR R / 1000))%R) in *. clearbody y. apply Rabs_le_inv in A.
    assert (K1 : (0 <= bpow radix2 (-49) <= 1)%R) by (split; [apply bpow_ge_0|change 1%R with (bpow radix2 0); apply bpow_le; lia]).
    assert (K2 : (bpow radix2 (-1074) <= 1)%R) by (change 1%R with (bpow radix2 0); apply bpow_le; lia).
    assert (K3 : (bpow radix2 50 <= bpow radix2 940)%R) by (apply bpow_le; lia). change (bpow radix2 50) with 1125899906842624%R in K3.
    set (u := bpow radix2 (-49)) in *. clearbody u. assert (y * u <= y)%R by nra. lra.
  - destruct (current a s t uV pg Fa Fs Ba Bs E) as (i & S & P & A). exists i. split; [exact S|]. split; [exact P|].
    destruct P as [Fi Pi]. split; [exact Fi|]. rewrite A. apply rnd_abs; [lia|].
    unfold cur_init in E.
    assert (PA : (0 <= fR a)%R /\ (0 <= fR s)%R).
    { destruct (fle a (fz 0)) eqn:L; [discriminate E|]. cbn [orb] in E.
      destruct (fz_ok 0) as [F0 R0]; [lia|]. apply fle_R_false in L; [|exact Fa|exact F0]. rewrite R0 in L. split; [lra|].
      destruct (flt s (fz 0)) eqn:L2; [discriminate E|]. apply flt_R_false in L2; [|exact Fs|exact F0]. lra. }
    set (z := if pg then fR a else fR s). assert (Z1 : (0 <= z <= bpow radix2 900)%R) by (unfold z; destruct pg; lra). clearbody z.
    rewrite Rabs_pos_eq by lra. change 940 with (40 + 900). rewrite bpow_plus. apply Rmult_le_compat; try lra.
    change (bpow radix2 40) with 1099511627776%R. lra.
  - destruct (fle R (fdec 1 3)) eqn:G1; [unfold diode_init in E; rewrite G1 in E; discriminate E|].
    destruct (fle Vf (fdec 2 1)) eqn:G2; [unfold diode_init in E; rewrite G1, G2 in E; discriminate E|].
    destruct (diode_built m Vf If R c ME UD G1 G2) as (t' & E' & T & _). assert (t' = t) by congruence. subst t'. clear E'.
    destruct (diode_bounded m t uV pg ML ME T ltac:(lia)) as (i & S & P & A & _). exists i. split; [exact S|]. split; [exact P|].
    destruct P as [Fi Pi]. split; [exact Fi|]. rewrite Rabs_pos_eq by exact Pi. destruct T as (_ & BI & _ & BR).
    assert (Q : (0 <= IZR uV / 1000000 / fR (dt_R t) <= 5120)%R).
    { destruct (div_bounds (IZR uV / 1000000) (fR (dt_R t)) (/ 1024) 1000000000) as [B1 B2]; lra. }
    assert (K3 : (bpow radix2 50 <= bpow radix2 940)%R) by (apply bpow_le; lia). change (bpow radix2 50) with 1125899906842624%R in K3. lra.
Qed.

(** Samples of a recording. *)
Lemma sample_total cv ci x : moderate_pair cv -> moderate_pair ci -> u32 (fst x) -> u32 (snd x) -> exists y, sample_in cv ci x = Ok y.
Proof.
  assert (G : forall p n f, moderate_pair p -> u32 n -> fin f = true -> (Rabs (fR f) <= bpow radix2 30)%R ->
    fin (fmul (raw_to_si p (fz n) true) f) = true).
  { intros p n f ((Fg & Fo & Pg) & Bg & Bo) [N1 N2] Ff Bf. unfold raw_to_si. destruct (fz_ok n) as [Fn Rn]; [lia|].
    assert (B1 : (Rabs (fR (fz n)) <= bpow radix2 32)%R).
    { rewrite Rn, <- abs_IZR. change (bpow radix2 32) with (IZR (2 ^ 32)). apply IZR_le. lia. }
    assert (B2 : (Rabs (fR (cp_gain p)) <= bpow radix2 100)%R) by (rewrite Rabs_pos_eq by lra; exact Bg).
    destruct (mul_mag _ _ _ _ Fn Fg B1 B2) as (F1 & _ & M1); [lia|]. change (32 + 100) with 132 in M1.
    destruct (add_mag _ _ 132 F1 Fo M1) as (F2 & _ & M2); [apply (mag_le _ 100); [lia|exact Bo]|lia|].
    apply (mul_mag _ _ _ _ F2 Ff M2 Bf). lia. }
  intros Hv Hi Uv Ui. unfold sample_in.
  destruct (fz_ok (10 ^ 6)) as [F6 R6]; [lia|]. destruct (fz_ok (10 ^ 9)) as [F9 R9]; [lia|].
  rewrite fint_ok.
  2:{ apply G; auto. rewrite R6, <- abs_IZR. change (bpow radix2 30) with (IZR (2 ^ 30)). apply IZR_le. lia. }
  cbn [bind]. rewrite fint_ok.
  2:{ apply G; auto. rewrite R9, <- abs_IZR. change (bpow radix2 30) with (IZR (2 ^ 30)). apply IZR_le. lia. }
  cbn [bind]. eauto.
Qed.

Section Loop.
Variable m : pymath.
Variable t : target.
Variable k : vcfg.
Let c := vc_cnv k.
Hypothesis V : valid_ccfg c.
Hypothesis NL : Z.testbit (converter_mode c) 3 = false.
Variable cal : cal_emu.
Hypothesis MC : moderate_cal cal.
Hypothesis Gd : fR (cp_gain (dac_V_A cal)) = rnd (/ 13107).
Hypothesis Od : fR (cp_off (dac_V_A cal)) = 0%R.

Lemma out_range st v i io st' o : iterate_sampling k cal st v i io = Ok (st', o) ->
  0 <= o <= 5000000 /\ (is_outputting (cnv (vm_src st')) = false -> drain_n (cnv (vm_src st')) <= 0 -> o = 0).
Proof.
  intros H. destruct (iterate_split k cal _ _ _ _ _ _ H) as (_ & E & _). cbv zeta in E. fold c in E.
  destruct (src_split c cal _ _ _ _ _ _ E) as (raw & pi & po & vm & vraw & CS & _ & _ & _ & _ & F). specialize (F NL).
  destruct (step_split c cal _ _ _ _ CS) as (s1 & s2 & s3 & p1 & p2 & v3 & vr & H1 & H2 & H3 & H4 & EQ).
  assert (X : vr = vraw) by congruence. subst vr. clear EQ.
  pose proof (states_raw c cal _ _ _ H4) as Hr. destruct (dac_back cal MC vraw Hr) as [Fx Rx].
  rewrite fint_ok in F by exact Fx. rewrite Rx, Gd, Od in F. pose proof (default_volt vraw Hr) as B. cbv zeta in B.
  assert (Eo : o = Ztrunc (rnd (rnd (rnd (IZR vraw * rnd (/ 13107)) + 0) * 1000000))) by congruence. split.
  - set (r := rnd (rnd _ * 1000000)) in *. clearbody r. pose proof (trunc_bounds r (proj1 B)) as T. rewrite <- Eo in T.
    assert (0 <= o) by (rewrite Eo; rewrite <- (Ztrunc_IZR 0); apply Ztrunc_le; lra).
    split; [assumption|]. assert (L : (IZR o < IZR 5000001)%R) by (change (IZR 5000001) with 5000001%R; lra). apply lt_IZR in L. lia.
  - intros O D. destruct (states_inv c cal _ _ _ H4) as [EQ [[P _]|[_ Z0]]].
    + exfalso. rewrite EQ in O, D. unfold powered in P. cbn [is_outputting drain_n after_states] in O, D. rewrite O in P. cbn [orb] in P.
      apply Z.ltb_lt in P. lia.
    + rewrite Eo, Z0, Rmult_0_l, rnd_0, Rplus_0_r, rnd_0, Rmult_0_l, rnd_0. apply (Ztrunc_IZR 0).
Qed.

Lemma loop_total cv ci xs : moderate_pair cv -> moderate_pair ci -> Forall (fun x => u32 (fst x) /\ u32 (snd x)) xs ->
  usual_target m t -> forall st i, inv (cnv (vm_src st)) -> current_ok i ->
  exists st' l, loop_run m t k cal cv ci st i xs = Ok (st', l) /\ List.length l = List.length xs
    /\ Forall (fun y => 0 <= fst y <= 5000000 /\ proper (snd y) /\ current_ok (snd y)) l.
Proof.
  intros Hv Hi HX U. induction HX as [|x xs [X1 X2] _ IH]; intros st i I C; cbn [loop_run].
  - exists st, []. cbn. auto.
  - unfold loop_step. destruct (sample_total cv ci x Hv Hi X1 X2) as [y E]. rewrite E. cbn [bind].
    destruct (iterate_total k cal st (fst y) (snd y) i V MC I C) as (st1 & o & E1 & I1). rewrite E1. cbn [bind].
    destruct (out_range _ _ _ _ _ _ E1) as [R _]. destruct (fz_ok o) as [Fo Ro]; [lia|].
    rewrite fint_ok by exact Fo. cbn [bind]. rewrite Ro, Ztrunc_IZR.
    destruct (draws m t o (power_good (cnv (vm_src st1))) U R) as (j & T & P & CJ). rewrite T. cbn [bind].
    destruct (IH st1 j I1 CJ) as (st2 & l & E2 & L & F). rewrite E2. cbn [bind fst snd].
    exists st2, ((o, j) :: l). split; [reflexivity|]. split; [cbn; congruence|]. constructor; auto.
Qed.

(** Constant power. *)
Lemma power_fails pt cv ci st i x y st' o : sample_in cv ci x = Ok y ->
  iterate_sampling k cal st (fst y) (snd y) i = Ok (st', o) ->
  is_outputting (cnv (vm_src st')) = false -> drain_n (cnv (vm_src st')) <= 0 ->
  loop_step m (T_pow pt) k cal cv ci st i x = Err ZeroDivisionError.
Proof.
  intros E E1 O D. unfold loop_step. rewrite E. cbn [bind]. rewrite E1. cbn [bind].
  destruct (out_range _ _ _ _ _ _ E1) as [_ Z0]. rewrite (Z0 O D). reflexivity.
Qed.
End Loop.

(** What is stored. *)
Lemma stored cal y : moderate_cal cal -> fR (cp_gain (dac_V_A cal)) = rnd (/ 13107) -> fR (cp_off (dac_V_A cal)) = 0%R ->
  0 <= fst y <= 5000000 -> current_ok (snd y) -> exists n j, store_source cal y = Ok (n, j) /\ 0 <= n <= 65535
    /\ (Rabs (IZR n - IZR (fst y) / 1000000 * 13107) <= / 2 + / 500000)%R.
Proof.
  intros MC Gd Od HY CY. unfold store_source.
  destruct (fz_ok (fst y)) as [Fz Rz]; [lia|]. destruct dec6_fine as (Fd & Rd).
  pose proof eta_tiny as T. pose proof eta64_pos as T0.
  assert (BY : (0 <= IZR (fst y) <= 5000000)%R) by (split; apply IZR_le; lia).
  set (d := fR (fdec 1 6)) in *. set (x := IZR (fst y)) in *.
  assert (PX : (- / 100000000000 <= d * x - x / 1000000 <= / 100000000000 /\ 0 <= d * x)%R) by (unfold Rdiv; nra).
  destruct (fmul_Big (fdec 1 6) (fz (fst y)) Fd Fz) as [F1 R1].
  { rewrite Rz. fold x d. apply (CalHwProofs.small_Big _ 6); lra. }
  rewrite Rz in R1. fold x d in R1.
  pose proof (rnd_step (d * x) 6 ltac:(lra)) as RS. rewrite <- R1 in RS.
  assert (P1 : (0 <= fR (fmul (fdec 1 6) (fz (fst y))))%R) by (rewrite R1; apply rnd_nonneg; lra).
  destruct MC as (BC & GC & GU). pose proof BC as BC'.
  destruct BC as (VA & VD & _ & _ & OA & OD).
  destruct (probe_to_raw (dac_V_A cal) 13107 (fmul (fdec 1 6) (fz (fst y))) ltac:(lia) VD Gd Od F1 P1) as (n & E1 & E2).
  { change (IZR 13107) with 13107%R. set (w := fR (fmul _ _)) in *. clearbody w. lra. }
  rewrite E1. cbn [bind]. change (IZR 13107) with 13107%R in E2.
  assert (X : exists j, si_to_raw (adc_C_A cal) (fmul (fdec 1 9) (snd y)) = Ok j).
  { destruct CY as [Fi Bi]. destruct nano_ok as [Fn Bn]. destruct BC' as (_ & _ & _ & Bo & _).
    assert (B1 : (Rabs (fR (fdec 1 9)) <= bpow radix2 0)%R) by (rewrite Rabs_pos_eq by lra; apply Bn).
    destruct (mul_mag _ _ _ _ Fn Fi B1 Bi) as (F9 & _ & M9); [lia|].
    apply (si_total _ _ (-40) VA ltac:(lia) GC Bo F9); try lia. apply (mag_le _ (0 + 940)); [lia|exact M9]. }
  destruct X as (j & E3).
  rewrite E3. cbn [bind]. exists n, j. split; [reflexivity|].
  set (w := fR (fmul _ (fz (fst y)))) in *. clearbody w. apply abs_le in E2.
  set (q := (x / 1000000)%R) in *.
  assert (Q : (0 <= q <= 5)%R) by (unfold q; lra). clearbody q.
  assert (0 <= n). { apply le_IZR. destruct (Z_lt_le_dec n 0) as [L|L]; [|apply IZR_le; lia]. assert (IZR n <= -1)%R by (apply IZR_le; lia). lra. }
  assert (n <= 65535). { destruct (Z_lt_le_dec 65535 n) as [L|L]; [|lia]. assert (65536 <= IZR n)%R by (apply IZR_le; lia). lra. }
  split; [lia|]. apply abs_le. lra.
Qed.

(** The whole simulation. *)
Theorem simulation m p v v' hv' t dtype window step cv ci xs : pow_ok p -> check_vsrc v = Ok v' -> Forall usable_efficiency (vs_LUT_out v) ->
  check_vhrv (vs_harvester v) = Ok hv' -> sensible (vs_harvester v) (Some dtype) window step true -> usual_target m t ->
  moderate_pair cv -> moderate_pair ci -> Forall (fun x => u32 (fst x) /\ u32 (snd x)) xs ->
  exists st l cal, simulate_source m p v t dtype window step cv ci xs = Ok (st, l) /\ default_emu = Ok cal /\ List.length l = List.length xs
    /\ Forall (fun y => 0 <= fst y <= 5000000 /\ proper (snd y)
         /\ exists n j, store_source cal y = Ok (n, j) /\ 0 <= n <= 65535 /\ (Rabs (IZR n - IZR (fst y) / 1000000 * 13107) <= / 2 + / 500000)%R) l.
Proof.
  intros P H1 H2 H3 H4 U Hv Hi HX. unfold simulate_source, vsm_config.
  destruct default_cal as (cal & E0 & MC & Gd & Od & _). rewrite E0. cbn [bind].
  destruct (convert_src p v v' dtype false P H1 H2) as (c & E1 & VC & _). rewrite E1. cbn [bind].
  destruct (converts _ _ _ _ _ _ H3 H4) as (h & E2). rewrite E2. cbn [bind fst].
  destruct (source_init (mkVcfg c h) cal VC MC) as (st0 & E3 & I & _). rewrite E3. cbn [bind].
  destruct (mode_bits _ _ _ _ _ _ H1 E1) as (_ & _ & _ & LM & _). rewrite log_bit in LM.
  destruct (loop_total m t (mkVcfg c h) VC LM cal MC Gd Od cv ci xs Hv Hi HX U st0 (fz 0) I) as (st & l & E4 & L & F).
  { destruct (fz_ok 0) as [F0 R0]; [lia|]. split; [exact F0|]. rewrite R0, Rabs_R0. apply bpow_ge_0. }
  exists st, l, cal. split; [exact E4|]. split; [reflexivity|]. split; [exact L|].
  apply Forall_forall. intros y Iy. rewrite Forall_forall in F. destruct (F y Iy) as (A & B & C).
  split; [exact A|]. split; [exact B|]. now apply stored.
Qed.
