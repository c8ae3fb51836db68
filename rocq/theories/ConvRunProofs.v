(** Proofs about the converter stage, part 3: whole simulations. *)
From Coq Require Import ZArith Bool Reals Lia Lra Psatz List.
From Flocq Require Import Core IEEE754.BinarySingleNaN.
From RecordUpdate Require Import RecordSet.
From Verif Require Import PyBase F64 F64x CalModel CalSpec CalProofs CalHwProofs ConvModel ConvSpec ConvProofs ConvStepProofs.
Import RecordSetNotations ListNotations.
Open Scope Z_scope.

Section Cfg.
Variable c : ccfg.
Hypothesis V : valid_ccfg c.
Variable cal : cal_emu.

(** DAC code. *)
Lemma dac_range v n : conv_uV_to_dac_raw cal v = Ok n -> 0 <= n <= 65535.
Proof.
  unfold conv_uV_to_dac_raw. destruct (si_to_raw _ _) as [r|e] eqn:E; [|discriminate]. cbn [bind].
  intros H. injection H as <-. apply si_to_raw_nonneg in E. change (2 ^ 16 - 1) with 65535. lia.
Qed.

Lemma dac_total v : bounded_cal cal -> vok v -> exists n, conv_uV_to_dac_raw cal v = Ok n.
Proof.
  intros (_ & (Fg & Fo & Pg) & _ & _ & Bg & Bo) [Fv Bv]. unfold conv_uV_to_dac_raw, si_to_raw.
  destruct (fz_ok (10 ^ 6)) as [F6 R6]; [lia|]. change (IZR (10 ^ 6)) with 1000000%R in R6.
  change (IZR (2 ^ 32)) with 4294967296%R in Bv.
  assert (Q : (0 <= fR v / 1000000 <= 4294967296)%R) by lra.
  destruct (idiv_Big v (fz (10 ^ 6)) Fv) as [A B]; [rewrite R6; lra| |].
  { rewrite R6, Rabs_pos_eq by lra. assert (L : (4294967296 <= Big)%R) by (apply IZR_Big; lia). lra. }
  assert (B2 : (0 <= fR (idiv v (fz (10 ^ 6))) <= P2 32)%R).
  { rewrite B, R6. split; [apply rnd_nonneg; lra|]. apply rnd_le_fmt; [apply P2_fmt; lia|]. change (P2 32) with 4294967296%R. lra. }
  set (x := idiv v (fz (10 ^ 6))) in *. clearbody x.
  assert (E100 : bpow radix2 100 = P2 100) by (unfold P2; rewrite <- bpow_IZR by lia; reflexivity).
  rewrite E100 in Bo. pose proof (P2_le 32 100 ltac:(lia)) as L32. pose proof (P2_Big 101 ltac:(lia)) as B101.
  assert (E101 : P2 101 = (P2 100 * 2)%R) by (change 101 with (100 + 1); rewrite <- P2_mul by lia; reflexivity).
  assert (S : (- P2 101 <= fR x - fR (cp_off (dac_V_A cal)) <= P2 101)%R).
  { apply Rabs_le_inv in Bo. lra. }
  destruct (fsub_Big x _ A Fo) as [C D]; [apply Rabs_le; lra|].
  assert (S2 : (- P2 101 <= fR (fsub x (cp_off (dac_V_A cal))) <= P2 101)%R).
  { rewrite D. apply rnd_between; [apply fmt_opp, P2_fmt; lia|apply P2_fmt; lia|exact S]. }
  set (y := fsub x (cp_off (dac_V_A cal))) in *. clearbody y. set (g := cp_gain (dac_V_A cal)) in *.
  assert (I : (0 < / fR g <= P2 100)%R).
  { split; [apply Rinv_0_lt_compat; exact Pg|]. rewrite <- E100. replace (bpow radix2 100) with (/ bpow radix2 (-100))%R.
    - apply Rinv_le; [apply bpow_gt_0|exact Bg].
    - rewrite <- bpow_opp. reflexivity. }
  assert (S3 : (- P2 201 <= fR y / fR g <= P2 201)%R).
  { change 201 with (101 + 100). rewrite <- P2_mul by lia. unfold Rdiv. pose proof (P2_pos 101 ltac:(lia)).
    set (a := P2 101) in *. set (b := P2 100) in *. clearbody a b. clear -I S2 H. nra. }
  destruct (fdiv_Big y g C Fg ltac:(lra)) as (q & Q1 & Q2 & Q3); [apply Rabs_le; pose proof (P2_Big 201 ltac:(lia)); lra|].
  destruct (fz_ok 0) as [F0 R0]; [lia|].
  rewrite Q1. cbn [bind]. rewrite fround_ok by now apply fmax_fin. cbn [bind]. eexists; reflexivity.
Qed.

(** The invariant of the simulation. *)
Record inv (s : conv) : Prop := {
  i_mid : vok (V_mid s);
  i_out : vok (V_out s);
  i_res : rok (residue s);
  i_drain : 0 <= drain_n s;
  i_raw : 0 <= V_out_raw s <= 65535;
}.

Lemma init_inv s : conv_init c cal = Ok s -> inv s.
Proof.
  unfold conv_init. destruct (conv_uV_to_dac_raw cal _) as [n|e] eqn:E; [|discriminate]. cbn [bind].
  intros H. assert (H1 : s = s) by reflexivity. apply (f_equal (fun r => match r with Ok a => a | Err _ => s end)) in H.
  rewrite <- H. clear H H1 s. constructor; cbn [V_mid V_out residue drain_n V_out_raw].
  - apply fz_vok, V.
  - apply fz_vok, V.
  - destruct (fz_ok 0) as [F0 R0]; [lia|]. split; [exact F0|]. rewrite R0. lra.
  - apply V.
  - now apply dac_range in E.
Qed.

Lemma start_state s : conv_sim c cal [] = Ok s ->
  fR (V_mid s) = IZR (V_intermediate_init_uV c) /\ fR (V_request s) = IZR (V_intermediate_init_uV c)
  /\ fR (V_out s) = IZR (V_output_uV c) /\ conv_uV_to_dac_raw cal (V_out s) = Ok (V_out_raw s)
  /\ fR (P_inp s) = 0%R /\ fR (P_out s) = 0%R /\ fR (residue s) = 0%R /\ is_outputting s = false /\ power_good s = true.
Proof.
  unfold conv_sim, conv_init. destruct (conv_uV_to_dac_raw cal _) as [n|e] eqn:E; [|discriminate]. cbn [bind conv_run].
  intros H. apply (f_equal (fun r => match r with Ok a => a | Err _ => s end)) in H. rewrite <- H.
  cbn [V_mid V_request V_out V_out_raw P_inp P_out residue is_outputting power_good].
  destruct (fz_u32 _ (vc_init c V)) as (_ & A & _). destruct (fz_u32 _ (vc_Vout c V)) as (_ & B & _).
  rewrite A, B, fz0. auto 10.
Qed.

(** Voltage after the thresholds. *)
Lemma V_enable_ok : fin (fz (V_enable c)) = true /\ fR (fz (V_enable c)) = IZR (V_enable c)
  /\ (IZR (dV_enable_output_uV c) <= IZR (V_enable c))%R /\ u32 (V_enable c).
Proof.
  assert (H : u32 (V_enable c)) by (unfold V_enable; destruct (vc_dV c V), (vc_en c V); split; lia).
  destruct (fz_u32 _ H) as (A & B & _). repeat split; auto; try apply H. apply IZR_le. unfold V_enable. lia.
Qed.

Lemma mid_next_ok s : vok (V_mid s) -> vok (mid_next c s) /\ (fR (mid_next c s) <= fR (V_mid s))%R.
Proof.
  intros Vm. unfold mid_next. destruct (check_now c s && negb (is_outputting s) && _) eqn:E; [|split; [exact Vm|lra]].
  apply andb_prop in E. destruct E as [_ E]. destruct V_enable_ok as (A & B & D & _).
  apply fle_R in E; [|exact A|apply Vm]. rewrite B in E.
  destruct (fz_u32 _ (vc_dV c V)) as (Fd & Rd & _).
  destruct (sub_vok (V_mid s) (fz (dV_enable_output_uV c)) Vm (fz_vok _ (vc_dV c V)) ltac:(lra)) as (X & _ & Y). auto.
Qed.

Lemma vout_next_ok s : vok (V_mid s) -> vok (vout_next c s).
Proof.
  intros Vm. destruct (mid_next_ok s Vm) as [Vn _]. unfold vout_next.
  destruct (powered c s); [|apply zero_vok].
  destruct (negb (enable_buck c) || _); [|apply fz_vok, V].
  destruct (flt (fz (V_buck_drop_uV c)) (mid_next c s)) eqn:E; [|apply zero_vok].
  destruct (fz_u32 _ (vc_Vbuck c V)) as (Fd & Rd & _).
  apply flt_R in E; [|exact Fd|apply Vn].
  apply (sub_vok (mid_next c s) _ Vn (fz_vok _ (vc_Vbuck c V))). lra.
Qed.

Definition after_states (s : conv) (raw : Z) : conv :=
  mkConv (V_input s) (P_inp s) (P_out s) (drain_n s) (mid_next c s) (V_request s) (vout_next c s) raw
    (good_next c s) (if check_now c s then 0 else sample_count s + 1) (on_next c s)
    (flt (vout_next c s) (fz (V_output_log_gpio_threshold_uV c))) (residue s).

Lemma states_inv s s' n : update_states_and_output c cal s = Ok (s', n) ->
  s' = after_states s n
  /\ ((powered c s = true /\ conv_uV_to_dac_raw cal (vout_next c s) = Ok n) \/ (powered c s = false /\ n = 0)).
Proof.
  rewrite states_eq. destruct (powered c s).
  - destruct (conv_uV_to_dac_raw cal (vout_next c s)) as [r|e]; [|discriminate]. cbn [bind].
    intros H. assert (H1 : after_states s r = s' /\ r = n) by (split; [|congruence]; apply (f_equal (fun x => match x with Ok p => fst p | Err _ => s' end)) in H; exact H).
    destruct H1 as [<- <-]. auto.
  - cbn [bind]. intros H.
    assert (H1 : after_states s 0 = s' /\ 0 = n) by (split; [|congruence]; apply (f_equal (fun x => match x with Ok p => fst p | Err _ => s' end)) in H; exact H).
    destruct H1 as [<- <-]. auto.
Qed.

Lemma states_raw s s' n : update_states_and_output c cal s = Ok (s', n) -> 0 <= n <= 65535.
Proof. intros H. destruct (states_inv s s' n H) as [_ [[_ E]|[_ ->]]]; [now apply dac_range in E|lia]. Qed.

(** One step, taken apart. *)
Lemma step_split s x s' t : conv_step c cal s x = Ok (s', t) ->
  exists s1 s2 s3 pi po vm raw, calc_inp_power c s (in_V x) (in_I x) = Ok (s1, pi)
    /\ calc_out_power c cal s1 (in_raw x) = Ok (s2, po)
    /\ update_cap_storage c s2 = Ok (s3, vm)
    /\ update_states_and_output c cal s3 = Ok (s', raw) /\ t = (pi, po, vm, raw).
Proof.
  unfold conv_step.
  destruct (calc_inp_power c s (in_V x) (in_I x)) as [[s1 pi]|] eqn:E1; [|discriminate]. cbn [bind].
  destruct (calc_out_power c cal s1 (in_raw x)) as [[s2 po]|] eqn:E2; [|discriminate]. cbn [bind].
  destruct (update_cap_storage c s2) as [[s3 vm]|] eqn:E3; [|discriminate]. cbn [bind].
  destruct (update_states_and_output c cal s3) as [[s4 raw]|] eqn:E4; [|discriminate]. cbn [bind].
  intros H. assert (H1 : s4 = s' /\ (pi, po, vm, raw) = t) by (split; congruence). destruct H1 as [<- <-].
  exists s1, s2, s3, pi, po, vm, raw. repeat split; assumption.
Qed.

(** Everything known about one step from a state that satisfies the invariant. *)
Lemma step_facts s x s' t : valid_pair (adc_C_A cal) -> inv s -> conv_step c cal s x = Ok (s', t) ->
  exists p vm1 rq po r v raw,
    let s1 := after_inp c s (in_V x) p vm1 rq in
    let s2 := after_out s1 po r in
    let s3 := with_mid s2 v in
    s' = after_states s3 raw /\ vok vm1
    /\ fin p = true /\ (0 <= fR p <= P2 64)%R
    /\ fin po = true /\ (0 <= fR po)%R /\ rok r
    /\ (0 < drain_n s -> fR po = 0%R)
    /\ fin v = true /\ (1 <= fR v <= Vcap c)%R
    /\ t = (ZnearestE (fR p), ZnearestE (fR po), ZnearestE (fR v), raw)
    /\ ((powered c s3 = true /\ conv_uV_to_dac_raw cal (vout_next c s3) = Ok raw) \/ (powered c s3 = false /\ raw = 0)).
Proof.
  intros Hp I H. destruct (step_split s x s' t H) as (s1 & s2 & s3 & pi & po & vm & raw & H1 & H2 & H3 & H4 & ->).
  destruct (inp_ok c V s (in_V x) (in_I x) (i_mid s I)) as (p & vm1 & rq & E1 & Fp & Bp & _ & Vm1 & _).
  rewrite H1 in E1. assert (X : s1 = after_inp c s (in_V x) p vm1 rq /\ pi = ZnearestE (fR p)) by (split; congruence).
  destruct X as [-> ->]. clear E1 H1.
  destruct (out_inv c V cal (after_inp c s (in_V x) p vm1 rq) _ _ _ Hp Vm1 (i_out s I) (i_res s I) (i_drain s I) H2)
    as (q & r & -> & -> & Fq & Bq & Rr & D1 & _).
  destruct (cap_inv c V _ _ _ H3) as (v & -> & Fv & Bv & ->).
  destruct (states_inv _ _ _ H4) as [-> Hs].
  exists p, vm1, rq, q, r, v, raw. cbv zeta. repeat (split; [first [reflexivity|assumption]|]). exact Hs.
Qed.

Lemma vok_cap v : fin v = true -> (1 <= fR v <= Vcap c)%R -> vok v.
Proof. intros F B. pose proof (Vcap_range c V). split; [exact F|lra]. Qed.

Lemma step_inv s x s' t : valid_pair (adc_C_A cal) -> inv s -> conv_step c cal s x = Ok (s', t) ->
  inv s' /\ (fR (V_mid s') <= Vcap c)%R.
Proof.
  intros Hp I H. destruct (step_facts s x s' t Hp I H) as (p & vm1 & rq & po & r & v & raw & G). cbv zeta in G.
  destruct G as (-> & Vm1 & Fp & Bp & Fq & Bq & Rr & _ & Fv & Bv & _ & Hs).
  set (s3 := with_mid _ v) in *. pose proof (vok_cap v Fv Bv) as Vv.
  destruct (mid_next_ok s3 Vv) as [Mn Ml]. change (V_mid s3) with v in Ml.
  split; [|cbn [V_mid after_states]; lra].
  constructor; cbn [V_mid V_out residue drain_n V_out_raw after_states].
  - exact Mn.
  - apply vout_next_ok. exact Vv.
  - exact Rr.
  - cbn. lia.
  - destruct Hs as [[_ E]|[_ ->]]; [now apply dac_range in E|lia].
Qed.

Lemma run_app s xs ys : conv_run c cal s (xs ++ ys) = let* s' := conv_run c cal s xs in conv_run c cal s' ys.
Proof.
  revert s. induction xs as [|x xs IH]; intros s; [reflexivity|]. cbn [app conv_run].
  destruct (conv_step c cal s x) as [[s' t]|e]; [|reflexivity]. cbn [bind]. apply IH.
Qed.

Lemma sim_snoc xs x s' : conv_sim c cal (xs ++ [x]) = Ok s' ->
  exists s t, conv_sim c cal xs = Ok s /\ conv_step c cal s x = Ok (s', t).
Proof.
  unfold conv_sim. destruct (conv_init c cal) as [s0|]; [|discriminate]. cbn [bind]. rewrite run_app.
  destruct (conv_run c cal s0 xs) as [s|]; [|discriminate]. cbn [bind conv_run].
  destruct (conv_step c cal s x) as [[s1 t]|] eqn:E; [|discriminate]. cbn [bind]. intros H. injection H as <-. eauto.
Qed.
Lemma sim_snoc_intro xs x s s' t : conv_sim c cal xs = Ok s -> conv_step c cal s x = Ok (s', t) ->
  conv_sim c cal (xs ++ [x]) = Ok s'.
Proof.
  unfold conv_sim. destruct (conv_init c cal) as [s0|]; [|discriminate]. cbn [bind]. rewrite run_app.
  intros -> H. cbn [bind conv_run]. rewrite H. reflexivity.
Qed.

Lemma sim_inv xs s : valid_pair (adc_C_A cal) -> conv_sim c cal xs = Ok s -> inv s.
Proof.
  intros Hp. revert s. induction xs as [|x xs IH] using rev_ind; intros s H.
  - unfold conv_sim in H. destruct (conv_init c cal) eqn:E; [|discriminate]. cbn in H. injection H as <-. now apply init_inv.
  - destruct (sim_snoc _ _ _ H) as (s0 & t & H1 & H2). exact (proj1 (step_inv _ _ _ _ Hp (IH _ H1) H2)).
Qed.

(** C10 *)
Lemma mid_bounds xs s : valid_pair (adc_C_A cal) -> xs <> [] -> conv_sim c cal xs = Ok s ->
  fin (V_mid s) = true /\ (0 <= fR (V_mid s) <= Rmax 1 (IZR (V_intermediate_max_uV c)))%R.
Proof.
  intros Hp Ne H. destruct (exists_last Ne) as (ys & x & ->).
  destruct (sim_snoc _ _ _ H) as (s0 & t & H1 & H2).
  destruct (step_inv _ _ _ _ Hp (sim_inv _ _ Hp H1) H2) as [I B].
  destruct (i_mid s I) as [F L]. split; [exact F|]. unfold Vcap in B. lra.
Qed.

(** The simulation never raises with a bounded calibration. *)
Lemma step_total s x : bounded_cal cal -> inv s -> exists s' t, conv_step c cal s x = Ok (s', t).
Proof.
  intros Hb I. unfold conv_step.
  destruct (inp_ok c V s (in_V x) (in_I x) (i_mid s I)) as (p & vm1 & rq & E1 & Fp & Bp & _ & Vm1 & _).
  rewrite E1. cbn [bind]. set (s1 := after_inp c s (in_V x) p vm1 rq).
  destruct (out_total c V cal s1 (in_raw x) Hb Vm1 (i_out s I) (i_res s I) (i_drain s I)) as (s2 & n2 & E2 & B2).
  rewrite E2. cbn [bind].
  destruct (out_inv c V cal s1 _ _ _ (proj1 Hb) Vm1 (i_out s I) (i_res s I) (i_drain s I) E2)
    as (q & r & -> & -> & Fq & Bq & Rr & D1 & _).
  cbn [P_out after_out] in B2.
  destruct (cap_ok c V (after_out s1 q r) Vm1 Fp Bp Fq (conj Bq B2)) as (v & E3 & Fv & Rv).
  rewrite E3. cbn [bind]. set (s3 := with_mid (after_out s1 q r) v).
  destruct (cap_inv c V _ _ _ E3) as (v' & Ev & _ & Bv & _).
  assert (v = v') by (apply (f_equal V_mid) in Ev; exact Ev). subst v'.
  pose proof (vok_cap v Fv Bv) as Vv.
  rewrite states_eq. destruct (powered c s3).
  - destruct (dac_total (vout_next c s3) Hb (vout_next_ok s3 Vv)) as [n ->]. cbn [bind]. eauto.
  - cbn [bind]. eauto.
Qed.

Lemma sim_total xs : bounded_cal cal -> exists s, conv_sim c cal xs = Ok s.
Proof.
  intros Hb. induction xs as [|x xs [s IH]] using rev_ind.
  - destruct (dac_total (fz (V_output_uV c)) Hb (fz_vok _ (vc_Vout c V))) as [n E].
    unfold conv_sim, conv_init. rewrite E. cbn. eauto.
  - destruct (step_total s x Hb (sim_inv _ _ (proj1 Hb) IH)) as (s' & t & E).
    exists s'. eapply sim_snoc_intro; eauto.
Qed.

(** States before the thresholds. *)
Lemma before_ok s : valid_pair (adc_C_A cal) -> before_output c cal s ->
  fin (V_mid s) = true /\ (1 <= fR (V_mid s) <= Vcap c)%R /\ vok (V_mid s) /\ 0 <= drain_n s.
Proof.
  intros Hp (xs & x & s0 & s1 & s2 & n1 & n2 & n3 & H0 & H1 & H2 & H3).
  pose proof (sim_inv _ _ Hp H0) as I.
  destruct (inp_ok c V s0 (in_V x) (in_I x) (i_mid s0 I)) as (p & vm1 & rq & E1 & Fp & Bp & _ & Vm1 & _).
  rewrite H1 in E1. assert (X : s1 = after_inp c s0 (in_V x) p vm1 rq) by congruence. subst s1.
  destruct (out_inv c V cal (after_inp c s0 (in_V x) p vm1 rq) _ _ _ Hp Vm1 (i_out s0 I) (i_res s0 I) (i_drain s0 I) H2)
    as (q & r & -> & -> & Fq & Bq & Rr & D1 & _).
  destruct (cap_inv c V _ _ _ H3) as (v & -> & Fv & Bv & ->).
  cbn [V_mid with_mid]. split; [exact Fv|]. split; [exact Bv|]. split; [now apply vok_cap|]. cbn. lia.
Qed.

Lemma check_iff s : check_now c s = true <-> is_check c s.
Proof. unfold check_now, is_check. apply Z.leb_le. Qed.

(** C11 *)
Lemma hysteresis s s' n : fin (V_mid s) = true -> update_states_and_output c cal s = Ok (s', n) ->
  (is_outputting s = false -> is_outputting s' = true <->
     is_check c s /\ (IZR (Z.max (dV_enable_output_uV c) (V_enable_output_threshold_uV c)) <= fR (V_mid s))%R)
  /\ (is_outputting s = true -> is_outputting s' = false <->
     is_check c s /\ (fR (V_mid s) < IZR (V_disable_output_threshold_uV c))%R).
Proof.
  intros Fv H. destruct (states_inv _ _ _ H) as [-> _]. cbn [is_outputting after_states]. unfold on_next.
  destruct V_enable_ok as (A & B & D & _). destruct (fz_u32 _ (vc_dis c V)) as (Fd & Rd & _).
  rewrite <- check_iff. split; intros ->.
  - destruct (check_now c s); [|split; [discriminate|intros [X _]; discriminate]].
    rewrite fle_R by assumption. rewrite B. fold (V_enable c). intuition.
  - destruct (check_now c s); [|split; [discriminate|intros [X _]; discriminate]].
    rewrite negb_false_iff, flt_R by assumption. rewrite Rd. intuition.
Qed.

(** What is taken from the storage when the output is connected. *)
Lemma enable_drop s s' n : vok (V_mid s) -> update_states_and_output c cal s = Ok (s', n) ->
  fin (V_mid s') = true
  /\ (is_outputting s = false /\ is_outputting s' = true -> fR (V_mid s') = rnd (fR (V_mid s) - IZR (dV_enable_output_uV c)))
  /\ (~ (is_outputting s = false /\ is_outputting s' = true) -> V_mid s' = V_mid s).
Proof.
  intros Vm H. destruct (states_inv _ _ _ H) as [-> _]. destruct (mid_next_ok s Vm) as [[Fn _] _].
  split; [exact Fn|]. cbn [is_outputting V_mid after_states].
  destruct V_enable_ok as (A & B & D & _). destruct (fz_u32 _ (vc_dV c V)) as (Fd & Rd & _).
  assert (E : (check_now c s && negb (is_outputting s) && fle (fz (V_enable c)) (V_mid s)) = true
      <-> is_outputting s = false /\ on_next c s = true).
  { unfold on_next. destruct (check_now c s), (is_outputting s); cbn; intuition congruence. }
  split.
  - intros X. apply E in X. unfold mid_next. rewrite X. apply andb_prop in X. destruct X as [_ X].
    apply fle_R in X; [|exact A|apply Vm].
    destruct (sub_vok (V_mid s) (fz (dV_enable_output_uV c)) Vm (fz_vok _ (vc_dV c V)) ltac:(lra)) as (_ & Y & _).
    rewrite Y, Rd. reflexivity.
  - intros X. unfold mid_next. destruct (check_now c s && _ && _); [|reflexivity]. exfalso. apply X. now apply E.
Qed.


(** C14 *)
Lemma good_trigger s s' n : fin (V_mid s) = true -> update_states_and_output c cal s = Ok (s', n) ->
  (power_good s = true -> power_good s' = false <->
     (is_check c s \/ immediate_pwr_good_signal c <> 0) /\ (fR (V_mid s) <= IZR (V_pwr_good_disable_threshold_uV c))%R)
  /\ (power_good s = false -> power_good s' = true <->
     (is_check c s \/ immediate_pwr_good_signal c <> 0) /\ (IZR (V_pwr_good_enable_threshold_uV c) <= fR (V_mid s))%R
     /\ is_outputting s' = true).
Proof.
  intros Fv H. destruct (states_inv _ _ _ H) as [-> _]. cbn [is_outputting power_good after_states]. unfold good_next.
  destruct (fz_u32 _ (vc_pg_en c V)) as (Fe & Re & _). destruct (fz_u32 _ (vc_pg_dis c V)) as (Fd & Rd & _).
  assert (G : check_now c s || negb (immediate_pwr_good_signal c =? 0) = true
     <-> is_check c s \/ immediate_pwr_good_signal c <> 0).
  { rewrite orb_true_iff, check_iff, negb_true_iff, Z.eqb_neq. reflexivity. }
  split; intros ->; rewrite <- G; destruct (check_now c s || _).
  - rewrite negb_false_iff, fle_R by assumption. rewrite Rd. intuition.
  - split; [discriminate|intros [X _]; discriminate].
  - rewrite andb_true_iff, fle_R by assumption. rewrite Re. intuition.
  - split; [discriminate|intros [X _]; discriminate].
Qed.

(** C12 *)
Definition first_check : Z := Z.max 0 (interval_check_thresholds_n c - 4294967281).
Definition period : Z := Z.max 1 (interval_check_thresholds_n c).
Definition count_after (n : Z) : Z :=
  if n <=? first_check then 4294967280 + n else (n - 1 - first_check) mod period.

Lemma step_count s x s' t : valid_pair (adc_C_A cal) -> inv s -> conv_step c cal s x = Ok (s', t) ->
  sample_count s' = if interval_check_thresholds_n c <=? sample_count s + 1 then 0 else sample_count s + 1.
Proof.
  intros Hp I H. destruct (step_facts s x s' t Hp I H) as (p & vm1 & rq & po & r & v & raw & G). cbv zeta in G.
  destruct G as (-> & _). reflexivity.
Qed.

Lemma sim_count xs s : valid_pair (adc_C_A cal) -> conv_sim c cal xs = Ok s ->
  sample_count s = count_after (Z.of_nat (List.length xs)).
Proof.
  intros Hp. revert s. induction xs as [|x xs IH] using rev_ind; intros s H.
  - unfold conv_sim, conv_init in H. destruct (conv_uV_to_dac_raw cal (fz (V_output_uV c))); [|discriminate].
    cbn [bind conv_run] in H. apply (f_equal (fun r => match r with Ok a => sample_count a | Err _ => 0 end)) in H.
    cbn [sample_count] in H. rewrite <- H. unfold count_after, first_check. change (Z.of_nat (List.length (@nil cin))) with 0.
    destruct (Z.leb_spec 0 (Z.max 0 (interval_check_thresholds_n c - 4294967281))); lia.
  - destruct (sim_snoc _ _ _ H) as (s0 & t & H1 & H2).
    rewrite (step_count _ _ _ _ Hp (sim_inv _ _ Hp H1) H2), (IH _ H1).
    rewrite app_length. cbn [List.length]. set (n := Z.of_nat (List.length xs)).
    replace (Z.of_nat (List.length xs + 1)) with (n + 1) by (unfold n; lia).
    assert (Hn : 0 <= n) by (unfold n; lia). clearbody n. clear IH H1 H2 H.
    unfold count_after. destruct (vc_interval c V) as [I0 I1].
    unfold first_check, period. set (k := interval_check_thresholds_n c) in *. clearbody k.
    set (f := Z.max 0 (k - 4294967281)) in *.
    destruct (Z.leb_spec n f) as [L|L], (Z.leb_spec (n + 1) f) as [L2|L2]; try lia.
    + destruct (Z.leb_spec k (4294967280 + n + 1)); [lia|]. lia.
    + assert (n = f) by lia. subst n. destruct (Z.leb_spec k (4294967280 + f + 1)); [|lia].
      replace (f + 1 - 1 - f) with 0 by lia. now rewrite Z.mod_0_l by lia.
    + set (m := n - 1 - f) in *. replace (n + 1 - 1 - f) with (m + 1) by lia. assert (0 <= m) by lia. clearbody m.
      clear -H. set (p := Z.max 1 k) in *. assert (Hp : 1 <= p) by lia.
      pose proof (Z.mod_pos_bound m p ltac:(lia)) as B.
      pose proof (Z.div_mod m p ltac:(lia)) as D.
      destruct (Z.leb_spec k (m mod p + 1)) as [L|L].
      * assert (E : m mod p = p - 1) by lia. apply (Z.mod_unique_pos (m + 1) p (m / p + 1) 0); lia.
      * apply (Z.mod_unique_pos (m + 1) p (m / p) (m mod p + 1)); lia.
Qed.

Lemma periodic xs x s : valid_pair (adc_C_A cal) -> conv_sim c cal (xs ++ [x]) = Ok s ->
  (sample_count s = 0 <-> exists m, 0 <= m /\ Z.of_nat (List.length xs) = first_check + m * period).
Proof.
  intros Hp H. rewrite (sim_count _ _ Hp H). rewrite app_length. cbn [List.length].
  set (n := Z.of_nat (List.length xs)). replace (Z.of_nat (List.length xs + 1)) with (n + 1) by (unfold n; lia).
  assert (Hn : 0 <= n) by (unfold n; lia). clearbody n. unfold count_after.
  assert (Hpd : 1 <= period) by (unfold period; lia). assert (Hf : 0 <= first_check) by (unfold first_check; lia).
  destruct (Z.leb_spec (n + 1) first_check) as [L|L].
  - split; [lia|]. intros (m & M & E). exfalso. nia.
  - replace (n + 1 - 1 - first_check) with (n - first_check) by lia. split.
    + intros E. exists ((n - first_check) / period). split; [apply Z.div_pos; lia|].
      pose proof (Z.div_mod (n - first_check) period ltac:(lia)). lia.
    + intros (m & M & E). replace (n - first_check) with (m * period) by lia. apply Z.mod_mul. lia.
Qed.

(** C13 *)
Lemma output_bounds xs s : valid_pair (adc_C_A cal) -> xs <> [] -> conv_sim c cal xs = Ok s ->
  0 <= V_out_raw s <= 65535
  /\ fin (V_out s) = true /\ (0 <= fR (V_out s))%R
  /\ (is_outputting s = false -> drain_n s = 0 -> fR (V_out s) = 0%R /\ V_out_raw s = 0)
  /\ (is_outputting s = true \/ drain_n s <> 0 -> conv_uV_to_dac_raw cal (V_out s) = Ok (V_out_raw s))
  /\ (has_buck c -> (fR (V_out s) <= IZR (V_output_uV c))%R)
  /\ (~ has_buck c -> (fR (V_out s) <= fR (V_mid s))%R).
Proof.
  intros Hp Ne H. destruct (exists_last Ne) as (ys & x & ->).
  destruct (sim_snoc _ _ _ H) as (s0 & t & H1 & H2). pose proof (sim_inv _ _ Hp H1) as I0.
  destruct (step_inv _ _ _ _ Hp I0 H2) as [I _].
  destruct (step_facts _ _ _ _ Hp I0 H2) as (p & vm1 & rq & po & r & v & raw & G). cbv zeta in G.
  destruct G as (Es & Vm1 & Fp & Bp & Fq & Bq & Rr & _ & Fv & Bv & _ & Hs).
  set (s3 := with_mid _ v) in *. pose proof (vok_cap v Fv Bv) as Vv.
  split; [apply I|]. destruct (i_out s I) as [Fo Bo]. split; [exact Fo|]. split; [apply Bo|].
  subst s. cbn [is_outputting drain_n V_out V_out_raw V_mid after_states] in *.
  change (V_mid s3) with v in *. clear Fo Bo I.
  assert (Dn : 0 <= drain_n s3) by (cbn; lia).
  split.
  { intros O D. assert (Pw : powered c s3 = false) by (unfold powered; rewrite O, D; reflexivity).
    unfold vout_next. rewrite Pw. split; [apply fz0|]. destruct Hs as [[X _]|[_ X]]; [congruence|exact X]. }
  split.
  { intros Q. assert (Pw : powered c s3 = true).
    { unfold powered. destruct Q as [-> | Q]; [reflexivity|]. apply orb_true_iff. right. apply Z.ltb_lt. lia. }
    destruct Hs as [[_ X]|[X _]]; [exact X|congruence]. }
  destruct (mid_next_ok s3 Vv) as [Vn Ln]. destruct (fz_u32 _ (vc_Vbuck c V)) as (Fb & Rb & Bb).
  destruct (fz_u32 _ (vc_Vout c V)) as (Fvo & Rvo & Bvo).
  assert (Fs : fin (fz (V_output_uV c + V_buck_drop_uV c)) = true
     /\ fR (fz (V_output_uV c + V_buck_drop_uV c)) = (IZR (V_output_uV c) + IZR (V_buck_drop_uV c))%R).
  { destruct (fz_ok (V_output_uV c + V_buck_drop_uV c)) as [X Y].
    - destruct (vc_Vout c V), (vc_Vbuck c V). lia.
    - split; [exact X|]. now rewrite Y, plus_IZR. }
  destruct Fs as [Fs Rs].
  split; intros Q; unfold has_buck in Q; rewrite <- buck_bit in Q; unfold vout_next;
    (destruct (powered c s3); [|rewrite fz0; first [apply Bvo|apply Vn]]).
  - rewrite Q. cbn [negb orb]. destruct (fle (mid_next c s3) _) eqn:E; [|rewrite Rvo; lra].
    apply fle_R in E; [|apply Vn|exact Fs]. rewrite Rs in E.
    destruct (flt (fz (V_buck_drop_uV c)) (mid_next c s3)) eqn:E2; [|rewrite fz0; apply Bvo].
    apply flt_R in E2; [|exact Fb|apply Vn].
    destruct (sub_vok _ _ Vn (fz_vok _ (vc_Vbuck c V)) ltac:(lra)) as (_ & Y & _). rewrite Y, Rb.
    apply rnd_le_Z; [|lra]. destruct (vc_Vout c V). lia.
  - assert (Q' : enable_buck c = false) by (destruct (enable_buck c); [exfalso; auto|reflexivity]).
    rewrite Q'. cbn [negb orb].
    destruct (flt (fz (V_buck_drop_uV c)) (mid_next c s3)) eqn:E2; [|rewrite fz0; apply Vn].
    apply flt_R in E2; [|exact Fb|apply Vn].
    destruct (sub_vok _ _ Vn (fz_vok _ (vc_Vbuck c V)) ltac:(lra)) as (_ & _ & Y). exact Y.
Qed.

(** C16 *)
Lemma sim_drain xs s : valid_pair (adc_C_A cal) -> conv_sim c cal xs = Ok s ->
  drain_n s = Z.max 0 (interval_startup_delay_drain_n c - Z.of_nat (List.length xs)).
Proof.
  intros Hp. revert s. induction xs as [|x xs IH] using rev_ind; intros s H.
  - unfold conv_sim, conv_init in H. destruct (conv_uV_to_dac_raw cal (fz (V_output_uV c))); [|discriminate].
    cbn [bind conv_run] in H. apply (f_equal (fun r => match r with Ok a => drain_n a | Err _ => 0 end)) in H.
    cbn [drain_n] in H. rewrite <- H. destruct (vc_drain c V). cbn [List.length]. lia.
  - destruct (sim_snoc _ _ _ H) as (s0 & t & H1 & H2). pose proof (sim_inv _ _ Hp H1) as I0.
    destruct (step_facts _ _ _ _ Hp I0 H2) as (p & vm1 & rq & po & r & v & raw & G). cbv zeta in G.
    destruct G as (Es & _). subst s. cbn [drain_n after_states with_mid after_out after_inp].
    rewrite (IH _ H1), app_length. cbn [List.length]. lia.
Qed.

Lemma drain_step xs s0 x s1 n1 s2 n2 : valid_pair (adc_C_A cal) -> conv_sim c cal xs = Ok s0 ->
  calc_inp_power c s0 (in_V x) (in_I x) = Ok (s1, n1) ->
  calc_out_power c cal s1 (in_raw x) = Ok (s2, n2) ->
  fin (P_out s2) = true /\ (0 <= fR (P_out s2))%R
  /\ (Z.of_nat (List.length xs) < interval_startup_delay_drain_n c -> fR (P_out s2) = 0%R)
  /\ (interval_startup_delay_drain_n c <= Z.of_nat (List.length xs) ->
      exists i eta, conv_adc_raw_to_nA cal (residue s0) (Z.min 262143 (Z.max 0 (in_raw x))) = (i, residue s2)
          /\ fin i = true /\ (0 <= fR i)%R
          /\ (has_buck c -> get_output_inv_efficiency c i = Ok eta) /\ (~ has_buck c -> fR eta = 1%R)
          /\ fR (P_out s2) = drawn (fR eta) (fR (V_out s0)) (fR i) (fR (V_mid s1)) (IZR (I_intermediate_leak_nA c))).
Proof.
  intros Hp H0 H1 H2. pose proof (sim_inv _ _ Hp H0) as I. pose proof (sim_drain _ _ Hp H0) as D.
  destruct (inp_ok c V s0 (in_V x) (in_I x) (i_mid s0 I)) as (p & vm1 & rq & E1 & Fp & Bp & _ & Vm1 & _).
  rewrite H1 in E1. assert (X : s1 = after_inp c s0 (in_V x) p vm1 rq) by congruence. subst s1.
  destruct (out_inv c V cal (after_inp c s0 (in_V x) p vm1 rq) _ _ _ Hp Vm1 (i_out s0 I) (i_res s0 I) (i_drain s0 I) H2)
    as (q & r & -> & -> & Fq & Bq & Rr & D1 & D2).
  cbn [P_out residue after_out]. split; [exact Fq|]. split; [exact Bq|].
  change (drain_n (after_inp c s0 (in_V x) p vm1 rq)) with (drain_n s0) in D1, D2. split.
  - intros L. apply D1. lia.
  - intros L. destruct D2 as (i & eta & A1 & A2 & A3 & A4 & A5); [lia|]. exists i, eta.
    change (Z.min 262143 (Z.max 0 (in_raw x))) with (adc_code (in_raw x)).
    split; [exact A1|]. split; [exact A2|]. split; [exact A3|]. unfold has_buck. rewrite <- buck_bit.
    destruct A4 as [[Bk ->]|[Bk Ge]]; rewrite Bk; (split; [intros; try congruence|split; [intros Q; try apply fz1; congruence|exact A5]]).
Qed.

(** C17 over a whole simulation. *)
Lemma residue_bounds xs s : valid_pair (adc_C_A cal) -> conv_sim c cal xs = Ok s ->
  fin (residue s) = true /\ (0 <= fR (residue s) <= 60000)%R.
Proof. intros Hp H. exact (i_res s (sim_inv _ _ Hp H)). Qed.

(** Exact limits of the input. *)
Lemma input_current_exact i : fin i = true ->
  fR (input_current c i) = Rmin (Rmax 0 (fR i)) (IZR (I_input_max_nA c)).
Proof.
  intros Fi. unfold input_current. destruct (clamp_max0 i) as (A & B & P).
  destruct (min_u32 _ _ (vc_Iin_max c V) A P) as (F & E & _). rewrite E.
  destruct B as [[N _]|[_ B]]; [rewrite (fin_nan i Fi) in N; discriminate|]. now rewrite B, (xR_fin i Fi).
Qed.
Lemma input_voltage_exact v : fin v = true ->
  fR (input_voltage c v) = Rmin (Rmax 0 (rnd (fR v - IZR (V_input_drop_uV c)))) (IZR (V_input_max_uV c)).
Proof.
  intros Fv. unfold input_voltage. destruct (fz_ok 0) as [F0 R0]; [lia|].
  assert (Fw : fin (fmax (fz 0) v) = true) by now apply fmax_fin.
  assert (Rw : fR (fmax (fz 0) v) = Rmax 0 (fR v)) by (rewrite fmax_R, R0; auto).
  set (w := fmax (fz 0) v) in *. clearbody w.
  destruct (fz_u32 _ (vc_Vin_drop c V)) as (Fd & Rd & Bd).
  assert (K : exists u, (if flt (fz (V_input_drop_uV c)) w then fsub w (fz (V_input_drop_uV c)) else fz 0) = u
     /\ fin u = true /\ fR u = Rmax 0 (rnd (fR v - IZR (V_input_drop_uV c)))).
  { eexists. split; [reflexivity|]. destruct (flt (fz (V_input_drop_uV c)) w) eqn:E.
    - apply flt_R in E; auto. rewrite Rd in E.
      assert (Ev : fR w = fR v) by (rewrite Rw in *; unfold Rmax in *; destruct (Rle_dec 0 (fR v)); lra).
      assert (Q : (0 <= rnd (fR v - IZR (V_input_drop_uV c)) <= fR w)%R).
      { split; [apply rnd_nonneg; lra|]. rewrite <- Ev. apply rnd_le_self; lra. }
      destruct (fsub_ok w (fz (V_input_drop_uV c)) Fw Fd) as [A B].
      { rewrite Rd, Ev. rewrite Rabs_pos_eq by lra. pose proof (fR_lt_Top w) as L. apply Rabs_def2 in L. unfold Top in L. lra. }
      split; [exact A|]. rewrite B, Rd, Ev. rewrite Rmax_right by lra. reflexivity.
    - apply flt_R_false in E; auto. rewrite Rd, Rw in E. split; [exact F0|]. rewrite R0.
      rewrite Rmax_left; [reflexivity|]. rewrite <- rnd_0. apply rnd_le. pose proof (Rmax_r 0 (fR v)). lra. }
  destruct K as (u & -> & Fu & Ru).
  assert (Pu : (0 <= fR u)%R) by (rewrite Ru; apply Rmax_l).
  destruct (min_u32 u _ (vc_Vin_max c V) (fin_nan _ Fu)) as (F & E & _); [now rewrite xR_fin|].
  rewrite E, (xR_fin u Fu), Ru. reflexivity.
Qed.

(** C15 *)
Lemma inp_call s v i s' n : vok (V_mid s) -> calc_inp_power c s v i = Ok (s', n) ->
  exists p vm rq, s' = after_inp c s v p vm rq /\ n = ZnearestE (fR p) /\ fin p = true /\ (0 <= fR p)%R
    /\ (covered c s v -> (fR p <= rnd (fR (input_voltage c v) * fR (input_current c i)))%R).
Proof.
  intros Hm H. destruct (inp_ok c V s v i Hm) as (p & vm & rq & E & F & B & _ & _ & Cv).
  rewrite H in E. exists p, vm, rq.
  assert (X : s' = after_inp c s v p vm rq /\ n = ZnearestE (fR p)) by (split; congruence). destruct X as [-> ->].
  repeat (split; [first [reflexivity|assumption|apply B]|]). exact Cv.
Qed.

Lemma inp_energy s v i s' n : vok (V_mid s) -> fin v = true -> fin i = true -> calc_inp_power c s v i = Ok (s', n) ->
  fin (P_inp s') = true /\ n = ZnearestE (fR (P_inp s')) /\ (0 <= fR (P_inp s'))%R
  /\ (has_boost c \/ ~ has_storage c \/ R_input_kOhm_n22 c = 0 \/ (fR (V_mid s) <= fR (V_input s'))%R ->
      (fR (P_inp s') <= rnd (Rmax 0 (fR v) * Rmax 0 (fR i)))%R).
Proof.
  intros Hm Fv Fi H. destruct (inp_call s v i s' n Hm H) as (p & vm & rq & -> & -> & Fp & Bp & Cv).
  cbn [P_inp V_input after_inp]. repeat (split; [first [assumption|reflexivity]|]).
  intros X. eapply Rle_trans; [apply Cv; exact X|]. apply rnd_le.
  destruct (input_voltage_ok c V v) as (_ & B1 & L1). destruct (input_current_ok c V i) as (_ & B2 & L2).
  apply Rmult_le_compat; [apply B1|apply B2|now apply L1|now apply L2].
Qed.

(** Storage update. *)
Lemma fin_step s x s' t : valid_pair (adc_C_A cal) -> inv s -> conv_step c cal s x = Ok (s', t) -> fin (V_mid s') = true.
Proof. intros Hp I H. exact (proj1 (i_mid _ (proj1 (step_inv _ _ _ _ Hp I H)))). Qed.

Lemma V_next_up vm pi po k : fmt vm -> (0 <= vm)%R -> (0 <= k)%R -> (po <= pi)%R -> (vm <= V_next vm pi po k)%R.
Proof.
  intros Fm Pm Pk L. unfold V_next. rewrite <- (rnd_id vm Fm) at 1. apply rnd_le.
  assert (M : (1 <= Rmax 1 vm)%R) by apply Rmax_l.
  assert (Q : (0 <= rnd (rnd (rnd (pi - po) / Rmax 1 vm) * k))%R); [|lra].
  apply rnd_nonneg, Rmult_le_pos; [|exact Pk]. apply rnd_nonneg. unfold Rdiv. apply Rmult_le_pos; [|apply Rlt_le, Rinv_0_lt_compat; lra].
  apply rnd_nonneg. lra.
Qed.
Lemma V_next_down vm pi po k : fmt vm -> (0 <= vm)%R -> (0 <= k)%R -> (pi <= po)%R -> (V_next vm pi po k <= vm)%R.
Proof.
  intros Fm Pm Pk L. unfold V_next. apply rnd_le_fmt; [exact Fm|].
  assert (M : (1 <= Rmax 1 vm)%R) by apply Rmax_l.
  assert (N : forall x, (x <= 0 -> rnd x <= 0)%R) by (intros x Hx; rewrite <- rnd_0; now apply rnd_le).
  assert (Q : (rnd (rnd (rnd (pi - po) / Rmax 1 vm) * k) <= 0)%R); [|lra].
  assert (Q1 : (rnd (pi - po) <= 0)%R) by (apply N; lra).
  assert (Q2 : (0 < / Rmax 1 vm)%R) by (apply Rinv_0_lt_compat; lra).
  assert (Q3 : (rnd (rnd (pi - po) / Rmax 1 vm) <= 0)%R).
  { apply N. unfold Rdiv. set (a := rnd _) in *. set (b := (/ _)%R) in *. clearbody a b. clear -Q1 Q2. nra. }
  apply N. set (a := rnd (rnd _ / _)) in *. clearbody a. clear -Q3 Pk. nra.
Qed.

(** The first three calls of a step leave the switching state alone. *)
Lemma calls_frame xs x s0 s1 s2 s3 : valid_pair (adc_C_A cal) -> calls c cal xs x s0 s1 s2 s3 ->
  is_outputting s3 = is_outputting s0 /\ power_good s3 = power_good s0 /\ sample_count s3 = sample_count s0
  /\ V_out s3 = V_out s0 /\ skip_gpio s3 = skip_gpio s0 /\ before_output c cal s3.
Proof.
  intros Hp (n1 & n2 & n3 & H0 & H1 & H2 & H3).
  assert (Bo : before_output c cal s3) by (exists xs, x, s0, s1, s2, n1, n2, n3; auto).
  pose proof (sim_inv _ _ Hp H0) as I.
  destruct (inp_ok c V s0 (in_V x) (in_I x) (i_mid s0 I)) as (p & vm1 & rq & E1 & _ & _ & _ & Vm1 & _).
  rewrite H1 in E1. assert (X : s1 = after_inp c s0 (in_V x) p vm1 rq) by congruence. subst s1.
  destruct (out_inv c V cal (after_inp c s0 (in_V x) p vm1 rq) _ _ _ Hp Vm1 (i_out s0 I) (i_res s0 I) (i_drain s0 I) H2)
    as (q & r & -> & _).
  destruct (cap_inv c V _ _ _ H3) as (v & -> & _). repeat (split; [reflexivity|]). exact Bo.
Qed.

Lemma count_nonneg xs s : valid_pair (adc_C_A cal) -> conv_sim c cal xs = Ok s -> 0 <= sample_count s.
Proof.
  intros Hp H. rewrite (sim_count _ _ Hp H). unfold count_after. destruct (Z.leb_spec (Z.of_nat (List.length xs)) first_check); [lia|].
  apply Z.mod_pos_bound. unfold period. lia.
Qed.

Lemma check_counted s s' n : valid_pair (adc_C_A cal) -> before_output c cal s -> update_states_and_output c cal s = Ok (s', n) ->
  (is_check c s <-> sample_count s' = 0).
Proof.
  intros Hp (xs & x & s0 & s1 & s2 & n1 & n2 & n3 & H) E.
  assert (C : calls c cal xs x s0 s1 s2 s) by (exists n1, n2, n3; exact H).
  destruct (calls_frame _ _ _ _ _ _ Hp C) as (_ & _ & Sc & _). destruct H as (H0 & _).
  pose proof (count_nonneg _ _ Hp H0) as P. rewrite <- Sc in P.
  destruct (states_inv _ _ _ E) as [-> _]. cbn [sample_count after_states]. rewrite <- check_iff.
  destruct (check_now c s); split; intros; try reflexivity; try discriminate; lia.
Qed.

(** C15 in exact terms. *)
Lemma inp_exact_boost s v i s' n : has_boost c -> fin v = true -> fin i = true -> calc_inp_power c s v i = Ok (s', n) ->
  V_mid s' = V_mid s /\ fR (V_input s') = limited_voltage c (fR v) /\
  exists v' j e, get_input_efficiency c v' j = Ok e
    /\ fR v' = (if Rlt_dec (limited_voltage c (fR v)) (IZR (V_input_boost_threshold_uV c)) then 0 else limited_voltage c (fR v))%R
    /\ fR j = limited_current c (fR i)
    /\ fR (P_inp s') = rnd (rnd (fR e * fR v') * fR j).
Proof.
  intros Bo Fv Fi H. unfold has_boost in Bo. rewrite <- boost_bit in Bo.
  destruct (inp_boost c V s v i Bo) as (e & p & G). cbv zeta in G. destruct G as (G1 & G2 & G3 & G4 & _).
  rewrite H in G2. assert (X : s' = after_inp c s v p (V_mid s) (V_request s)) by congruence. subst s'.
  cbn [V_mid V_input P_inp after_inp]. split; [reflexivity|]. split; [now apply input_voltage_exact|].
  eexists _, _, e. split; [exact G1|]. split; [|split; [now apply input_current_exact|exact G4]].
  pose proof (input_voltage_vok c V v) as [Fw _]. destruct (fz_u32 _ (vc_boost c V)) as (Fb & Rb & _).
  rewrite <- (input_voltage_exact v Fv : fR (input_voltage c v) = limited_voltage c (fR v)).
  destruct (flt _ _) eqn:E.
  - apply flt_R in E; auto. rewrite Rb in E. destruct (Rlt_dec _ _); [apply fz0|lra].
  - apply flt_R_false in E; auto. rewrite Rb in E. destruct (Rlt_dec _ _); [lra|reflexivity].
Qed.

Lemma inp_exact_diode s v i s' n : ~ has_boost c -> has_storage c -> vok (V_mid s) -> fin v = true -> fin i = true ->
  calc_inp_power c s v i = Ok (s', n) ->
  V_mid s' = V_mid s /\ fR (V_input s') = limited_voltage c (fR v)
  /\ fR (P_inp s') = rnd (diode_voltage (Z.testbit (converter_mode c) 4) (fR (V_mid s)) (limited_voltage c (fR v))
        (rnd (limited_current c (fR i) * (IZR (R_input_kOhm_n22 c) / 4194304))) * limited_current c (fR i))
  /\ (Z.testbit (converter_mode c) 4 = true ->
        fR (V_request s') = rnd (rnd (fR (V_mid s) + rnd (limited_current c (fR i) * (IZR (R_input_kOhm_n22 c) / 4194304)))
                                 + IZR (V_input_drop_uV c)))
  /\ (Z.testbit (converter_mode c) 4 = false -> V_request s' = V_request s).
Proof.
  intros Bo St Hm Fv Fi H. unfold has_boost in Bo. rewrite <- boost_bit in Bo. unfold has_storage in St. rewrite <- storage_bit in St.
  assert (Bo' : enable_boost c = false) by (destruct (enable_boost c); [exfalso; auto|reflexivity]).
  destruct (inp_diode c V s v i Bo' St Hm) as (p & rq & G1 & G2 & _ & G4 & G5 & G6).
  rewrite H in G1. assert (X : s' = after_inp c s v p (V_mid s) rq) by congruence. subst s'.
  cbn [V_mid V_input P_inp V_request after_inp]. split; [reflexivity|]. split; [now apply input_voltage_exact|].
  unfold V_drop_R in *. rewrite <- feedback_bit. destruct (R_ok c V) as (_ & RR & _). rewrite RR in *.
  rewrite (input_current_exact i Fi : _ = limited_current c (fR i)) in *.
  rewrite (input_voltage_exact v Fv : _ = limited_voltage c (fR v)) in *.
  split; [exact G4|]. split; [intros X; now destruct (G5 X)|exact G6].
Qed.

Lemma inp_exact_direct s v i s' n : ~ has_boost c -> ~ has_storage c -> fin v = true ->
  calc_inp_power c s v i = Ok (s', n) ->
  fR (V_mid s') = limited_voltage c (fR v) /\ V_input s' = V_mid s' /\ fR (P_inp s') = 0%R /\ n = 0.
Proof.
  intros Bo St Fv H. unfold has_boost in Bo. rewrite <- boost_bit in Bo. unfold has_storage in St. rewrite <- storage_bit in St.
  assert (Bo' : enable_boost c = false) by (destruct (enable_boost c); [exfalso; auto|reflexivity]).
  assert (St' : enable_storage c = false) by (destruct (enable_storage c); [exfalso; auto|reflexivity]).
  destruct (inp_direct c V s v i Bo' St') as (p & G1 & G2 & G3).
  rewrite H in G1. assert (X : s' = after_inp c s v p (input_voltage c v) (V_request s) /\ n = 0) by (split; congruence).
  destruct X as [-> ->]. cbn [V_mid V_input P_inp after_inp]. split; [now apply input_voltage_exact|]. auto.
Qed.

(** C13, the voltage in exact terms. *)
Lemma vout_exact s s' n : vok (V_mid s) -> update_states_and_output c cal s = Ok (s', n) ->
  (is_outputting s' = true \/ 0 < drain_n s' -> fR (V_out s') = out_voltage c (fR (V_mid s')))
  /\ (is_outputting s' = false /\ drain_n s' <= 0 -> fR (V_out s') = 0%R)
  /\ n = V_out_raw s'
  /\ (skip_gpio s' = true <-> (fR (V_out s') < IZR (V_output_log_gpio_threshold_uV c))%R).
Proof.
  intros Vm H. destruct (states_inv _ _ _ H) as [-> _]. pose proof (vout_next_ok s Vm) as Vo.
  cbn [is_outputting drain_n V_out V_mid V_out_raw skip_gpio after_states].
  destruct (mid_next_ok s Vm) as [Vn _].
  split; [|split; [|split; [reflexivity|]]].
  - intros P. assert (Pw : powered c s = true).
    { unfold powered. destruct P as [-> | P]; [reflexivity|]. apply orb_true_iff. right. now apply Z.ltb_lt. }
    unfold vout_next, out_voltage. rewrite Pw, <- buck_bit.
    destruct (fz_u32 _ (vc_Vbuck c V)) as (Fb & Rb & Bb). destruct (fz_u32 _ (vc_Vout c V)) as (Fvo & Rvo & Bvo).
    assert (Fs : fin (fz (V_output_uV c + V_buck_drop_uV c)) = true
       /\ fR (fz (V_output_uV c + V_buck_drop_uV c)) = (IZR (V_output_uV c) + IZR (V_buck_drop_uV c))%R).
    { destruct (fz_ok (V_output_uV c + V_buck_drop_uV c)) as [X Y].
      - destruct (vc_Vout c V), (vc_Vbuck c V). lia.
      - split; [exact X|]. now rewrite Y, plus_IZR. }
    destruct Fs as [Fs Rs].
    assert (K : fR (if flt (fz (V_buck_drop_uV c)) (mid_next c s) then fsub (mid_next c s) (fz (V_buck_drop_uV c)) else fz 0)
        = Rmax 0 (rnd (fR (mid_next c s) - IZR (V_buck_drop_uV c)))).
    { destruct (flt (fz (V_buck_drop_uV c)) (mid_next c s)) eqn:E2.
      - apply flt_R in E2; [|exact Fb|apply Vn].
        destruct (sub_vok _ _ Vn (fz_vok _ (vc_Vbuck c V)) ltac:(lra)) as (_ & Y & _). rewrite Y, Rb.
        rewrite Rmax_right; [reflexivity|]. apply rnd_nonneg. lra.
      - apply flt_R_false in E2; [|exact Fb|apply Vn]. rewrite Rb in E2. rewrite fz0, Rmax_left; [reflexivity|].
        rewrite <- rnd_0. apply rnd_le. lra. }
    destruct (enable_buck c); cbn [negb orb]; [|exact K].
    destruct (fle (mid_next c s) _) eqn:E.
    + apply fle_R in E; [|apply Vn|exact Fs]. rewrite Rs in E. destruct (Rle_dec _ _); [exact K|lra].
    + apply fle_R_false in E; [|apply Vn|exact Fs]. rewrite Rs in E. destruct (Rle_dec _ _); [lra|exact Rvo].
  - intros [O D]. assert (Pw : powered c s = false).
    { unfold powered. rewrite O. cbn [orb]. now apply Z.ltb_ge. }
    unfold vout_next. rewrite Pw. apply fz0.
  - destruct (fz_u32 _ (vc_gpio c V)) as (Fg & Rg & _). rewrite <- Rg. apply flt_R; [apply Vo|exact Fg].
Qed.
End Cfg.

(** C17 for a stream of readings. *)
Lemma adc_stream_ok cal raws : forall r l r', valid_pair (adc_C_A cal) -> rok r ->
  Forall (fun raw => 0 <= raw <= 2 ^ 18 - 1) raws -> adc_stream cal r raws = (l, r') ->
  Forall (fun i => isnan i = false /\ (0 <= xR i)%R) l /\ List.length l = List.length raws
  /\ fin r' = true /\ (0 <= fR r' <= 60000)%R.
Proof.
  induction raws as [|raw raws IH]; intros r l r' Hp Hr Hf H; cbn [adc_stream] in H.
  - apply pair_equal_spec in H. destruct H as [<- <-]. split; [constructor|]. split; [reflexivity|]. exact Hr.
  - inversion Hf as [|? ? F1 F2]; subst. destruct (conv_adc_raw_to_nA cal r raw) as [i r1] eqn:E.
    destruct (adc_ok cal r raw i r1 Hp Hr F1 E) as (A & B & C).
    destruct (adc_stream cal r1 raws) as [l2 r2] eqn:E2. destruct (IH _ _ _ Hp C F2 E2) as (D1 & D2 & D3).
    apply pair_equal_spec in H. destruct H as [<- <-]. split; [constructor; auto|]. split; [cbn; now rewrite D2|]. exact D3.
Qed.
