(** Proofs about what can be asked from the converter. *)
From Coq Require Import ZArith Bool Reals Lia Lra List.
From Flocq Require Import Core IEEE754.BinarySingleNaN.
From RecordUpdate Require Import RecordSet.
From Verif Require Import PyBase F64 F64x CalModel CalSpec CalProofs ConvModel ConvSpec ConvProofs ConvStepProofs ConvRunProofs GetModel.
Import RecordSetNotations ListNotations.
Open Scope Z_scope.

Section Cfg.
Variable c : ccfg.
Hypothesis V : valid_ccfg c.
Variable cal : cal_emu.

Lemma asked xs x s s' pi po vm raw : valid_pair (adc_C_A cal) -> conv_sim c cal xs = Ok s ->
  conv_step c cal s x = Ok (s', (pi, po, vm, raw)) ->
  get_P_input_fW s' = Ok pi /\ get_P_output_fW s' = Ok po /\ V_out_raw s' = raw /\
  (is_outputting s = true \/ is_outputting s' = false -> get_V_intermediate_uV s' = Ok vm) /\
  (is_outputting s = false -> is_outputting s' = true -> exists v, ZnearestE v = vm /\
     get_V_intermediate_uV s' = Ok (ZnearestE (rnd (v - IZR (dV_enable_output_uV c))))).
Proof.
  intros Hp Hs H. pose proof (sim_inv c V cal xs s Hp Hs) as I.
  destruct (step_facts c V cal s x s' _ Hp I H) as (p & vm1 & rq & q & r & v & raw' & G). cbv zeta in G.
  destruct G as (-> & Vm1 & Fp & Bp & Fq & Bq & _ & _ & Fv & Bv & T & _). injection T as -> -> -> ->.
  set (s3 := with_mid (after_out (after_inp c s (in_V x) p vm1 rq) q r) v).
  assert (M : V_mid s3 = v) by reflexivity. assert (O : is_outputting s3 = is_outputting s) by reflexivity.
  unfold get_P_input_fW, get_P_output_fW, get_V_intermediate_uV.
  change (P_inp (after_states c s3 raw')) with p. change (P_out (after_states c s3 raw')) with q.
  change (V_mid (after_states c s3 raw')) with (mid_next c s3). change (is_outputting (after_states c s3 raw')) with (on_next c s3).
  change (V_out_raw (after_states c s3 raw')) with raw'.
  split; [apply fround_ok, Fp|]. split; [apply fround_ok, Fq|]. split; [reflexivity|].
  assert (Vv : vok v) by (apply (vok_cap c V); assumption).
  unfold mid_next, on_next. rewrite O, M. split.
  - intros A. destruct (check_now c s3); cbn [andb]; [|apply fround_ok, Fv].
    destruct (is_outputting s); cbn [negb andb]; [apply fround_ok, Fv|]. destruct A as [|A]; [discriminate|].
    cbn [negb andb] in *. rewrite A. apply fround_ok, Fv.
  - intros A B. exists (fR v). split; [reflexivity|]. rewrite A in *. cbn [negb andb] in *.
    destruct (check_now c s3); cbn [andb negb] in *; [|congruence]. rewrite B.
    destruct (V_enable_ok c V) as (F1 & R1 & L1).
    destruct (fz_vok _ (vc_dV c V)) as [Fd Bd].
    assert (Le : (IZR (dV_enable_output_uV c) <= fR v)%R).
    { apply fle_R in B; [|exact F1|exact Fv]. rewrite R1 in B. assert (dV_enable_output_uV c <= V_enable c) by (unfold V_enable; lia). apply IZR_le in H0. lra. }
    assert (Rd : fR (fz (dV_enable_output_uV c)) = IZR (dV_enable_output_uV c)) by (apply fz_ok; pose proof (vc_dV c V) as U; unfold u32 in U; lia).
    destruct (fsub_Big v (fz (dV_enable_output_uV c)) Fv Fd) as [C D].
    { rewrite Rd. destruct Vv as [_ [X1 X2]]. assert (L : (IZR (2 ^ 32) <= Big)%R) by (apply IZR_Big; lia). rewrite Rabs_pos_eq by lra.
      assert (0 <= IZR (dV_enable_output_uV c))%R by (apply IZR_le; apply (vc_dV c V)). lra. }
    rewrite (fround_ok _ C), D, Rd. reflexivity.
Qed.

Lemma dac_mono a b n : valid_pair (dac_V_A cal) -> vok a -> vok b -> (fR a <= fR b)%R -> conv_uV_to_dac_raw cal b = Ok n ->
  exists m, conv_uV_to_dac_raw cal a = Ok m /\ m <= n.
Proof.
  intros Vp [Fa Ba] [Fb Bb] L H. unfold conv_uV_to_dac_raw in *.
  destruct (fz_ok (10 ^ 6)) as [F6 R6]; [lia|]. change (IZR (10 ^ 6)) with 1000000%R in R6.
  assert (Q : (IZR (2 ^ 32) <= Big)%R) by (apply IZR_Big; lia).
  destruct (idiv_Big a (fz (10 ^ 6)) Fa) as [A1 A2]; [rewrite R6; lra|rewrite R6, Rabs_pos_eq; lra|].
  destruct (idiv_Big b (fz (10 ^ 6)) Fb) as [B1 B2]; [rewrite R6; lra|rewrite R6, Rabs_pos_eq; lra|].
  destruct (si_to_raw (dac_V_A cal) (idiv b (fz (10 ^ 6)))) as [r|] eqn:E; [|discriminate]. cbn [bind] in H. injection H as <-.
  destruct (si_to_raw_mono (dac_V_A cal) Vp (idiv a (fz (10 ^ 6))) _ r A1 B1) as (m & E1 & E2); [|exact E|].
  { rewrite A2, B2, R6. apply rnd_le. lra. }
  rewrite E1. cbn [bind]. eexists. split; [reflexivity|]. lia.
Qed.

Lemma code xs s : bounded_cal cal -> conv_sim c cal xs = Ok s ->
  exists n, get_V_intermediate_raw cal s = Ok n /\ 0 <= n <= 65535 /\
    forall ys t, ys <> [] -> conv_sim c cal ys = Ok t -> is_outputting t = true \/ drain_n t <> 0 ->
      ((fR (V_out t) <= fR (V_mid s))%R -> V_out_raw t <= n) /\ ((fR (V_mid s) <= fR (V_out t))%R -> n <= V_out_raw t).
Proof.
  intros Hb Hs. pose proof Hb as (Hp & Hd & _). pose proof (sim_inv c V cal xs s Hp Hs) as I.
  destruct (dac_total cal _ Hb (i_mid s I)) as [n E]. exists n. unfold get_V_intermediate_raw. split; [exact E|].
  split; [exact (dac_range cal _ _ E)|]. intros ys t Ne Ht P. pose proof (sim_inv c V cal ys t Hp Ht) as J.
  destruct (output_bounds c V cal ys t Hp Ne Ht) as (_ & _ & _ & _ & O & _). specialize (O P). split; intros L.
  - destruct (dac_mono _ _ _ Hd (i_out t J) (i_mid s I) L E) as (m & M1 & M2). rewrite O in M1. injection M1 as ->. exact M2.
  - destruct (dac_mono _ _ _ Hd (i_mid s I) (i_out t J) L O) as (m & M1 & M2). rewrite E in M1. injection M1 as ->. exact M2.
Qed.

Lemma skipping xs s : valid_pair (adc_C_A cal) -> xs <> [] -> conv_sim c cal xs = Ok s ->
  get_state_log_gpio s = true <-> (fR (V_out s) < IZR (V_output_log_gpio_threshold_uV c))%R.
Proof.
  intros Hp Ne H. destruct (exists_last Ne) as (ys & x & ->). destruct (sim_snoc c cal _ _ _ H) as (s0 & t & H1 & H2).
  pose proof (sim_inv c V cal _ _ Hp H) as J.
  destruct (step_split c cal s0 x s t H2) as (s1 & s2 & s3 & pi & po & vm & raw & _ & _ & _ & H4 & _).
  destruct (states_inv c cal _ _ _ H4) as [-> _]. unfold get_state_log_gpio, after_states in *. cbn [skip_gpio V_out] in *.
  destruct (i_out _ J) as [F B]. cbn [V_out] in F.
  destruct (fz_u32 _ (vc_gpio c V)) as (F1 & R1 & _). rewrite flt_R by assumption. rewrite R1. reflexivity.
Qed.

(** Setters. *)
Lemma set_get v s :
  get_P_input_fW (set_P_input_fW v s) = fround v /\ get_P_output_fW (set_P_input_fW v s) = get_P_output_fW s /\ get_V_intermediate_uV (set_P_input_fW v s) = get_V_intermediate_uV s /\
  get_P_output_fW (set_P_output_fW v s) = fround v /\ get_P_input_fW (set_P_output_fW v s) = get_P_input_fW s /\ get_V_intermediate_uV (set_P_output_fW v s) = get_V_intermediate_uV s /\
  get_V_intermediate_uV (set_V_intermediate_uV v s) = fround v /\ get_P_input_fW (set_V_intermediate_uV v s) = get_P_input_fW s /\ get_P_output_fW (set_V_intermediate_uV v s) = get_P_output_fW s.
Proof. repeat split. Qed.
End Cfg.
