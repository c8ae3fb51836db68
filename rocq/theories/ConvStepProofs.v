(** Proofs about the converter stage, part 2: drawn power, storage update, thresholds and output. *)
From Coq Require Import ZArith Bool Reals Lia Lra Psatz List.
From Flocq Require Import Core IEEE754.BinarySingleNaN.
From RecordUpdate Require Import RecordSet.
From Verif Require Import PyBase F64 F64x CalModel CalSpec CalProofs CalHwProofs ConvModel ConvSpec ConvProofs.
Import RecordSetNotations ListNotations.
Open Scope Z_scope.

(** Residue. *)
Definition rok (r : f64) : Prop := fin r = true /\ (0 <= fR r <= 60000)%R.

Lemma clampR_nonneg r : (0 <= r)%R -> (0 <= clampR r)%R.
Proof. intros H. pose proof Top_pos. unfold clampR, Rmax, Rmin. repeat destruct (Rle_dec _ _); lra. Qed.

Lemma pinf_of_x x : isnan x = false -> fin x = false -> (0 <= xR x)%R -> x = B754_infinity false.
Proof.
  intros N F H. pose proof Top_pos. destruct (inf_cases x F N) as [E|E]; [|exact E].
  rewrite E, xR_ninf in H. lra.
Qed.

Lemma raw_si_x p raw : valid_pair p -> 0 <= raw <= 2 ^ 18 - 1 ->
  isnan (raw_to_si p (fz raw) true) = false
  /\ ((0 <= fR (cp_off p))%R -> (0 <= xR (raw_to_si p (fz raw) true))%R)
  /\ (xR (cp_off p) <= xR (raw_to_si p (fz raw) true))%R.
Proof.
  intros (Fg & Fo & Pg) Hr. unfold raw_to_si. destruct (fz_ok raw) as [Fr Rr]; [lia|].
  assert (Pr : (0 <= IZR raw)%R) by (apply IZR_le; lia).
  destruct (fmul_x (fz raw) (cp_gain p) Fr Fg) as [N X]. rewrite Rr in X.
  assert (Pm : (0 <= rnd (IZR raw * fR (cp_gain p)))%R) by (apply rnd_nonneg, Rmult_le_pos; lra).
  pose proof (clampR_nonneg _ Pm) as Px. rewrite <- X in Px.
  destruct (fin (fmul (fz raw) (cp_gain p))) eqn:F.
  - destruct (fadd_x _ _ F Fo) as [N2 X2]. split; [exact N2|]. rewrite X2. rewrite (xR_fin _ F) in Px. split.
    + intros Ho. apply clampR_nonneg, rnd_nonneg. lra.
    + rewrite (xR_fin _ Fo). rewrite <- (clampR_in (fR (cp_off p))) at 1 by apply fR_lt_Top.
      apply clampR_le. apply rnd_ge_self. lra.
  - rewrite (pinf_of_x _ N F Px). assert (E : fadd (B754_infinity false) (cp_off p) = B754_infinity false).
    { destruct (cp_off p) as [s|s| |s m e B]; simpl in Fo; try discriminate; reflexivity. }
    rewrite E. split; [reflexivity|]. rewrite xR_pinf. pose proof Top_pos. split; [lra|].
    apply xR_range.
Qed.

Lemma e9 : fin (fz (10 ^ 9)) = true /\ fR (fz (10 ^ 9)) = 1000000000%R.
Proof. apply (fz_ok (10 ^ 9)). lia. Qed.

Lemma nA_x p raw : valid_pair p -> 0 <= raw <= 2 ^ 18 - 1 ->
  let i := fmul (raw_to_si p (fz raw) true) (fz (10 ^ 9)) in
  isnan i = false /\ ((0 <= fR (cp_off p))%R -> (0 <= xR i)%R).
Proof.
  intros Hp Hr. destruct (raw_si_x p raw Hp Hr) as (N & P & _). set (si := raw_to_si p (fz raw) true) in *.
  destruct e9 as [F9 R9]. cbv zeta. destruct (fin si) eqn:F.
  - destruct (fmul_x si (fz (10 ^ 9)) F F9) as [A B]. split; [exact A|]. intros Ho. rewrite B. rewrite R9.
    apply clampR_nonneg, rnd_nonneg. specialize (P Ho). rewrite (xR_fin si F) in P. lra.
  - destruct (inf_cases si F N) as [E|E]; rewrite E in *.
    + replace (fmul (B754_infinity true) (fz (10 ^ 9))) with (B754_infinity true : f64) by (vm_compute; reflexivity).
      split; [reflexivity|]. exact P.
    + replace (fmul (B754_infinity false) (fz (10 ^ 9))) with (B754_infinity false : f64) by (vm_compute; reflexivity).
      split; [reflexivity|]. exact P.
Qed.

Lemma rmax_ok : fin (fz RESIDUE_MAX_nA) = true /\ fR (fz RESIDUE_MAX_nA) = 60000%R.
Proof. apply (fz_ok 60000). lia. Qed.

(** C17 for one reading. *)
Lemma adc_ok cal r raw i r' : valid_pair (adc_C_A cal) -> rok r -> 0 <= raw <= 2 ^ 18 - 1 ->
  conv_adc_raw_to_nA cal r raw = (i, r') -> isnan i = false /\ (0 <= xR i)%R /\ rok r'.
Proof.
  intros Hp [Fr Br] Hw. unfold conv_adc_raw_to_nA.
  destruct (nA_x _ raw Hp Hw) as [N P]. set (I := fmul _ (fz (10 ^ 9))) in *. cbv zeta.
  destruct (fz_ok 0) as [F0 R0]; [lia|]. destruct Hp as (_ & Fo & _).
  destruct (flt (cp_off (adc_C_A cal)) (fz 0)) eqn:E.
  - destruct (flt r I) eqn:E2; intros H; apply pair_equal_spec in H; destruct H as [<- <-].
    + apply flt_x in E2; [|now apply fin_nan|exact N]. rewrite (xR_fin r Fr) in E2.
      assert (Q : rok (fz 0)) by (split; [exact F0|rewrite R0; lra]).
      destruct (fin I) eqn:FI.
      * destruct (fsub_x I r FI Fr) as [A B]. split; [exact A|]. split; [|exact Q].
        rewrite B. apply clampR_nonneg, rnd_nonneg. rewrite (xR_fin I FI) in E2. lra.
      * assert (PI : I = B754_infinity false) by (apply pinf_of_x; auto; lra). rewrite PI.
        assert (X : fsub (B754_infinity false) r = B754_infinity false).
        { clear -Fr. destruct r as [s|s| |s m e B]; simpl in Fr; try discriminate; reflexivity. }
        rewrite X. split; [reflexivity|]. rewrite xR_pinf. pose proof Top_pos. split; [lra|exact Q].
    + apply flt_x_false in E2; [|now apply fin_nan|exact N]. rewrite (xR_fin r Fr) in E2.
      split; [now apply fin_nan|]. rewrite (xR_fin (fz 0) F0), R0. split; [lra|].
      destruct rmax_ok as [Fm Rm].
      assert (K : isnan (fsub r I) = false /\ (0 <= xR (fsub r I))%R).
      { destruct (fin I) eqn:FI.
        - destruct (fsub_x r I Fr FI) as [A B]. split; [exact A|]. rewrite B. apply clampR_nonneg, rnd_nonneg.
          rewrite (xR_fin I FI) in E2. lra.
        - destruct (inf_cases I FI N) as [X|X]; rewrite X in *.
          + assert (Y : fsub r (B754_infinity true) = B754_infinity false).
            { clear -Fr. destruct r as [s|s| |s m e B]; simpl in Fr; try discriminate; reflexivity. }
            rewrite Y. split; [reflexivity|]. rewrite xR_pinf. pose proof Top_pos. lra.
          + rewrite xR_pinf in E2. pose proof (xR_open r Fr) as O. rewrite (xR_fin r Fr) in O. lra. }
      destruct K as [K1 K2].
      destruct (min_u32 (fsub r I) 60000 ltac:(split; lia) K1 K2) as (A & _ & B & _).
      split; [exact A|exact B].
  - intros H. apply pair_equal_spec in H; destruct H as [<- <-]. split; [exact N|]. split; [|split; assumption].
    apply P. apply flt_R_false in E; [|exact Fo|exact F0]. rewrite R0 in E. exact E.
Qed.

(** What is compensated: nothing is lost below the limit of the residue. *)
Lemma adc_balance cal r raw i r' : valid_pair (adc_C_A cal) -> rok r -> 0 <= raw <= 2 ^ 18 - 1 ->
  let si := raw_to_si (adc_C_A cal) (fz raw) true in
  let I := fmul si (fz (10 ^ 9)) in
  fin I = true -> (fR (cp_off (adc_C_A cal)) < 0)%R -> conv_adc_raw_to_nA cal r raw = (i, r') ->
  (fR r' = 0 /\ fR i = rnd (fR I - fR r) /\ fR r < fR I)%R
  \/ (fR i = 0 /\ fR I <= fR r /\ fR r' = Rmin (rnd (fR r - fR I)) 60000)%R.
Proof.
  intros Hp [Fr Br] Hw si I FI Ho. unfold conv_adc_raw_to_nA. fold si. fold I.
  destruct (fz_ok 0) as [F0 R0]; [lia|].
  assert (E : flt (cp_off (adc_C_A cal)) (fz 0) = true).
  { apply flt_R; [apply Hp|exact F0|]. rewrite R0. exact Ho. }
  rewrite E. destruct (flt r I) eqn:E2; intros H; apply pair_equal_spec in H; destruct H as [<- <-].
  - apply flt_R in E2; auto. left. split; [exact R0|]. split; [|exact E2].
    apply fsub_ok; auto.
    assert (Q : (0 <= rnd (fR I - fR r) <= fR I)%R) by (split; [apply rnd_nonneg; lra|apply rnd_le_self; lra]).
    rewrite Rabs_pos_eq by lra. pose proof (fR_lt_Top I) as L. apply Rabs_def2 in L. unfold Top in L. lra.
  - apply flt_R_false in E2; auto. right. split; [exact R0|]. split; [exact E2|].
    destruct (fsub_x r I Fr FI) as [A B]. destruct rmax_ok as [Fm Rm].
    assert (Q : (0 <= rnd (fR r - fR I))%R) by (apply rnd_nonneg; lra).
    destruct (min_u32 (fsub r I) 60000 ltac:(split; lia) A) as (C & D & _).
    { rewrite B. now apply clampR_nonneg. }
    change (fz RESIDUE_MAX_nA) with (fz 60000). rewrite D, B.
    assert (T : (60000 < Top)%R).
    { apply Rlt_le_trans with Big; [|unfold Big, Top; apply bpow_le; lia].
      apply Rlt_le_trans with (IZR 60001); [lra|]. apply IZR_Big. lia. }
    unfold clampR, Rmax, Rmin. pose proof Top_pos. repeat destruct (Rle_dec _ _); lra.
Qed.

Section Cfg.
Variable c : ccfg.
Hypothesis V : valid_ccfg c.
Variable cal : cal_emu.

Definition after_out (s : conv) (p r : f64) : conv :=
  mkConv (V_input s) (P_inp s) p (Z.max 0 (drain_n s - 1)) (V_mid s) (V_request s) (V_out s) (V_out_raw s)
    (power_good s) (sample_count s) (is_outputting s) (skip_gpio s) r.

Definition adc_code (raw : Z) : Z := Z.min (2 ^ 18 - 1) (Z.max 0 raw).
Lemma adc_code_range raw : 0 <= adc_code raw <= 2 ^ 18 - 1.
Proof. unfold adc_code. lia. Qed.

Definition out_eta (i eta : f64) : Prop :=
  (enable_buck c = false /\ eta = fz 1) \/ (enable_buck c = true /\ get_output_inv_efficiency c i = Ok eta).

Definition out_power (s : conv) (eta i : f64) : f64 :=
  if 0 <? drain_n s then fz 0
  else fadd (fmul (fmul eta (V_out s)) i) (fmul (V_mid s) (fz (I_intermediate_leak_nA c))).

Lemma out_eq s raw : 0 <= drain_n s -> calc_out_power c cal s raw =
  let '(i, r) := conv_adc_raw_to_nA cal (residue s) (adc_code raw) in
  let* eta := if enable_buck c then get_output_inv_efficiency c i else Ok (fz 1) in
  let* n := fround (out_power s eta i) in
  Ok (after_out s (out_power s eta i) r, n).
Proof.
  intros Hd. unfold calc_out_power, out_power, after_out. fold (adc_code raw).
  destruct (conv_adc_raw_to_nA cal (residue s) (adc_code raw)) as [i r].
  destruct (if enable_buck c then get_output_inv_efficiency c i else Ok (fz 1)) as [eta|e]; [|reflexivity].
  cbn [bind]. change (drain_n (set P_out _ (set residue _ s))) with (drain_n s).
  destruct (Z.ltb_spec 0 (drain_n s)) as [L|L].
  - rewrite Z.max_r by lia. reflexivity.
  - replace (Z.max 0 (drain_n s - 1)) with (drain_n s) by lia. reflexivity.
Qed.

Lemma out_inv s raw s' n : valid_pair (adc_C_A cal) -> vok (V_mid s) -> vok (V_out s) -> rok (residue s) -> 0 <= drain_n s ->
  calc_out_power c cal s raw = Ok (s', n) ->
  exists p r, s' = after_out s p r /\ n = ZnearestE (fR p) /\ fin p = true /\ (0 <= fR p)%R /\ rok r
    /\ (0 < drain_n s -> fR p = 0%R)
    /\ (drain_n s = 0 -> exists i eta, conv_adc_raw_to_nA cal (residue s) (adc_code raw) = (i, r)
          /\ fin i = true /\ (0 <= fR i)%R /\ out_eta i eta
          /\ fR p = drawn (fR eta) (fR (V_out s)) (fR i) (fR (V_mid s)) (IZR (I_intermediate_leak_nA c))).
Proof.
  intros Hp Vm Vo Hr Hd. rewrite out_eq by exact Hd.
  destruct (conv_adc_raw_to_nA cal (residue s) (adc_code raw)) as [i r] eqn:EA.
  destruct (adc_ok cal _ _ _ _ Hp Hr (adc_code_range raw) EA) as (Ni & Pi & Rr).
  destruct (if enable_buck c then get_output_inv_efficiency c i else Ok (fz 1)) as [eta|e] eqn:EE; [|discriminate].
  cbn [bind]. destruct (fround (out_power s eta i)) as [m|e] eqn:EF; [|discriminate]. cbn [bind].
  intros H. assert (H1 : after_out s (out_power s eta i) r = s' /\ m = n) by (split; congruence). clear H. destruct H1 as [<- <-].
  destruct (fround_inv _ m EF) as [Fp Em]. clear EF. revert Fp Em. unfold out_power.
  destruct (Z.ltb_spec 0 (drain_n s)) as [L|L]; intros Fp Em.
  - destruct (fz_ok 0) as [F0 R0]; [lia|]. exists (fz 0), r.
    split; [reflexivity|]. split; [exact Em|]. split; [exact F0|].
    rewrite R0. split; [lra|]. split; [exact Rr|]. split; [reflexivity|]. intros; lia.
  - set (p := fadd (fmul (fmul eta (V_out s)) i) (fmul (V_mid s) (fz (I_intermediate_leak_nA c)))) in *.
    destruct (fadd_fin_inv _ _ Fp) as (Fa & Fl & Ra). destruct (fmul_fin_inv _ _ Fa) as (Fb & Fi & Rb).
    destruct (fmul_fin_inv _ _ Fb) as (Fe & _ & Rc). destruct (fmul_fin_inv _ _ Fl) as (_ & _ & Rl).
    destruct (fz_u32 _ (vc_leak c V)) as (Fk & Rk & Bk). rewrite Rk in Rl.
    rewrite (xR_fin i Fi) in Pi.
    assert (OE : out_eta i eta).
    { destruct (enable_buck c) eqn:B; [right; auto|left]. injection EE as <-. auto. }
    assert (Pe : (0 <= fR eta)%R).
    { destruct OE as [[_ ->]|[_ G]]; [rewrite (proj2 fz1); lra|].
      destruct (output_eff c V i Fi Pi) as (e' & _ & _ & G' & _ & _ & _ & _ & Be). rewrite G in G'. injection G' as <-. lra. }
    assert (ED : fR p = drawn (fR eta) (fR (V_out s)) (fR i) (fR (V_mid s)) (IZR (I_intermediate_leak_nA c))).
    { unfold p, drawn. rewrite Ra, Rb, Rc, Rl. reflexivity. }
    assert (Pp : (0 <= fR p)%R).
    { rewrite ED. unfold drawn. apply rnd_nonneg. apply Rplus_le_le_0_compat; apply rnd_nonneg.
      - apply Rmult_le_pos; [|exact Pi]. apply rnd_nonneg, Rmult_le_pos; [exact Pe|apply Vo].
      - apply Rmult_le_pos; [apply Vm|lra]. }
    exists p, r. split; [reflexivity|].
    split; [exact Em|]. split; [exact Fp|]. split; [exact Pp|]. split; [exact Rr|]. split; [intros; lia|].
    intros _. exists i, eta. auto.
Qed.

(** Without overflow of the calibration the call succeeds. *)
Lemma si_bounded raw : bounded_cal cal -> 0 <= raw <= 2 ^ 18 - 1 ->
  let i := fmul (raw_to_si (adc_C_A cal) (fz raw) true) (fz (10 ^ 9)) in
  fin i = true /\ (Rabs (fR i) <= P2 150)%R.
Proof.
  intros ((Fg & Fo & Pg) & _ & Bg & Bo & _) Hr. destruct (fz_ok raw) as [Fr Rr]; [lia|].
  assert (Br : (0 <= fR (fz raw) <= P2 18)%R) by (rewrite Rr; split; apply IZR_le; lia).
  assert (Eg : bpow radix2 100 = P2 100) by (unfold P2; rewrite <- bpow_IZR by lia; reflexivity).
  rewrite Eg in *.
  destruct (mul_pos (fz raw) (cp_gain (adc_C_A cal)) 18 100 Fr Fg ltac:(lia) ltac:(lia) ltac:(lia) Br ltac:(lra)) as (A1 & A2 & A3).
  assert (S : (Rabs (fR (fmul (fz raw) (cp_gain (adc_C_A cal))) + fR (cp_off (adc_C_A cal))) <= P2 119)%R).
  { eapply Rle_trans; [apply Rabs_triang|]. rewrite (Rabs_pos_eq (fR (fmul _ _))) by lra.
    replace 119 with (118 + 1) by lia. rewrite <- P2_mul by lia. change (P2 1) with 2%R.
    pose proof (P2_le 100 118 ltac:(lia)). change (18 + 100) with 118 in A3. lra. }
  destruct (fadd_Big _ _ A1 Fo) as [B1 B2]; [pose proof (P2_Big 119 ltac:(lia)); lra|].
  assert (S2 : (Rabs (fR (fadd (fmul (fz raw) (cp_gain (adc_C_A cal))) (cp_off (adc_C_A cal)))) <= P2 119)%R).
  { rewrite B2. apply Rabs_le_inv in S. apply Rabs_le. apply rnd_between; auto using P2_fmt, fmt_opp.
    - apply fmt_opp, P2_fmt; lia.
    - apply P2_fmt; lia. }
  destruct e9 as [F9 R9]. unfold raw_to_si. set (si := fadd _ _) in *.
  assert (S3 : (Rabs (fR si * fR (fz (10 ^ 9))) <= P2 149)%R).
  { rewrite Rabs_mult. replace 149 with (119 + 30) by lia. rewrite <- P2_mul by lia. rewrite R9.
    apply Rmult_le_compat; auto using Rabs_pos. rewrite Rabs_pos_eq by lra. unfold P2. apply IZR_le. lia. }
  destruct (fmul_Big si (fz (10 ^ 9)) B1 F9) as [C1 C2]; [pose proof (P2_Big 149 ltac:(lia)); lra|].
  cbv zeta. split; [exact C1|]. rewrite C2. apply Rle_trans with (P2 149); [|apply P2_le; lia].
  apply Rabs_le_inv in S3. apply Rabs_le. apply rnd_between; auto.
  - apply fmt_opp, P2_fmt; lia.
  - apply P2_fmt; lia.
Qed.

Lemma adc_bounded r raw i r' : bounded_cal cal -> rok r -> 0 <= raw <= 2 ^ 18 - 1 ->
  conv_adc_raw_to_nA cal r raw = (i, r') -> fin i = true /\ (0 <= fR i <= P2 150)%R.
Proof.
  intros Hb Hr Hw E. pose proof (adc_ok cal r raw i r' (proj1 Hb) Hr Hw E) as (N & P & _).
  destruct (si_bounded raw Hb Hw) as [FI BI]. revert E. unfold conv_adc_raw_to_nA. cbv zeta.
  set (I := fmul _ (fz (10 ^ 9))) in *. pose proof (P2_pos 150 ltac:(lia)) as P150.
  assert (K : fin i = true -> (fR i <= P2 150)%R -> fin i = true /\ (0 <= fR i <= P2 150)%R).
  { intros F B. rewrite (xR_fin i F) in P. auto. }
  destruct (fz_ok 0) as [F0 R0]; [lia|]. destruct Hr as [Fr Br]. apply Rabs_le_inv in BI.
  destruct (flt (cp_off (adc_C_A cal)) (fz 0)); [destruct (flt r I) eqn:E2|]; intros H; apply pair_equal_spec in H; destruct H as [<- <-]; apply K; auto.
  - apply flt_R in E2; auto. destruct (fsub_Big I r FI Fr) as [A _]; [|exact A].
    pose proof (P2_Big 150 ltac:(lia)). rewrite Rabs_pos_eq; lra.
  - apply flt_R in E2; auto. destruct (fsub_Big I r FI Fr) as [A B].
    + pose proof (P2_Big 150 ltac:(lia)). rewrite Rabs_pos_eq; lra.
    + rewrite B. apply Rle_trans with (fR I); [|lra]. apply rnd_le_self. lra.
  - rewrite R0. lra.
  - lra.
Qed.

Lemma out_total s raw : bounded_cal cal -> vok (V_mid s) -> vok (V_out s) -> rok (residue s) -> 0 <= drain_n s ->
  exists s' n, calc_out_power c cal s raw = Ok (s', n) /\ (fR (P_out s') <= P2 300)%R.
Proof.
  intros Hb Vm Vo Hr Hd. rewrite out_eq by exact Hd.
  destruct (conv_adc_raw_to_nA cal (residue s) (adc_code raw)) as [i r] eqn:EA.
  destruct (adc_bounded _ _ _ _ Hb Hr (adc_code_range raw) EA) as [Fi Bi].
  assert (K : exists eta, (if enable_buck c then get_output_inv_efficiency c i else Ok (fz 1)) = Ok eta
     /\ fin eta = true /\ (0 <= fR eta <= P2 28)%R).
  { destruct (enable_buck c).
    - destruct (output_eff c V i Fi (proj1 Bi)) as (e' & _ & _ & G' & Fe & _ & _ & _ & Be). exists e'. auto.
    - destruct fz1 as [A B]. exists (fz 1). rewrite B. pose proof (P2_pos 28 ltac:(lia)). repeat split; auto; lra. }
  destruct K as (eta & Ee & Fe & Be). rewrite Ee. cbn [bind].
  destruct (vok_P2 _ Vm) as [Fm Bm]. destruct (vok_P2 _ Vo) as [Fo Bo].
  destruct (mul_pos _ _ 28 32 Fe Fo ltac:(lia) ltac:(lia) ltac:(lia) Be Bo) as (A1 & _ & A3).
  destruct (mul_pos _ _ (28 + 32) 150 A1 Fi ltac:(lia) ltac:(lia) ltac:(lia) A3 Bi) as (B1 & _ & B3).
  destruct (fz_u32 _ (vc_leak c V)) as (Fk & Rk & Bk).
  assert (Bk' : (0 <= fR (fz (I_intermediate_leak_nA c)) <= P2 178)%R).
  { rewrite Rk. pose proof (P2_le 32 178 ltac:(lia)). unfold P2 in *. lra. }
  destruct (mul_pos _ _ 32 178 Fm Fk ltac:(lia) ltac:(lia) ltac:(lia) Bm Bk') as (C1 & _ & C3).
  destruct (add_pos _ _ 210 B1 C1 ltac:(lia) B3 C3) as (D1 & _ & D3).
  pose proof (P2_le 211 300 ltac:(lia)) as PL. change (210 + 1) with 211 in D3.
  assert (K : fin (out_power s eta i) = true /\ (fR (out_power s eta i) <= P2 300)%R).
  { unfold out_power. destruct (0 <? drain_n s).
    - destruct (fz_ok 0) as [F0 R0]; [lia|]. rewrite R0. pose proof (P2_pos 300 ltac:(lia)). split; [exact F0|lra].
    - split; [exact D1|lra]. }
  destruct K as [K1 K2]. rewrite fround_ok by exact K1. cbn [bind]. eexists _, _. split; [reflexivity|]. exact K2.
Qed.

(** Storage update. *)
Definition Vcap : R := Rmax 1 (IZR (V_intermediate_max_uV c)).

Definition with_mid (s : conv) (v : f64) : conv :=
  mkConv (V_input s) (P_inp s) (P_out s) (drain_n s) v (V_request s) (V_out s) (V_out_raw s)
    (power_good s) (sample_count s) (is_outputting s) (skip_gpio s) (residue s).

Lemma cap_clamp w : fin (fmax (fmin w (fz (V_intermediate_max_uV c))) (fz 1)) = true ->
  isnan w = false
  /\ fR (fmax (fmin w (fz (V_intermediate_max_uV c))) (fz 1)) = Rmax (Rmin (xR w) (IZR (V_intermediate_max_uV c))) 1.
Proof.
  intros F. destruct (fz_u32 _ (vc_Vmax c V)) as (Fk & Rk & Bk). destruct fz1 as [F1 R1].
  destruct (isnan w) eqn:N.
  - rewrite (nan_eq w N), fmin_nan_l, fmax_nan_l in F. discriminate.
  - split; [reflexivity|]. destruct (fmin_x w _ N (fin_nan _ Fk)) as [A B].
    destruct (fmax_x _ (fz 1) A (fin_nan _ F1)) as [C D]. rewrite <- (xR_fin _ F). rewrite D, B.
    now rewrite (xR_fin (fz 1)), R1, (xR_fin (fz _)), Rk by assumption.
Qed.

Lemma cap_inv s s' n : update_cap_storage c s = Ok (s', n) ->
  exists v, s' = with_mid s v /\ fin v = true /\ (1 <= fR v <= Vcap)%R /\ n = ZnearestE (fR v).
Proof.
  unfold update_cap_storage.
  destruct (if enable_storage c then _ else _) as [w|e]; [|discriminate]. cbn [bind].
  set (v := fmax (fmin w _) (fz 1)). destruct (fround v) as [m|e] eqn:E; [|discriminate]. cbn [bind].
  intros H. injection H as <- <-. destruct (fround_inv v m E) as [Fv Em]. exists v.
  split; [reflexivity|]. split; [exact Fv|]. split; [|exact Em].
  destruct (cap_clamp w Fv) as [_ X]. fold v in X. rewrite X. unfold Vcap, Rmax, Rmin.
  repeat destruct (Rle_dec _ _); lra.
Qed.

Lemma Vcap_range : (1 <= Vcap <= IZR (2 ^ 32))%R.
Proof.
  unfold Vcap. destruct (fz_u32 _ (vc_Vmax c V)) as (_ & _ & B). pose proof (P2_pos 32 ltac:(lia)). unfold P2 in *.
  unfold Rmax. destruct (Rle_dec _ _); lra.
Qed.

Lemma rnd_div_1 (x : f64) y : (1 <= y)%R -> (Rabs (rnd (fR x / y)) < bpow radix2 1024)%R.
Proof.
  intros H. eapply Rle_lt_trans; [|apply (fR_lt_Top x)].
  assert (Q : (Rabs (fR x / y) <= Rabs (fR x))%R).
  { unfold Rdiv. rewrite Rabs_mult, (Rabs_pos_eq (/ y)) by (apply Rlt_le, Rinv_0_lt_compat; lra).
    rewrite <- (Rmult_1_r (Rabs (fR x))) at 2. apply Rmult_le_compat_l; [apply Rabs_pos|].
    rewrite <- Rinv_1. apply Rinv_le; lra. }
  assert (Fa : fmt (Rabs (fR x))) by apply generic_format_abs, fmt_fR.
  apply Rabs_le_inv in Q. apply Rabs_le. apply rnd_between; auto using fmt_opp.
Qed.

(** The new voltage before it is limited. *)
Definition V_next (vm pi po k : R) : R := rnd (vm + rnd (rnd (rnd (pi - po) / Rmax 1 vm) * k)).

Definition cap_w (s : conv) : res f64 :=
  if enable_storage c then
    let* I_mid := fdiv (fsub (P_inp s) (P_out s)) (fmax (fz 1) (V_mid s)) in
    Ok (fadd (V_mid s) (fmul I_mid (Constant_us_per_nF c)))
  else Ok (V_mid s).
Lemma cap_eq s : update_cap_storage c s =
  let* w := cap_w s in
  let v := fmax (fmin w (fz (V_intermediate_max_uV c))) (fz 1) in
  let* n := fround v in Ok (with_mid s v, n).
Proof. reflexivity. Qed.

Lemma cap_ok s : vok (V_mid s) -> fin (P_inp s) = true -> (0 <= fR (P_inp s) <= P2 64)%R ->
  fin (P_out s) = true -> (0 <= fR (P_out s) <= P2 300)%R ->
  exists v, update_cap_storage c s = Ok (with_mid s v, ZnearestE (fR v)) /\ fin v = true
    /\ fR v = Rmax (Rmin (if enable_storage c then V_next (fR (V_mid s)) (fR (P_inp s)) (fR (P_out s)) (IZR (Constant_us_per_nF_n28 c) / 268435456) else fR (V_mid s)) (IZR (V_intermediate_max_uV c))) 1.
Proof.
  intros Vm Fi Bi Fo Bo.
  assert (K : exists w, cap_w s = Ok w /\ fin w = true /\ fR w = if enable_storage c then V_next (fR (V_mid s)) (fR (P_inp s)) (fR (P_out s)) (IZR (Constant_us_per_nF_n28 c) / 268435456) else fR (V_mid s)).
  { unfold cap_w. destruct (enable_storage c); [|exists (V_mid s); repeat split; auto; apply Vm].
    destruct fz1 as [F1 R1]. destruct Vm as [Fm Bm].
    assert (Fp : fin (fmax (fz 1) (V_mid s)) = true) by now apply fmax_fin.
    assert (Rp : fR (fmax (fz 1) (V_mid s)) = Rmax 1 (fR (V_mid s))) by (rewrite fmax_R by auto; now rewrite R1).
    assert (Lp : (1 <= fR (fmax (fz 1) (V_mid s)))%R) by (rewrite Rp; apply Rmax_l).
    pose proof (P2_le 64 300 ltac:(lia)) as L64. pose proof (P2_Big 300 ltac:(lia)) as B300.
    destruct (fsub_Big _ _ Fi Fo) as [A1 A2]; [apply Rabs_le; lra|].
    assert (A3 : (- P2 300 <= rnd (fR (P_inp s) - fR (P_out s)) <= P2 300)%R).
    { apply rnd_between; [apply fmt_opp, P2_fmt; lia|apply P2_fmt; lia|lra]. }
    destruct (fdiv_ok _ _ A1 Fp ltac:(lra) (rnd_div_1 _ _ Lp)) as (q & Q1 & Q2 & Q3).
    rewrite Q1. cbn [bind]. rewrite A2, Rp in Q3. rewrite Rp in Lp.
    assert (Q4 : (- P2 300 <= fR q <= P2 300)%R).
    { rewrite Q3. apply rnd_between; [apply fmt_opp, P2_fmt; lia|apply P2_fmt; lia|].
      assert (I1 : (0 < / Rmax 1 (fR (V_mid s)) <= 1)%R).
      { split; [apply Rinv_0_lt_compat; lra|]. apply Rle_trans with (/ 1)%R; [apply Rinv_le; lra|rewrite Rinv_1; lra]. }
      unfold Rdiv. set (a := rnd (fR (P_inp s) - fR (P_out s))) in *. set (b := (/ Rmax 1 (fR (V_mid s)))%R) in *.
      clearbody a b. pose proof (P2_pos 300 ltac:(lia)). set (P := P2 300) in *. clearbody P. clear -I1 A3 H. nra. }
    destruct (Const_ok c V) as (Fc & Rc & Bc). change 16%R with (P2 4) in Bc.
    assert (Q5 : (- P2 304 <= fR q * fR (Constant_us_per_nF c) <= P2 304)%R).
    { change 304 with (300 + 4). rewrite <- P2_mul by lia. pose proof (P2_pos 300 ltac:(lia)).
      set (P := P2 300) in *. set (k := fR (Constant_us_per_nF c)) in *. set (R4 := P2 4) in *. clearbody P k R4.
      clear -Q4 Bc H. nra. }
    destruct (fmul_Big q _ Q2 Fc) as [D1 D2]; [apply Rabs_le; pose proof (P2_Big 304 ltac:(lia)); lra|].
    assert (D3 : (- P2 304 <= fR (fmul q (Constant_us_per_nF c)) <= P2 304)%R).
    { rewrite D2. apply rnd_between; [apply fmt_opp, P2_fmt; lia|apply P2_fmt; lia|lra]. }
    assert (E3 : (Rabs (fR (V_mid s) + fR (fmul q (Constant_us_per_nF c))) <= Big)%R).
    { pose proof (P2_le 32 304 ltac:(lia)). pose proof (P2_Big 305 ltac:(lia)) as B305. change 305 with (304 + 1) in B305.
      rewrite <- P2_mul in B305 by lia. change (P2 1) with 2%R in B305. change (IZR (2 ^ 32)) with (P2 32) in Bm.
      apply Rabs_le. lra. }
    destruct (fadd_Big _ _ Fm D1 E3) as [E1 E2].
    eexists. split; [reflexivity|]. split; [exact E1|]. rewrite E2, D2, Q3, Rc. reflexivity. }
  destruct K as (w & K1 & K2 & K3). rewrite cap_eq, K1. cbn [bind]. cbv zeta.
  destruct (fz_u32 _ (vc_Vmax c V)) as (Fk & Rk & Bk). destruct fz1 as [F1 R1].
  set (v := fmax (fmin w _) (fz 1)). assert (Fv : fin v = true) by (apply fmax_fin; [apply fmin_fin|]; auto).
  rewrite fround_ok by exact Fv. cbn [bind]. exists v. split; [reflexivity|]. split; [exact Fv|].
  destruct (cap_clamp w Fv) as [_ X]. fold v in X. rewrite X, (xR_fin w K2), K3. reflexivity.
Qed.

(** Thresholds and output. *)
Definition on_next (s : conv) : bool :=
  if check_now c s then
    if is_outputting s then negb (flt (V_mid s) (fz (V_disable_output_threshold_uV c)))
    else fle (fz (V_enable c)) (V_mid s)
  else is_outputting s.
Definition mid_next (s : conv) : f64 :=
  if check_now c s && negb (is_outputting s) && fle (fz (V_enable c)) (V_mid s)
  then fsub (V_mid s) (fz (dV_enable_output_uV c)) else V_mid s.
Definition good_next (s : conv) : bool :=
  if check_now c s || negb (immediate_pwr_good_signal c =? 0) then
    if power_good s then negb (fle (V_mid s) (fz (V_pwr_good_disable_threshold_uV c)))
    else fle (fz (V_pwr_good_enable_threshold_uV c)) (V_mid s) && on_next s
  else power_good s.
Definition powered (s : conv) : bool := on_next s || (0 <? drain_n s).
Definition vout_next (s : conv) : f64 :=
  if powered s then
    if negb (enable_buck c) || fle (mid_next s) (fz (V_output_uV c + V_buck_drop_uV c)) then
      if flt (fz (V_buck_drop_uV c)) (mid_next s) then fsub (mid_next s) (fz (V_buck_drop_uV c)) else fz 0
    else fz (V_output_uV c)
  else fz 0.

Lemma states_eq s : update_states_and_output c cal s =
  let* raw := if powered s then conv_uV_to_dac_raw cal (vout_next s) else Ok 0 in
  Ok (mkConv (V_input s) (P_inp s) (P_out s) (drain_n s) (mid_next s) (V_request s) (vout_next s) raw
        (good_next s) (if check_now c s then 0 else sample_count s + 1) (on_next s)
        (flt (vout_next s) (fz (V_output_log_gpio_threshold_uV c))) (residue s), raw).
Proof.
  unfold update_states_and_output, good_next, vout_next, powered, mid_next, on_next.
  set (ck := check_now c s). set (imm := negb (immediate_pwr_good_signal c =? 0)).
  set (b1 := flt (V_mid s) (fz (V_disable_output_threshold_uV c))).
  set (b2 := fle (fz (V_enable c)) (V_mid s)).
  set (b3 := fle (V_mid s) (fz (V_pwr_good_disable_threshold_uV c))).
  set (b4 := fle (fz (V_pwr_good_enable_threshold_uV c)) (V_mid s)).
  clearbody ck imm b1 b2 b3 b4.
  destruct s as [vi pi po dn vm vr vo vor pg sc io sg rs].
  set (bk := enable_buck c). set (b5 := 0 <? dn).
  destruct ck; [destruct io; [destruct b1|destruct b2]; (destruct pg; [destruct b3|destruct b4])
               |destruct io; (destruct imm; [destruct pg; [destruct b3|destruct b4]|])];
    lazy beta iota zeta delta [set eta_conv bind orb andb negb V_input P_inp P_out drain_n V_mid V_request V_out
      V_out_raw power_good sample_count is_outputting skip_gpio residue]; fold b5; clearbody bk b5; destruct b5.
  all: try (match goal with |- context [conv_uV_to_dac_raw cal ?x] => set (r := conv_uV_to_dac_raw cal x); destruct r end).
  all: reflexivity.
Qed.
End Cfg.
