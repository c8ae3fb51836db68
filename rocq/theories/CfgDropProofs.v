(** Proofs about mode, thresholds and voltage drop of a converted source configuration. *)
From Coq Require Import ZArith Bool Reals Lia Lra Psatz List.
From Flocq Require Import Core IEEE754.BinarySingleNaN.
From Verif Require Import PyBase F64 F64x HarvModel CalModel CalSpec ConvModel ConvSpec CfgModel CfgSpec CfgHrvProofs CfgSrcProofs.
Import ListNotations.
Open Scope Z_scope.

(** Conversion and its failures. *)
Theorem convert_src p v v' dtype log_mid : pow_ok p -> check_vsrc v = Ok v' -> Forall usable_efficiency (vs_LUT_out v) ->
  exists c, from_vsrc p v dtype log_mid = Ok c /\ valid_ccfg c /\ source_regs v c.
Proof.
  intros P H U. destruct (check_vsrc_ok v v' H) as (_ & V & _).
  destruct (from_vsrc_ok p v P V dtype log_mid U) as (c & E & R). destruct R. eauto.
Qed.

Lemma convert_lut p v dtype log_mid c : from_vsrc p v dtype log_mid = Ok c -> src_ok v -> Forall usable_efficiency (vs_LUT_out v).
Proof.
  intros H V. unfold from_vsrc in H.
  match type of H with bind ?r _ = _ => destruct r as [[[dV Ven] Vdis]|]; cbn [bind] in H; [|discriminate] end.
  do 20 (match type of H with bind ?r _ = _ => destruct r; cbn [bind] in H; [|discriminate] end).
  destruct (mapM lut_out_entry (vs_LUT_out v)) as [l|] eqn:E; cbn [bind] in H; [|discriminate].
  clear H. apply mapM_inv in E. destruct (so_LUT_out v V) as [_ L2]. clear V.
  induction E as [|x n r l' N F IH]; constructor; inversion L2; subst; [|now apply IH].
  destruct (lut_out_ok x) as [_ K]; [assumption|]. unfold usable_efficiency in *.
  destruct (Req_dec (fR x) 0) as [Z|Z]; [now left|]. right.
  destruct (Rlt_or_le (bpow radix2 (-1020)) (fR x)) as [|L]; [assumption|exfalso].
  rewrite K in N; [discriminate|]. intros [?|?]; lra.
Qed.

Theorem convert_fails p v v' dtype log_mid : pow_ok p -> check_vsrc v = Ok v' -> ~ Forall usable_efficiency (vs_LUT_out v) ->
  from_vsrc p v dtype log_mid = Err OverflowError.
Proof.
  intros P H U. destruct (check_vsrc_ok v v' H) as (_ & V & _).
  destruct (states_ok p v P V) as (dV & Ven & Vdis & E & S1 & S2 & S3 & S4 & _).
  destruct (lut_in_all v V) as (li & LI1 & _).
  destruct (cap_ok v V) as (q & C1 & _). destruct (R_in_ok _ (so_R_in v V)) as (nR & R1 & _).
  destruct (milli_ok _ 10000 ltac:(lia) (so_Vin_max v V)) as (n1 & A1 & _).
  destruct (milli_ok _ 4290000 ltac:(lia) (so_Vin_drop v V)) as (n2 & B1 & _).
  destruct (milli_ok _ 10000 ltac:(lia) (so_V_init v V)) as (n3 & D1 & _).
  destruct (milli_ok _ 15000 ltac:(lia) S2) as (n4 & F1 & _).
  destruct (milli_ok _ 10000 ltac:(lia) S3) as (n5 & G1 & _).
  destruct (milli_ok _ 10000 ltac:(lia) S1) as (n6 & H1 & _).
  destruct (milli_ok _ 10000 ltac:(lia) (so_pg_en v V)) as (n7 & I1 & _).
  destruct (milli_ok _ 10000 ltac:(lia) (so_pg_dis v V)) as (n8 & J1 & _).
  destruct (milli_ok _ 4290000 ltac:(lia) (so_V_log v V)) as (n9 & K1 & _).
  destruct (milli_ok _ 10000 ltac:(lia) (so_V_boost v V)) as (n10 & M1 & _).
  destruct (milli_ok _ 10000 ltac:(lia) (so_V_mid_max v V)) as (n11 & N1 & _).
  destruct (milli_ok _ 5000 ltac:(lia) (so_V_out v V)) as (n12 & O1 & _).
  destruct (milli_ok _ 5000 ltac:(lia) (so_V_buck v V)) as (n13 & Q1 & _).
  destruct (so_Iin_max v V) as [FI HI]. destruct (scaled (vs_Iin_max v) 1000000 4290) as (n14 & T1 & _); [exact FI|lia|lia|lia|lia|exact HI|].
  destruct (so_I_leak v V) as [FL HL]. destruct (so_drain v V) as [FD HD]. destruct (so_check v V) as [FC HC].
  unfold from_vsrc. rewrite E. cbn [bind]. rewrite ms_ok by (auto; lra). cbn [bind]. rewrite A1. cbn [bind]. rewrite T1. cbn [bind].
  rewrite B1. cbn [bind]. rewrite R1. cbn [bind]. rewrite C1. cbn [bind]. rewrite D1. cbn [bind].
  rewrite (fround_ok _ FL). cbn [bind]. rewrite F1. cbn [bind]. rewrite G1. cbn [bind]. rewrite H1. cbn [bind].
  rewrite ms_ok by (auto; lra). cbn [bind]. rewrite I1. cbn [bind]. rewrite J1. cbn [bind]. rewrite K1. cbn [bind]. rewrite M1. cbn [bind].
  rewrite N1. cbn [bind]. rewrite O1. cbn [bind]. rewrite Q1. cbn [bind]. rewrite LI1. cbn [bind].
  destruct (mapM lut_out_entry (vs_LUT_out v)) as [l|e] eqn:EL.
  - exfalso. apply U. apply mapM_inv in EL. destruct (so_LUT_out v V) as [_ L2]. clear - EL L2.
    induction EL as [|x n r l' N F IH]; constructor; inversion L2; subst; [|now apply IH].
    destruct (lut_out_ok x) as [_ K]; [assumption|]. unfold usable_efficiency in *.
    destruct (Req_dec (fR x) 0) as [Z|Z]; [now left|]. right.
    destruct (Rlt_or_le (bpow radix2 (-1020)) (fR x)) as [|L]; [assumption|exfalso].
    rewrite K in N; [discriminate|]. intros [?|?]; lra.
  - cbn [bind]. destruct (mapM_err _ _ _ EL) as (x & X1 & X2). destruct (so_LUT_out v V) as [_ L2].
    rewrite Forall_forall in L2. destruct (lut_out_ok x (L2 x X1)) as [K1' K2'].
    destruct (Req_dec (fR x) 0) as [Z|Z].
    + destruct K1' as (n & N & _); [now left|]. congruence.
    + destruct (Rlt_or_le (bpow radix2 (-1020)) (fR x)) as [L|L].
      * destruct K1' as (n & N & _); [now right|]. congruence.
      * rewrite K2' in X2; [congruence|]. unfold usable_efficiency. intros [?|?]; lra.
Qed.

(** C20 *)
Lemma mode_of p v dtype log_mid c : from_vsrc p v dtype log_mid = Ok c -> converter_mode c = calc_converter_mode v dtype log_mid.
Proof.
  intros H. unfold from_vsrc in H.
  match type of H with bind ?r _ = _ => destruct r as [[[dV Ven] Vdis]|]; cbn [bind] in H; [|discriminate] end.
  do 21 (match type of H with bind ?r _ = _ => destruct r; cbn [bind] in H; [|discriminate] end).
  cbv zeta in H. match type of H with (if ?g then _ else _) = _ => destruct g; [|discriminate] end.
  injection H as <-. reflexivity.
Qed.

Theorem mode_bits p v v' dtype log_mid c : check_vsrc v = Ok v' -> from_vsrc p v dtype log_mid = Ok c ->
  (enable_storage c = true <-> (0 < fR (vs_C_mid v))%R)
  /\ (enable_boost c = true <-> vs_boost v = true /\ (0 < fR (vs_C_mid v))%R)
  /\ enable_buck c = vs_buck v
  /\ enable_log_mid c = log_mid
  /\ (feedback_to_hrv c = true <-> vs_feedback v = true /\ (0 < fR (vs_C_mid v))%R /\ vs_boost v = false /\ dtype = D_ivcurve)
  /\ 0 <= converter_mode c < 32.
Proof.
  intros H E. destruct (check_vsrc_ok v v' H) as (_ & V & _). apply mode_of in E.
  destruct (so_C_mid v V) as [FC HC]. assert (F0 : fin (fz 0) = true) by (apply fz_fin; lia).
  pose proof (flt_R (fz 0) (vs_C_mid v) F0 FC) as G. rewrite fz_R in G by lia.
  unfold enable_storage, enable_boost, enable_buck, enable_log_mid, feedback_to_hrv, mode_bit. rewrite E. unfold calc_converter_mode.
  destruct (flt (fz 0) (vs_C_mid v)).
  - assert (S : (0 < fR (vs_C_mid v))%R) by (now apply G). clear G.
    destruct (vs_boost v), (vs_buck v), log_mid, (vs_feedback v), dtype; cbn; intuition (try discriminate; auto; lia).
  - assert (S : ~ (0 < fR (vs_C_mid v))%R) by (intros X; apply G in X; discriminate). clear G.
    destruct (vs_boost v), (vs_buck v), log_mid, (vs_feedback v), dtype; cbn; intuition (try discriminate; auto; lia).
Qed.

(** Thresholds. *)
Theorem thresholds p v v' dtype log_mid c : pow_ok p -> check_vsrc v = Ok v' -> from_vsrc p v dtype log_mid = Ok c ->
  0 <= dV_enable_output_uV c <= V_enable_output_threshold_uV c
  /\ V_enable c = V_enable_output_threshold_uV c
  /\ V_enable_output_threshold_uV c <= 15000000 /\ V_disable_output_threshold_uV c <= 10000000
  /\ (vs_buck v = false ->
        rounds_to (V_enable_output_threshold_uV c) (fR (vs_V_en v) * 1000)
        /\ rounds_to (V_disable_output_threshold_uV c) (fR (vs_V_dis v) * 1000))
  /\ (vs_buck v = true ->
        rounds_to (V_disable_output_threshold_uV c) (Rmax (V_pre v) (fR (vs_V_dis v)) * 1000)
        /\ ((V_pre v < fR (vs_V_en v))%R -> rounds_to (V_enable_output_threshold_uV c) (fR (vs_V_en v) * 1000))
        /\ ((fR (vs_V_en v) <= V_pre v)%R ->
              (Rabs (IZR (V_enable_output_threshold_uV c - dV_enable_output_uV c) - V_pre v * 1000) <= 1 + bpow radix2 (-10))%R
              /\ IZR (dV_enable_output_uV c) <= fR (vs_V_out v) * 1000 + / 2 + bpow radix2 (-18))%R).
Proof.
  intros P H E. destruct (check_vsrc_ok v v' H) as (_ & V & _).
  pose proof (convert_lut _ _ _ _ _ E V) as U.
  destruct (from_vsrc_ok p v P V dtype log_mid U) as (c' & E' & R). rewrite E in E'. injection E' as <-.
  destruct R as [_ _ _ (dV & Ven & Vdis & ES & R1 & R2 & R3)].
  destruct (states_ok p v P V) as (dV' & Ven' & Vdis' & ES' & S1 & S2 & S3 & S4 & S5 & S6).
  assert (X : dV' = dV /\ Ven' = Ven /\ Vdis' = Vdis) by (repeat split; congruence). destruct X as (-> & -> & ->). clear ES ES'.
  destruct S1 as [Fd Hd], S2 as [Fe He], S3 as [Fs Hs].
  assert (N1 : rounds_to (dV_enable_output_uV c) (fR dV * 1000)).
  { rewrite R1. apply rnd_near. change (2 ^ 33) with 8589934592. lra. }
  assert (N2 : rounds_to (V_enable_output_threshold_uV c) (fR Ven * 1000)).
  { rewrite R2. apply rnd_near. change (2 ^ 33) with 8589934592. lra. }
  assert (N3 : rounds_to (V_disable_output_threshold_uV c) (fR Vdis * 1000)).
  { rewrite R3. apply rnd_near. change (2 ^ 33) with 8589934592. lra. }
  assert (O1 : 0 <= dV_enable_output_uV c <= V_enable_output_threshold_uV c).
  { rewrite R1, R2. split; [apply near_ge_Z, rnd_nonneg; lra|apply near_le, rnd_le; lra]. }
  split; [exact O1|]. split; [unfold V_enable; lia|].
  split; [rewrite R2; apply near_le_Z, rnd_le_Z; [lia|lra]|].
  split; [rewrite R3; apply near_le_Z, rnd_le_Z; [lia|lra]|].
  split.
  - intros B. destruct (S6 B) as [K1 K2]. rewrite <- K1, <- K2. auto.
  - intros B. destruct (S5 B) as [K1 K2]. rewrite <- K1. split; [exact N3|].
    destruct (V_pre_ok v V) as (_ & _ & VP & _). destruct (so_V_out v V) as [_ HO].
    split.
    + intros L. destruct K2 as [[_ K2]|[K2 _]]; [now rewrite <- K2|lra].
    + intros L. destruct K2 as [[K2 _]|(_ & K2 & K3)]; [lra|].
      assert (bpow radix2 (-18) = / 262144)%R as B18 by reflexivity. assert (bpow radix2 (-10) = / 1024)%R as B10 by reflexivity.
      unfold rounds_to in N1, N2. rewrite B18 in *. rewrite B10.
      pose proof (rnd_err (V_pre v + fR dV)) as RE. rewrite <- K3 in RE.
      rewrite Rabs_pos_eq with (x := (V_pre v + fR dV)%R) in RE by lra. rewrite u64_val in RE.
      assert (eta64 <= bpow radix2 (-40))%R as ET by (apply bpow_le; lia).
      assert (bpow radix2 (-40) = / 1099511627776)%R as B1 by reflexivity. rewrite B1 in ET.
      apply Rabs_le_inv in N1, N2, RE. rewrite minus_IZR. split; [apply Rabs_le; lra|lra].
Qed.

(** *** The voltage drop *)
Lemma sqrt_diff a b : (0 <= a)%R -> (1 <= b)%R -> (Rabs (sqrt a - sqrt b) <= Rabs (a - b))%R.
Proof.
  intros Ha Hb. assert (S1 : (1 <= sqrt b)%R) by (rewrite <- sqrt_1; apply sqrt_le_1; lra).
  assert (S0 : (0 <= sqrt a)%R) by apply sqrt_pos.
  assert (E : (a - b = (sqrt a - sqrt b) * (sqrt a + sqrt b))%R).
  { rewrite <- (sqrt_sqrt a) at 1 by exact Ha. rewrite <- (sqrt_sqrt b) at 1 by lra. ring. }
  rewrite E, Rabs_mult. rewrite (Rabs_pos_eq (sqrt a + sqrt b)) by lra.
  pose proof (Rabs_pos (sqrt a - sqrt b)). nra.
Qed.
Lemma sqrt_diff0 a b e : (0 <= a)%R -> (0 <= b)%R -> (0 <= e)%R -> (Rabs (a - b) <= e * e)%R -> (Rabs (sqrt a - sqrt b) <= e)%R.
Proof.
  intros Ha Hb He H. apply Rabs_le_inv in H.
  assert (K : forall x y, (0 <= x)%R -> (0 <= y)%R -> (x <= y + e * e)%R -> (sqrt x <= sqrt y + e)%R).
  { intros x y Hx Hy L. pose proof (sqrt_pos y) as Py. rewrite <- (sqrt_square (sqrt y + e)) by lra.
    apply sqrt_le_1; [exact Hx|nra|]. rewrite <- (sqrt_sqrt y Hy) in L. nra. }
  pose proof (K a b Ha Hb ltac:(lra)). pose proof (K b a Hb Ha ltac:(lra)). apply Rabs_le. lra.
Qed.

Lemma div_C a b : fin a = true -> fin b = true -> (0 <= fR a <= 4290000)%R -> (/ 1000 <= fR b)%R ->
  exists q, fdiv a b = Ok q /\ fin q = true /\ fR q = rnd (fR a / fR b) /\ (0 <= fR a / fR b <= 4290000000)%R.
Proof.
  intros Fa Fb Ha Hb.
  assert (I : (0 < / fR b <= 1000)%R).
  { split; [apply Rinv_0_lt_compat; lra|]. rewrite <- (Rinv_inv 1000). apply Rinv_le; lra. }
  assert (B : (0 <= fR a / fR b <= 4290000000)%R) by (unfold Rdiv; nra).
  destruct (fdiv_Big a b Fa Fb) as (q & Q1 & Q2 & Q3); [lra| |].
  - apply small_Big. change (2 ^ 60) with 1152921504606846976. rewrite Rabs_pos_eq by lra. lra.
  - exists q. auto.
Qed.

Lemma eta_small : (0 <= eta64 <= / 1267650600228229401496703205376)%R.
Proof.
  split; [left; apply eta64_pos|]. assert (eta64 <= bpow radix2 (-100))%R as ET by (apply bpow_le; lia).
  change (bpow radix2 (-100)) with (/ 1267650600228229401496703205376)%R in ET. exact ET.
Qed.

(** The first formula. *)
Lemma drop_accurate p v a b : pow_accurate p -> src_ok v -> dV_raw p v = Ok (a, b) ->
  (/ 1000 <= fR (vs_C_mid v))%R -> (0 < fR (vs_C_out v))%R ->
  (fR (vs_C_out v) / fR (vs_C_mid v) * (fR (vs_V_out v) * fR (vs_V_out v)) + 1 <= fR (vs_V_en v) * fR (vs_V_en v))%R ->
  (Rabs (fR (protect a)
         - (fR (vs_V_en v) - sqrt (fR (vs_V_en v) * fR (vs_V_en v) - fR (vs_C_out v) / fR (vs_C_mid v) * (fR (vs_V_out v) * fR (vs_V_out v)))))
     <= / 100000)%R.
Proof.
  intros P V E HC HO HM. destruct (so_V_en v V) as [Fe He]. destruct (so_V_out v V) as [Fo Ho].
  destruct (so_C_mid v V) as [Fc Hc]. destruct (so_C_out v V) as [Fk Hk].
  assert (F0 : fin (fz 0) = true) by (apply fz_fin; lia).
  unfold dV_raw in E.
  assert (G1 : flt (fz 0) (vs_C_mid v) = true) by (apply flt_R; auto; rewrite fz_R by lia; lra).
  assert (G2 : flt (fz 0) (vs_C_out v) = true) by (apply flt_R; auto; rewrite fz_R by lia; lra).
  rewrite G1, G2 in E. cbn [andb] in E.
  destruct (div_C _ _ Fk Fc Hk HC) as (q & Q1 & Q2 & Q3 & Q4). rewrite Q1 in E. cbn [bind] in E.
  assert (EA : a = omap (fsub (vs_V_en v)) (p_rt p (fsub (p_sq p (vs_V_en v)) (fmul q (p_sq p (vs_V_out v)))))) by congruence.
  clear E G1 G2 b Q1.
  destruct (P (vs_V_en v) Fe ltac:(lra)) as [[PA1 PA2] _]. destruct (P (vs_V_out v) Fo ltac:(lra)) as [[PB1 PB2] _].
  set (x := fR (vs_V_en v)) in *. set (y := fR (vs_V_out v)) in *. set (r := (fR (vs_C_out v) / fR (vs_C_mid v))%R) in *.
  set (sa := p_sq p (vs_V_en v)) in *. set (sb := p_sq p (vs_V_out v)) in *.
  pose proof eta_small as ET. pose proof (rnd_err r) as R1. rewrite <- Q3 in R1.
  rewrite (Rabs_pos_eq r) in R1 by lra. rewrite u64_val in R1.
  change (bpow radix2 (-51)) with (/ 2251799813685248)%R in PA2, PB2.
  assert (T : (0 <= bpow radix2 (-1000) <= / 1267650600228229401496703205376)%R).
  { split; [apply bpow_ge_0|]. change (/ 1267650600228229401496703205376)%R with (bpow radix2 (-100)). apply bpow_le. lia. }
  set (t := bpow radix2 (-1000)) in *. clearbody t.
  assert (Y0 : (0 <= y * y <= 25000000)%R) by (clear - Ho; clearbody y; split; nra).
  assert (RY : (0 <= r * (y * y) <= x * x - 1)%R) by (split; [apply Rmult_le_pos; lra|lra]).
  assert (X0 : (1 <= x * x <= 100000000)%R) by (split; [lra|clear - He; clearbody x; nra]).
  set (yy := (y * y)%R) in *. set (xx := (x * x)%R) in *.
  apply Rabs_le_inv in PA2, PB2, R1.
  (* product *)
  assert (FQ : (Rabs (fR q * fR sb - r * yy) <= / 10000000)%R).
  { set (d1 := (fR q - r)%R). set (d2 := (fR sb - yy)%R).
    replace (fR q * fR sb - r * yy)%R with (r * d2 + d1 * yy + d1 * d2)%R by (unfold d1, d2; ring).
    assert (D1 : (- (r * / 4503599627370496 + / 1267650600228229401496703205376) <= d1 <= r * / 4503599627370496 + / 1267650600228229401496703205376)%R) by (unfold d1; lra).
    assert (D2 : (- (yy * / 2251799813685248 + / 1267650600228229401496703205376) <= d2 <= yy * / 2251799813685248 + / 1267650600228229401496703205376)%R) by (unfold d2; lra).
    clearbody d1 d2.
    assert (A1 : (Rabs (r * d2) <= / 20000000)%R).
    { rewrite Rabs_mult, (Rabs_pos_eq r) by lra.
      assert (Rabs d2 <= yy * / 2251799813685248 + / 1267650600228229401496703205376)%R by (apply Rabs_le; lra).
      assert (r * Rabs d2 <= r * (yy * / 2251799813685248 + / 1267650600228229401496703205376))%R by (apply Rmult_le_compat_l; lra).
      lra. }
    assert (A2 : (Rabs (d1 * yy) <= / 40000000)%R).
    { rewrite Rabs_mult, (Rabs_pos_eq yy) by lra.
      assert (Rabs d1 <= r * / 4503599627370496 + / 1267650600228229401496703205376)%R by (apply Rabs_le; lra).
      assert (Rabs d1 * yy <= (r * / 4503599627370496 + / 1267650600228229401496703205376) * yy)%R by (apply Rmult_le_compat_r; lra).
      lra. }
    assert (A3 : (Rabs (d1 * d2) <= / 40000000)%R).
    { rewrite Rabs_mult.
      assert (Rabs d1 <= / 1000000)%R by (apply Rabs_le; lra).
      assert (Rabs d2 <= / 1000000)%R by (apply Rabs_le; lra).
      pose proof (Rabs_pos d1). pose proof (Rabs_pos d2). nra. }
    eapply Rle_trans; [apply Rabs_triang|]. pose proof (Rabs_triang (r * d2) (d1 * yy)). lra. }
  apply Rabs_le_inv in FQ.
  assert (PQ : (Rabs (fR q * fR sb) <= Big)%R).
  { apply small_Big. change (2 ^ 60) with 1152921504606846976. apply Rabs_le. lra. }
  destruct (fmul_Big _ _ Q2 PB1 PQ) as [M1 M2]. set (m := fmul q sb) in *.
  pose proof (rnd_err (fR q * fR sb)) as RM. rewrite <- M2, u64_val in RM.
  assert (AB : (Rabs (fR q * fR sb) <= 100000001)%R) by (apply Rabs_le; lra).
  apply Rabs_le_inv in RM.
  assert (MM : (- / 4000000 <= fR m - r * yy <= / 4000000)%R) by lra. clear RM AB FQ PQ M2. clearbody m.
  (* difference *)
  assert (SQ : (Rabs (fR sa - fR m) <= Big)%R).
  { apply small_Big. change (2 ^ 60) with 1152921504606846976. apply Rabs_le. lra. }
  destruct (fsub_Big _ _ PA1 M1 SQ) as [W1 W2]. set (w := fsub sa m) in *.
  pose proof (rnd_err (fR sa - fR m)) as RW. rewrite <- W2, u64_val in RW.
  assert (AB : (Rabs (fR sa - fR m) <= 100000001)%R) by (apply Rabs_le; lra).
  apply Rabs_le_inv in RW.
  assert (WW : (- / 1000000 <= fR w - (xx - r * yy) <= / 1000000)%R) by lra. clear RW AB SQ W2. clearbody w.
  (* root *)
  destruct (P w W1 ltac:(lra)) as [_ (s & S1 & S2 & S3)]. rewrite S1 in EA. cbn [omap] in EA. rewrite EA.
  change (bpow radix2 (-51)) with (/ 2251799813685248)%R in S3.
  assert (SD : (Rabs (sqrt (fR w) - sqrt (xx - r * yy)) <= / 1000000)%R).
  { eapply Rle_trans; [apply sqrt_diff; lra|]. apply Rabs_le. lra. }
  assert (SW : (0 <= sqrt (fR w) <= 10001)%R).
  { split; [apply sqrt_pos|]. rewrite <- (sqrt_square 10001) by lra. apply sqrt_le_1; lra. }
  set (rt := sqrt (xx - r * yy)) in *. set (rw := sqrt (fR w)) in *.
  apply Rabs_le_inv in S3, SD.
  assert (SS : (- / 500000 <= fR s - rt <= / 500000)%R) by lra.
  assert (RT : (0 <= rt <= 10002)%R) by (split; [apply sqrt_pos|lra]).
  assert (XR : (x - rt >= 0)%R).
  { assert (rt <= sqrt xx)%R by (apply sqrt_le_1; lra). unfold xx in H. rewrite sqrt_square in H by lra. lra. }
  assert (DQ : (Rabs (fR (vs_V_en v) - fR s) <= Big)%R).
  { apply small_Big. change (2 ^ 60) with 1152921504606846976. fold x. apply Rabs_le. lra. }
  destruct (fsub_Big _ _ Fe S2 DQ) as [Z1 Z2]. fold x in Z2, DQ.
  pose proof (rnd_err (x - fR s)) as RZ. rewrite <- Z2, u64_val in RZ.
  assert (AB : (Rabs (x - fR s) <= 20002)%R) by (apply Rabs_le; lra). apply Rabs_le_inv in RZ.
  unfold protect. destruct (fle (fz 0) (fsub (vs_V_en v) s)) eqn:G.
  - apply Rabs_le. lra.
  - apply fle_R_false in G; auto. rewrite fz_R in * by lia. apply Rabs_le. lra.
Qed.

(** The second formula. *)
Lemma low_accurate p v a b : pow_accurate p -> src_ok v -> dV_raw p v = Ok (a, b) ->
  (/ 1000 <= fR (vs_C_mid v))%R -> (0 < fR (vs_C_out v) <= fR (vs_C_mid v))%R ->
  (Rabs (fR (protect b) - fR (vs_V_out v) * (1 - sqrt (1 - fR (vs_C_out v) / fR (vs_C_mid v)))) <= / 5000)%R.
Proof.
  intros P V E HC HO. destruct (so_V_en v V) as [Fe He]. destruct (so_V_out v V) as [Fo Ho].
  destruct (so_C_mid v V) as [Fc Hc]. destruct (so_C_out v V) as [Fk Hk].
  assert (F0 : fin (fz 0) = true) by (apply fz_fin; lia). assert (F1 : fin (fz 1) = true) by (apply fz_fin; lia).
  unfold dV_raw in E.
  assert (G1 : flt (fz 0) (vs_C_mid v) = true) by (apply flt_R; auto; rewrite fz_R by lia; lra).
  assert (G2 : flt (fz 0) (vs_C_out v) = true) by (apply flt_R; auto; rewrite fz_R by lia; lra).
  rewrite G1, G2 in E. cbn [andb] in E.
  destruct (div_C _ _ Fk Fc Hk HC) as (q & Q1 & Q2 & Q3 & Q4). rewrite Q1 in E. cbn [bind] in E.
  assert (EB : b = omap (fun r => fmul (vs_V_out v) (fsub (fz 1) r)) (p_rt p (fsub (fz 1) q))) by congruence.
  clear E G1 G2 a Q1.
  assert (R01 : (0 <= fR (vs_C_out v) / fR (vs_C_mid v) <= 1)%R).
  { split; [lra|]. apply Rmult_le_reg_r with (fR (vs_C_mid v)); [lra|]. unfold Rdiv. rewrite Rmult_assoc, Rinv_l by lra. lra. }
  set (y := fR (vs_V_out v)) in *. set (r := (fR (vs_C_out v) / fR (vs_C_mid v))%R) in *.
  pose proof eta_small as ET. pose proof (rnd_err r) as R1.
  assert (RQ : (0 <= fR q <= 1)%R) by (rewrite Q3; split; [apply rnd_nonneg; lra|apply (rnd_le_Z 1); [lia|lra]]).
  rewrite <- Q3 in R1. rewrite (Rabs_pos_eq r) in R1 by lra. rewrite u64_val in R1. apply Rabs_le_inv in R1.
  assert (SQ : (Rabs (fR (fz 1) - fR q) <= Big)%R).
  { rewrite fz_R by lia. apply small_Big. change (2 ^ 60) with 1152921504606846976. apply Rabs_le. lra. }
  destruct (fsub_Big _ _ F1 Q2 SQ) as [W1 W2]. rewrite fz_R in W2 by lia. set (w := fsub (fz 1) q) in *.
  pose proof (rnd_err (1 - fR q)) as RW. rewrite <- W2, u64_val in RW. rewrite (Rabs_pos_eq (1 - fR q)) in RW by lra.
  apply Rabs_le_inv in RW.
  assert (W0 : (0 <= fR w <= 1)%R) by (rewrite W2; split; [apply rnd_nonneg; lra|apply (rnd_le_Z 1); [lia|lra]]).
  clear SQ W2. clearbody w.
  destruct (P w W1 ltac:(lra)) as [_ (s & S1 & S2 & S3)]. rewrite S1 in EB. cbn [omap] in EB. rewrite EB.
  change (bpow radix2 (-51)) with (/ 2251799813685248)%R in S3.
  assert (SD : (Rabs (sqrt (fR w) - sqrt (1 - r)) <= / 60000000)%R).
  { apply sqrt_diff0; [lra|lra|lra|]. apply Rabs_le. lra. }
  assert (SW : (0 <= sqrt (fR w) <= 1)%R).
  { split; [apply sqrt_pos|]. rewrite <- sqrt_1. apply sqrt_le_1; lra. }
  assert (RT : (0 <= sqrt (1 - r) <= 1)%R).
  { split; [apply sqrt_pos|]. rewrite <- sqrt_1 at 2. apply sqrt_le_1; lra. }
  set (rt := sqrt (1 - r)) in *. set (rw := sqrt (fR w)) in *. clearbody rw.
  apply Rabs_le_inv in S3, SD.
  assert (SS : (- / 50000000 <= fR s - rt <= / 50000000)%R) by lra.
  assert (DQ : (Rabs (fR (fz 1) - fR s) <= Big)%R).
  { rewrite fz_R by lia. apply small_Big. change (2 ^ 60) with 1152921504606846976. apply Rabs_le. lra. }
  destruct (fsub_Big _ _ F1 S2 DQ) as [Z1 Z2]. rewrite fz_R in Z2 by lia.
  pose proof (rnd_err (1 - fR s)) as RZ. rewrite <- Z2, u64_val in RZ.
  assert (AB : (Rabs (1 - fR s) <= 2)%R) by (apply Rabs_le; lra). apply Rabs_le_inv in RZ.
  set (z := fsub (fz 1) s) in *. clear DQ Z2. clearbody z.
  assert (ZZ : (- / 40000000 <= fR z - (1 - rt) <= / 40000000)%R) by lra.
  assert (YB : (0 <= y <= 5000)%R) by exact Ho.
  assert (YZ : (- / 7000 <= y * fR z - y * (1 - rt) <= / 7000)%R).
  { replace (y * fR z - y * (1 - rt))%R with (y * (fR z - (1 - rt)))%R by ring.
    set (d := (fR z - (1 - rt))%R) in *. clear - YB ZZ. clearbody d y. split; nra. }
  assert (YR : (0 <= y * (1 - rt) <= 5000)%R) by (clear - YB RT; clearbody y rt; split; nra).
  assert (MQ : (Rabs (fR (vs_V_out v) * fR z) <= Big)%R).
  { apply small_Big. change (2 ^ 60) with 1152921504606846976. fold y. apply Rabs_le. lra. }
  destruct (fmul_Big _ _ Fo Z1 MQ) as [M1 M2]. fold y in M2.
  pose proof (rnd_err (y * fR z)) as RM. rewrite <- M2, u64_val in RM.
  assert (AB2 : (Rabs (y * fR z) <= 10001)%R) by (apply Rabs_le; lra). apply Rabs_le_inv in RM.
  unfold protect. destruct (fle (fz 0) (fmul (vs_V_out v) z)) eqn:G.
  - apply Rabs_le. lra.
  - apply fle_R_false in G; auto. rewrite fz_R in * by lia. apply Rabs_le. lra.
Qed.

(** In registers. *)
Theorem energy p v v' dtype log_mid c : pow_ok p -> pow_accurate p -> check_vsrc v = Ok v' -> from_vsrc p v dtype log_mid = Ok c ->
  (/ 1000 <= fR (vs_C_mid v))%R -> (0 < fR (vs_C_out v))%R ->
  let V := fR (vs_V_en v) in let Vo := fR (vs_V_out v) in let r := (fR (vs_C_out v) / fR (vs_C_mid v))%R in
  ((vs_buck v = true -> V_pre v < V) -> r * (Vo * Vo) + 1 <= V * V ->
     Rabs (IZR (V_enable_output_threshold_uV c - dV_enable_output_uV c) - 1000 * sqrt (V * V - r * (Vo * Vo))) <= 1 + / 50)%R
  /\ (vs_buck v = true -> V <= V_pre v -> fR (vs_C_out v) <= fR (vs_C_mid v) ->
     Rabs (IZR (dV_enable_output_uV c) - 1000 * (Vo * (1 - sqrt (1 - r)))) <= 3 / 4)%R.
Proof.
  intros P PA H E HC HO V Vo r. destruct (check_vsrc_ok v v' H) as (_ & VV & _).
  pose proof (convert_lut _ _ _ _ _ E VV) as U.
  destruct (from_vsrc_ok p v P VV dtype log_mid U) as (c' & E' & R). rewrite E in E'. injection E' as <-.
  destruct R as [_ _ _ (dV & Ven & Vdis & ES & R1 & R2 & R3)].
  destruct (states_ok p v P VV) as (dV' & Ven' & Vdis' & ES' & S1 & S2 & S3 & S4 & S5 & S6).
  assert (X : dV' = dV /\ Ven' = Ven /\ Vdis' = Vdis) by (repeat split; congruence). destruct X as (-> & -> & ->). clear ES'.
  destruct S1 as [Fd Hd], S2 as [Fe He].
  assert (N1 : rounds_to (dV_enable_output_uV c) (fR dV * 1000)).
  { rewrite R1. apply rnd_near. change (2 ^ 33) with 8589934592. lra. }
  assert (N2 : rounds_to (V_enable_output_threshold_uV c) (fR Ven * 1000)).
  { rewrite R2. apply rnd_near. change (2 ^ 33) with 8589934592. lra. }
  unfold rounds_to in N1, N2. assert (bpow radix2 (-18) = / 262144)%R as B18 by reflexivity. rewrite B18 in *.
  unfold calc_internal_states in ES. destruct (dV_raw p v) as [[a b]|] eqn:ED; cbn [bind fst snd] in ES; [|discriminate].
  destruct (V_pre_ok v VV) as ([P1 _] & P3 & P4 & _). destruct (so_V_en v VV) as [Fn Hn].
  apply Rabs_le_inv in N1, N2. split.
  - intros HB HM. pose proof (drop_accurate p v a b PA VV ED HC HO HM) as K.
    assert (EQ : dV = protect a /\ Ven = vs_V_en v).
    { destruct (vs_buck v).
      - assert (G : flt (fadd (vs_V_out v) (vs_V_buck v)) (vs_V_en v) = true).
        { apply flt_R; auto. rewrite P3. now apply HB. }
        rewrite G in ES. split; congruence.
      - split; congruence. }
    destruct EQ as [-> ->]. fold V Vo r in K. fold V in N2. apply Rabs_le_inv in K. rewrite minus_IZR. apply Rabs_le.
    set (q := sqrt (V * V - r * (Vo * Vo))) in *. clearbody q. lra.
  - intros HB HM HL. rewrite HB in ES.
    assert (G : flt (fadd (vs_V_out v) (vs_V_buck v)) (vs_V_en v) = false).
    { apply flt_R_false; auto. rewrite P3. exact HM. }
    rewrite G in ES. assert (EQ : dV = protect b) by congruence. subst dV.
    pose proof (low_accurate p v a b PA VV ED HC ltac:(lra)) as K. fold Vo r in K.
    apply Rabs_le_inv in K. apply Rabs_le. set (q := (Vo * (1 - sqrt (1 - r)))%R) in *. clearbody q. lra.
Qed.

(** *** A pow that meets both hypotheses: correctly rounded square and root *)
Definition ieee_rt (x : f64) : option f64 :=
  match x with
  | B754_infinity true => Some (B754_infinity false)
  | _ => if flt x (fz 0) then None else Some (Bsqrt mode_NE x)
  end.
Definition ieee_pow : pypow := mkPow (fun x => fmul x x) ieee_rt.

Lemma ieee_pow_ok : pow_ok ieee_pow.
Proof.
  intros x r H. cbn [p_rt ieee_pow] in H. unfold ieee_rt in H.
  assert (F0 : fin (fz 0) = true) by (apply fz_fin; lia). assert (R0 : fR (fz 0) = 0%R) by (apply fz_R; lia).
  remember (fz 0) as z eqn:Ez. clear Ez.
  assert (K : forall y : f64, fin y = true -> fR y = rnd (sqrt (fR x)) -> flt y z = false).
  { intros y Fy Ey. apply flt_R_false; auto. rewrite Ey, R0. apply rnd_nonneg, sqrt_pos. }
  destruct (Bsqrt_correct 53 1024 _ _ mode_NE x) as (S1 & S2 & _).
  destruct x as [s|s| |s m e B].
  - destruct (flt (B754_zero s) z); [discriminate|]. injection H as <-. now apply K.
  - destruct s; [injection H as <-|].
    + unfold flt, Bltb, SpecFloat.SFltb, SpecFloat.SFcompare. cbn. destruct z as [[]|[]| |[] ? ? ?]; try reflexivity; discriminate F0.
    + destruct (flt (B754_infinity false) z); [discriminate|]. injection H as <-.
      cbn. destruct z as [[]|[]| |[] ? ? ?]; try reflexivity; discriminate F0.
  - destruct (flt B754_nan z); [discriminate|]. injection H as <-. reflexivity.
  - destruct (flt (B754_finite s m e B) z) eqn:G; [discriminate|]. injection H as <-.
    apply flt_R_false in G; auto. rewrite R0 in G. destruct s.
    + exfalso. change (0 <= IZR (Z.neg m) * bpow radix2 e)%R in G.
      assert (0 < bpow radix2 e)%R by apply bpow_gt_0. assert (IZR (Z.neg m) <= -1)%R by (apply IZR_le; lia). nra.
    + apply K; [exact S2|exact S1].
Qed.

Lemma ieee_pow_accurate : pow_accurate ieee_pow.
Proof.
  intros x F H. assert (F0 : fin (fz 0) = true) by (apply fz_fin; lia). assert (R0 : fR (fz 0) = 0%R) by (apply fz_R; lia).
  assert (U : (u64 <= bpow radix2 (-51))%R) by (apply bpow_le; lia).
  split.
  - cbn [p_sq ieee_pow]. destruct (fmul_Big x x F F) as [A B].
    { assert (W : (0 <= fR x * fR x <= 1000000000 * 1000000000)%R) by (split; [apply Rmult_le_pos|apply Rmult_le_compat]; lra).
      apply small_Big. change (2 ^ 60) with 1152921504606846976. apply Rabs_le. lra. }
    split; [exact A|]. rewrite B. eapply Rle_trans; [apply rnd_err|].
    assert (E : (eta64 <= bpow radix2 (-1000))%R) by (apply bpow_le; lia).
    assert (W : (0 <= fR x * fR x)%R) by (apply Rmult_le_pos; lra). rewrite Rabs_pos_eq by assumption.
    assert (u64 * (fR x * fR x) <= bpow radix2 (-51) * (fR x * fR x))%R by (apply Rmult_le_compat_r; lra). lra.
  - cbn [p_rt ieee_pow]. exists (Bsqrt mode_NE x).
    destruct (Bsqrt_correct 53 1024 _ _ mode_NE x) as (S1 & S2 & _).
    assert (G : flt x (fz 0) = false) by (apply flt_R_false; auto; lra).
    unfold ieee_rt. remember (fz 0) as z eqn:Ez. clear Ez.
    split; [|split].
    + destruct x as [s|s| |s m e B]; try discriminate F; now rewrite G.
    + rewrite S2. destruct x as [s|s| |[] m e B]; try discriminate F; try reflexivity.
      exfalso. destruct H as [H _]. change (0 <= IZR (Z.neg m) * bpow radix2 e)%R in H.
      assert (0 < bpow radix2 e)%R by apply bpow_gt_0. assert (IZR (Z.neg m) <= -1)%R by (apply IZR_le; lia). nra.
    + change (fR (Bsqrt mode_NE x)) with (B2R (Bsqrt mode_NE x)). rewrite S1.
      change (Rabs (rnd (sqrt (fR x)) - sqrt (fR x)) <= sqrt (fR x) * bpow radix2 (-51))%R.
      destruct (Req_dec (fR x) 0) as [Z|Z].
      * rewrite Z, sqrt_0. unfold rnd. rewrite round_0 by typeclasses eauto. rewrite Rminus_diag_eq by reflexivity. rewrite Rabs_R0. lra.
      * assert (L : (bpow radix2 (-1074) <= fR x)%R).
        { assert (G2 : generic_format radix2 (SpecFloat.fexp 53 1024) (fR x)) by apply generic_format_B2R.
          assert (P : (Rabs (fR x) = fR x)%R) by (apply Rabs_pos_eq; lra). rewrite <- P.
          change (-1074) with (3 - 1024 - 53).
          apply (abs_B2R_ge_emin 53 1024 x). destruct x as [s|s| |s m e B]; try discriminate F; try reflexivity. exfalso. apply Z. reflexivity. }
        assert (Q : (bpow radix2 (-537) <= sqrt (fR x))%R).
        { replace (bpow radix2 (-537)) with (sqrt (bpow radix2 (-1074))).
          - apply sqrt_le_1; [apply bpow_ge_0|lra|exact L].
          - change (-1074) with (-537 + -537). rewrite bpow_plus. apply sqrt_square, bpow_ge_0. }
        eapply Rle_trans; [apply rnd_err|]. rewrite Rabs_pos_eq by apply sqrt_pos.
        assert (E : (eta64 <= bpow radix2 (-53) * bpow radix2 (-537))%R).
        { rewrite <- bpow_plus. apply bpow_le. lia. }
        assert (V : (bpow radix2 (-51) = 4 * bpow radix2 (-53))%R).
        { change (-51) with (2 + -53). rewrite bpow_plus. reflexivity. }
        rewrite V. unfold u64. pose proof (bpow_gt_0 radix2 (-53)).
        set (b := bpow radix2 (-53)) in *. set (s := sqrt (fR x)) in *. set (q := bpow radix2 (-537)) in *.
        assert (b * q <= b * s)%R by (apply Rmult_le_compat_l; lra).
        assert (0 <= b * s)%R by (apply Rmult_le_pos; [lra|apply sqrt_pos]).
        replace (s * (4 * b))%R with (4 * (b * s))%R by ring. lra.
Qed.

(** Two sources with the same mode number have the same features. *)
Theorem mode_inj p1 v1 v1' d1 l1 c1 p2 v2 v2' d2 l2 c2 :
  check_vsrc v1 = Ok v1' -> from_vsrc p1 v1 d1 l1 = Ok c1 -> check_vsrc v2 = Ok v2' -> from_vsrc p2 v2 d2 l2 = Ok c2 ->
  converter_mode c1 = converter_mode c2 ->
  ((0 < fR (vs_C_mid v1))%R <-> (0 < fR (vs_C_mid v2))%R)
  /\ ((0 < fR (vs_C_mid v1))%R -> vs_boost v1 = vs_boost v2)
  /\ vs_buck v1 = vs_buck v2 /\ l1 = l2
  /\ ((0 < fR (vs_C_mid v1))%R -> vs_boost v1 = false ->
        (vs_feedback v1 = true /\ d1 = D_ivcurve <-> vs_feedback v2 = true /\ d2 = D_ivcurve)).
Proof.
  intros H1 E1 H2 E2 M.
  destruct (mode_bits _ _ _ _ _ _ H1 E1) as (A1 & A2 & A3 & A4 & A5 & _).
  destruct (mode_bits _ _ _ _ _ _ H2 E2) as (B1 & B2 & B3 & B4 & B5 & _).
  unfold enable_storage, enable_boost, enable_buck, enable_log_mid, feedback_to_hrv, mode_bit in *. rewrite M in *.
  split; [tauto|]. split.
  - intros S. apply Bool.eq_true_iff_eq. tauto.
  - split; [congruence|]. split; [congruence|]. intros S F.
    assert (G : vs_boost v2 = false) by (destruct (vs_boost v2); [exfalso|reflexivity]; assert (vs_boost v1 = true) by tauto; congruence).
    tauto.
Qed.

(** Ordered thresholds stay ordered. *)
Theorem ordered p v v' dtype log_mid c : pow_ok p -> check_vsrc v = Ok v' -> from_vsrc p v dtype log_mid = Ok c ->
  (fR (vs_V_dis v) <= fR (vs_V_en v))%R -> V_disable_output_threshold_uV c <= V_enable_output_threshold_uV c.
Proof.
  intros P H E L. destruct (check_vsrc_ok v v' H) as (_ & V & _).
  pose proof (convert_lut _ _ _ _ _ E V) as U.
  destruct (from_vsrc_ok p v P V dtype log_mid U) as (c' & E' & R). rewrite E in E'. injection E' as <-.
  destruct R as [_ _ _ (dV & Ven & Vdis & ES & R1 & R2 & R3)].
  destruct (states_ok p v P V) as (dV' & Ven' & Vdis' & ES' & S1 & S2 & S3 & S4 & S5 & S6).
  assert (X : dV' = dV /\ Ven' = Ven /\ Vdis' = Vdis) by (repeat split; congruence). destruct X as (-> & -> & ->). clear ES ES'.
  destruct (V_pre_ok v V) as (_ & P3 & _). rewrite R2, R3. apply near_le, rnd_le. apply Rmult_le_compat_r; [lra|].
  destruct (vs_buck v).
  - destruct (S5 eq_refl) as [K1 [[K2 K3]|(K2 & K3 & K4)]]; rewrite K1; apply Rmax_lub.
    + lra.
    + lra.
    + rewrite K4. destruct S1 as [_ S1]. rewrite <- P3. apply rnd_ge_self. rewrite P3. lra.
    + apply Rle_trans with (V_pre v); [lra|]. rewrite K4. destruct S1 as [_ S1]. rewrite <- P3. apply rnd_ge_self. rewrite P3. lra.
  - destruct (S6 eq_refl) as [K1 K2]. rewrite K1, K2. exact L.
Qed.

(** Conversions that succeed. *)
Theorem converts v v' dt w s emu : check_vhrv v = Ok v' -> sensible v dt w s emu ->
  exists c, from_vhrv v dt w s emu = Ok (c, vh_wait v).
Proof.
  intros H S. destruct (from_vhrv_ok v dt w s emu) as (c & E & _); [apply check_vhrv_ok; eauto|exact S|eauto].
Qed.
