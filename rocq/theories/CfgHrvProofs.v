(** Proofs about harvester configurations. *)
From Coq Require Import ZArith Bool Reals Lia Lra Psatz List String.
From Flocq Require Import Core IEEE754.BinarySingleNaN.
From Verif Require Import PyBase F64 F64x HarvModel CalModel CalSpec ConvModel ConvSpec CfgModel CfgSpec.
Import ListNotations.
Open Scope Z_scope.

Lemma in_range_R a b x : Z.abs a <= 2 ^ 53 -> Z.abs b <= 2 ^ 53 -> in_range (fz a) (fz b) x = true ->
  fin x = true /\ (IZR a <= fR x <= IZR b)%R.
Proof.
  intros Ha Hb H. unfold in_range in H. apply andb_prop in H as [H H3]. apply andb_prop in H as [H1 H2].
  split; [exact H1|].
  apply fle_R in H2; [|apply fz_fin; exact Ha|exact H1]. apply fle_R in H3; [|exact H1|apply fz_fin; exact Hb].
  rewrite fz_R in H2, H3 by assumption. lra.
Qed.

Lemma in_range_fl a b x : fin a = true -> fin b = true -> in_range a b x = true ->
  fin x = true /\ (fR a <= fR x <= fR b)%R.
Proof.
  intros Ha Hb H. unfold in_range in H. apply andb_prop in H as [H H3]. apply andb_prop in H as [H1 H2].
  split; [exact H1|]. apply fle_R in H2; [|exact Ha|exact H1]. apply fle_R in H3; [|exact H1|exact Hb]. lra.
Qed.

Lemma in_range_intro a b x : fin a = true -> fin b = true -> fin x = true -> (fR a <= fR x <= fR b)%R ->
  in_range a b x = true.
Proof.
  intros Ha Hb Hx [H1 H2]. unfold in_range. apply andb_true_intro; split; [apply andb_true_intro; split|].
  - exact Hx.
  - apply fle_R; assumption.
  - apply fle_R; assumption.
Qed.

Lemma in_rangeZ_ok a b x : in_rangeZ a b x = true <-> a <= x <= b.
Proof. unfold in_rangeZ. rewrite andb_true_iff, !Z.leb_le. tauto. Qed.

Lemma is_u32_ok z : is_u32 z = true <-> u32 z.
Proof. unfold is_u32, u32. rewrite andb_true_iff, Z.leb_le, Z.ltb_lt. tauto. Qed.
Lemma is_u8_ok z : is_u8 z = true <-> u8 z.
Proof. unfold is_u8, u8. rewrite andb_true_iff, Z.leb_le, Z.ltb_lt. tauto. Qed.

(** Small bounds. *)
Lemma small_Big r : (Rabs r <= IZR (2 ^ 60))%R -> (Rabs r <= Big)%R.
Proof.
  intros H. eapply Rle_trans; [exact H|]. apply IZR_Big. apply Z.pow_le_mono_r; lia.
Qed.

Lemma near_le_q r z : (r <= IZR z + / 4)%R -> ZnearestE r <= z.
Proof.
  intros H. pose proof (near_half r) as N. apply Rabs_le_inv in N.
  assert (L : (IZR (ZnearestE r) < IZR (z + 1))%R) by (rewrite plus_IZR; lra).
  apply lt_IZR in L. lia.
Qed.

(** Rounding a product with an integer constant. *)
Lemma scaled x k a : fin x = true -> 0 <= k -> 0 <= a -> k <= 2 ^ 53 -> a * k <= 2 ^ 53 ->
  (0 <= fR x <= IZR a)%R ->
  exists n, fround (fmul x (fz k)) = Ok n /\ n = ZnearestE (rnd (fR x * IZR k)) /\ 0 <= n <= a * k.
Proof.
  intros F Hk Ha K2 AK [X0 X1]. assert (Fk : fin (fz k) = true) by (apply fz_fin; lia).
  assert (P : (0 <= fR x * IZR k <= IZR (a * k))%R).
  { rewrite mult_IZR. apply IZR_le in Hk. split; [apply Rmult_le_pos; lra|apply Rmult_le_compat_r; lra]. }
  assert (Q : (Rabs (fR x * fR (fz k)) <= Big)%R).
  { rewrite fz_R by lia. apply small_Big. rewrite Rabs_pos_eq by lra. eapply Rle_trans; [apply P|]. apply IZR_le. lia. }
  destruct (fmul_Big x (fz k) F Fk Q) as [M1 M2]. rewrite fz_R in M2 by lia.
  exists (ZnearestE (rnd (fR x * IZR k))). split; [|split; [reflexivity|]].
  - rewrite fround_ok by exact M1. now rewrite M2.
  - split.
    + apply near_ge_Z. apply rnd_ge_Z; [lia|apply P].
    + apply near_le_Z. apply rnd_le_Z; [nia|apply P].
Qed.

Lemma rnd_near r : (0 <= r <= IZR (2 ^ 33))%R -> rounds_to (ZnearestE (rnd r)) r.
Proof.
  intros H. unfold rounds_to. pose proof (near_half (rnd r)) as N. pose proof (rnd_err r) as E.
  rewrite Rabs_pos_eq with (x := r) in E by lra.
  assert (U : (u64 * r + eta64 <= bpow radix2 (-18))%R).
  { rewrite u64_val. assert (eta64 <= bpow radix2 (-20))%R by (apply bpow_le; lia).
    assert (bpow radix2 (-20) = / 1048576)%R as B1 by reflexivity.
    assert (bpow radix2 (-18) = / 262144)%R as B2 by reflexivity.
    change (2 ^ 33) with 8589934592 in H. lra. }
  apply Rabs_le_inv in N. apply Rabs_le_inv in E. apply Rabs_le. lra.
Qed.

(** The constants. *)
Lemma dec3 : fin (fdec 1 3) = true /\ (/ 1000 <= fR (fdec 1 3) <= / 1000 * (1 + / 4503599627370496))%R.
Proof.
  destruct (cst (fdec 1 3) 4611686018427388 (-62)) as [A B]; [vm_compute; reflexivity|].
  split; [exact A|]. rewrite B. assert (bpow radix2 (-62) = / 4611686018427387904)%R as -> by reflexivity. lra.
Qed.
Lemma dec2 : fin (fdec 1 2) = true /\ (/ 100 <= fR (fdec 1 2) <= / 100 * (1 + / 4503599627370496))%R.
Proof.
  destruct (cst (fdec 1 2) 5764607523034235 (-59)) as [A B]; [vm_compute; reflexivity|].
  split; [exact A|]. rewrite B. assert (bpow radix2 (-59) = / 576460752303423488)%R as -> by reflexivity. lra.
Qed.

(** Milliseconds to samples. *)
Definition ms_R (r : R) : R := rnd (rnd (r * 100000) * fR (fdec 1 3)).
Lemma ms_mono a b : (a <= b)%R -> (ms_R a <= ms_R b)%R.
Proof.
  intros H. unfold ms_R. destruct dec3 as [_ D]. apply rnd_le. apply Rmult_le_compat_r; [lra|].
  apply rnd_le. lra.
Qed.

Lemma ms_upper z r : 0 <= z <= 1000000 -> (r <= IZR z)%R -> ZnearestE (ms_R r) <= z * 100.
Proof.
  intros Hz Hr. apply near_le_q. eapply Rle_trans; [apply ms_mono, Hr|]. unfold ms_R.
  assert (E : rnd (IZR z * 100000) = IZR (z * 100000)).
  { rewrite mult_IZR. rewrite <- mult_IZR. apply rnd_IZR. lia. }
  rewrite E. destruct dec3 as [_ D].
  assert (F : (IZR (z * 100) + / 4 = IZR (z * 400 + 1) * bpow radix2 (-2))%R).
  { rewrite plus_IZR, !mult_IZR. change (bpow radix2 (-2)) with (/ 4)%R. lra. }
  rewrite F. apply rnd_le_fmt; [apply fmt_scaled; lia|]. rewrite <- F.
  destruct Hz as [Z0 Z1]. apply IZR_le in Z0, Z1. rewrite !mult_IZR. set (d := fR (fdec 1 3)) in *. clearbody d.
  nra.
Qed.

Lemma ms_lower z r : 0 <= z <= 1000000 -> (IZR z <= r)%R -> z * 100 <= ZnearestE (ms_R r).
Proof.
  intros Hz Hr. apply near_ge_Z. eapply Rle_trans; [|apply ms_mono, Hr]. unfold ms_R.
  assert (E : rnd (IZR z * 100000) = IZR (z * 100000)).
  { rewrite mult_IZR. rewrite <- mult_IZR. apply rnd_IZR. lia. }
  rewrite E. destruct dec3 as [_ D]. apply rnd_ge_Z; [lia|].
  destruct Hz as [Z0 Z1]. apply IZR_le in Z0, Z1. rewrite !mult_IZR. set (d := fR (fdec 1 3)) in *. clearbody d. nra.
Qed.

Lemma ms_one r : (/ 100 <= r)%R -> 1 <= ZnearestE (ms_R r).
Proof.
  intros H. apply near_ge_Z. unfold ms_R. destruct dec3 as [_ D].
  assert (1000 <= rnd (r * 100000))%R by (apply (rnd_ge_Z 1000); [lia|lra]).
  apply rnd_ge_Z; [lia|]. set (d := fR (fdec 1 3)) in *. clearbody d. nra.
Qed.

Lemma ms_ok x : fin x = true -> (0 <= fR x <= 1000000)%R -> ms_to_n x = Ok (ZnearestE (ms_R (fR x))).
Proof.
  intros F H. unfold ms_to_n. destruct dec3 as [D1 D2].
  assert (Fk : fin (fz samplerate) = true) by (apply fz_fin; unfold samplerate; lia).
  assert (Q : (Rabs (fR x * fR (fz samplerate)) <= Big)%R).
  { rewrite fz_R by (unfold samplerate; lia). apply small_Big. change (IZR samplerate) with 100000%R.
    change (2 ^ 60) with 1152921504606846976. rewrite Rabs_pos_eq by lra. lra. }
  destruct (fmul_Big _ _ F Fk Q) as [M1 M2]. rewrite fz_R in M2 by (unfold samplerate; lia).
  change (IZR samplerate) with 100000%R in M2.
  assert (B : (0 <= rnd (fR x * 100000) <= 100000000000)%R).
  { split; [apply rnd_nonneg; lra|]. apply (rnd_le_Z 100000000000); [lia|lra]. }
  assert (Q2 : (Rabs (fR (fmul x (fz samplerate)) * fR (fdec 1 3)) <= Big)%R).
  { rewrite M2. apply small_Big. change (2 ^ 60) with 1152921504606846976.
    rewrite Rabs_pos_eq by (apply Rmult_le_pos; lra). set (d := fR (fdec 1 3)) in *. clearbody d. nra. }
  destruct (fmul_Big _ _ M1 D1 Q2) as [N1 N2]. rewrite fround_ok by exact N1. rewrite N2, M2. reflexivity.
Qed.

Lemma ms_near r : (0 <= r <= 1000000)%R -> rounds_to (ZnearestE (ms_R r)) (r * 100).
Proof.
  intros H. unfold rounds_to. pose proof (near_half (ms_R r)) as N.
  assert (E : (Rabs (ms_R r - r * 100) <= / 1048576)%R).
  { unfold ms_R. destruct dec3 as [_ D]. set (d := fR (fdec 1 3)) in *. clearbody d.
    pose proof (rnd_err (r * 100000)) as E1. set (a := rnd (r * 100000)) in *.
    pose proof (rnd_err (a * d)) as E2. set (b := rnd (a * d)) in *. clearbody a b.
    rewrite Rabs_pos_eq with (x := (r * 100000)%R) in E1 by lra.
    assert (eta64 <= bpow radix2 (-40))%R as ET by (apply bpow_le; lia).
    assert (bpow radix2 (-40) = / 1099511627776)%R as B1 by reflexivity. rewrite B1 in ET. clear B1.
    rewrite u64_val in E1, E2. apply Rabs_le_inv in E1.
    assert (A : (- / 1000000 <= a <= 100000000001)%R) by lra.
    assert (Rabs (a * d) <= 100000001)%R by (apply Rabs_le; nra).
    apply Rabs_le_inv in E2. apply Rabs_le. nra. }
  assert (bpow radix2 (-18) = / 262144)%R as B2 by reflexivity. rewrite B2.
  apply Rabs_le_inv in N, E. apply Rabs_le. lra.
Qed.

(** A validated configuration. *)
Record hrv_ok (v : vhrv) : Prop := mkHrvOk {
  ho_samples : 8 <= vh_samples v <= 2000;
  ho_voltage : fin (vh_voltage v) = true /\ (0 <= fR (vh_voltage v) <= 5000)%R;
  ho_vmin : fin (vh_vmin v) = true /\ (0 <= fR (vh_vmin v) <= 5000)%R;
  ho_vmax : fin (vh_vmax v) = true /\ (0 <= fR (vh_vmax v) <= 5000)%R;
  ho_ilimit : fin (vh_ilimit v) = true /\ (1 <= fR (vh_ilimit v) <= 50000)%R;
  ho_step : fin (vh_step v) = true /\ (1 <= fR (vh_step v) <= 1000000)%R;
  ho_setpoint : fin (vh_setpoint v) = true /\ (0 <= fR (vh_setpoint v) <= 1)%R;
  ho_interval : fin (vh_interval v) = true /\ (fR (fdec 1 2) <= fR (vh_interval v) <= 1000000)%R;
  ho_duration : fin (vh_duration v) = true /\ (fR (fdec 1 2) <= fR (vh_duration v) <= 1000000)%R;
  ho_wait : 0 <= vh_wait v <= 100;
  ho_order : (fR (vh_vmin v) <= fR (vh_voltage v) <= fR (vh_vmax v))%R;
}.

Lemma fields_vhrv_ok v : fields_vhrv v = true <->
  (8 <= vh_samples v <= 2000
  /\ (fin (vh_voltage v) = true /\ (0 <= fR (vh_voltage v) <= 5000)%R)
  /\ (fin (vh_vmin v) = true /\ (0 <= fR (vh_vmin v) <= 5000)%R)
  /\ (fin (vh_vmax v) = true /\ (0 <= fR (vh_vmax v) <= 5000)%R)
  /\ (fin (vh_ilimit v) = true /\ (1 <= fR (vh_ilimit v) <= 50000)%R)
  /\ (fin (vh_step v) = true /\ (1 <= fR (vh_step v) <= 1000000)%R)
  /\ (fin (vh_setpoint v) = true /\ (0 <= fR (vh_setpoint v) <= 1)%R)
  /\ (fin (vh_interval v) = true /\ (fR (fdec 1 2) <= fR (vh_interval v) <= 1000000)%R)
  /\ (fin (vh_duration v) = true /\ (fR (fdec 1 2) <= fR (vh_duration v) <= 1000000)%R)
  /\ 0 <= vh_wait v <= 100).
Proof.
  assert (R0 : forall a b x, Z.abs a <= 2 ^ 53 -> Z.abs b <= 2 ^ 53 ->
    (in_range (fz a) (fz b) x = true <-> (fin x = true /\ (IZR a <= fR x <= IZR b)%R))).
  { intros a b x Ha Hb. split; [now apply in_range_R|]. intros [F H].
    apply in_range_intro; [apply fz_fin; assumption|apply fz_fin; assumption|exact F|].
    rewrite !fz_R by assumption. exact H. }
  assert (R1 : forall b x, Z.abs b <= 2 ^ 53 ->
    (in_range (fdec 1 2) (fz b) x = true <-> (fin x = true /\ (fR (fdec 1 2) <= fR x <= IZR b)%R))).
  { intros b x Hb. split.
    - intros H. apply in_range_fl in H; [|apply dec2|apply fz_fin; exact Hb]. now rewrite fz_R in H by exact Hb.
    - intros [F H]. apply in_range_intro; [apply dec2|apply fz_fin; exact Hb|exact F|].
      rewrite fz_R by exact Hb. exact H. }
  unfold fields_vhrv. rewrite !andb_true_iff, !in_rangeZ_ok, !R0, !R1 by lia. tauto.
Qed.

Lemma check_vhrv_ok v : (exists v', check_vhrv v = Ok v') <-> hrv_ok v.
Proof.
  unfold check_vhrv. split.
  - intros [v' H]. destruct (fields_vhrv v) eqn:E; [|discriminate].
    apply fields_vhrv_ok in E. destruct E as (E1 & E2 & E3 & E4 & E5 & E6 & E7 & E8 & E9 & E10).
    unfold post_vhrv in H.
    destruct (flt (vh_vmax v) (vh_vmin v)) eqn:G1; [discriminate|].
    destruct (flt (vh_voltage v) (vh_vmin v)) eqn:G2; [discriminate|].
    destruct (flt (vh_vmax v) (vh_voltage v)) eqn:G3; [discriminate|].
    apply flt_R_false in G2; [|apply E2|apply E3]. apply flt_R_false in G3; [|apply E4|apply E2].
    constructor; auto.
  - intros [E1 E2 E3 E4 E5 E6 E7 E8 E9 E10 E11]. exists v.
    assert (F : fields_vhrv v = true) by (apply fields_vhrv_ok; tauto). rewrite F. unfold post_vhrv.
    assert (G1 : flt (vh_vmax v) (vh_vmin v) = false) by (apply flt_R_false; [apply E4|apply E3|lra]).
    assert (G2 : flt (vh_voltage v) (vh_vmin v) = false) by (apply flt_R_false; [apply E2|apply E3|lra]).
    assert (G3 : flt (vh_vmax v) (vh_voltage v) = false) by (apply flt_R_false; [apply E4|apply E2|lra]).
    rewrite G1, G2, G3. reflexivity.
Qed.
Lemma check_vhrv_id v v' : check_vhrv v = Ok v' -> v' = v.
Proof.
  unfold check_vhrv, post_vhrv. destruct (fields_vhrv v); [|discriminate].
  destruct (flt (vh_vmax v) (vh_vmin v)); cbn [negb]; [discriminate|].
  destruct (flt (vh_voltage v) (vh_vmin v)); cbn [negb]; [discriminate|].
  destruct (flt (vh_vmax v) (vh_voltage v)); cbn [negb]; [discriminate|]. congruence.
Qed.
Lemma check_vhrv_err v e : check_vhrv v = Err e -> e = ValueError.
Proof.
  unfold check_vhrv, post_vhrv. destruct (fields_vhrv v); [|congruence].
  destruct (flt (vh_vmax v) (vh_vmin v)); cbn [negb]; [congruence|].
  destruct (flt (vh_voltage v) (vh_vmin v)); cbn [negb]; [congruence|].
  destruct (flt (vh_vmax v) (vh_voltage v)); cbn [negb]; congruence.
Qed.

(** Minimal time in ms: one settling, or one window when curves are emulated. *)
Definition t_min (v : vhrv) (emu : bool) : R :=
  let t0 := rnd (IZR ((1 + vh_wait v) * 1000) / 100000) in
  if emu then Rmax t0 (rnd (IZR (vh_samples v * (1 + vh_wait v) * 1000) / 100000)) else t0.
Definition interval_R (v : vhrv) (emu : bool) : R := Rmin (Rmax (fR (vh_interval v)) (t_min v emu)) 1000000.
Definition duration_R (v : vhrv) (emu : bool) : R := Rmin (Rmax (fR (vh_duration v)) (t_min v emu)) (interval_R v emu).

Lemma div_sr n : 0 <= n <= 2 ^ 53 ->
  exists t, fdiv (fz n) (fz samplerate) = Ok t /\ fin t = true /\ fR t = rnd (IZR n / 100000).
Proof.
  intros H. assert (Fk : fin (fz samplerate) = true) by (apply fz_fin; unfold samplerate; lia).
  assert (Fn : fin (fz n) = true) by (apply fz_fin; lia).
  assert (Nz : fR (fz samplerate) <> 0%R) by (rewrite fz_R by (unfold samplerate; lia); unfold samplerate; lra).
  destruct (fdiv_Big (fz n) (fz samplerate) Fn Fk Nz) as (t & A & B & C).
  - rewrite !fz_R by (unfold samplerate; lia). change (IZR samplerate) with 100000%R.
    apply small_Big. destruct H as [H0 H1]. apply IZR_le in H0, H1.
    rewrite Rabs_pos_eq by (unfold Rdiv; nra). change (2 ^ 60) with 1152921504606846976.
    change (2 ^ 53) with 9007199254740992 in H1. unfold Rdiv. lra.
  - exists t. repeat split; auto. rewrite C. rewrite !fz_R by (unfold samplerate; lia). reflexivity.
Qed.

Lemma t_min_range v emu : 8 <= vh_samples v <= 2000 -> 0 <= vh_wait v <= 100 -> (0 <= t_min v emu <= 2020)%R.
Proof.
  intros Hs Hw. unfold t_min.
  assert (A : (0 <= rnd (IZR ((1 + vh_wait v) * 1000) / 100000) <= 2020)%R).
  { assert (0 <= IZR ((1 + vh_wait v) * 1000) <= 101000)%R by (split; apply IZR_le; lia).
    split; [apply rnd_nonneg; lra|]. apply (rnd_le_Z 2020); [lia|lra]. }
  assert (B : (0 <= rnd (IZR (vh_samples v * (1 + vh_wait v) * 1000) / 100000) <= 2020)%R).
  { assert (0 <= IZR (vh_samples v * (1 + vh_wait v) * 1000) <= 202000000)%R by (split; apply IZR_le; nia).
    split; [apply rnd_nonneg; lra|]. apply (rnd_le_Z 2020); [lia|lra]. }
  destruct emu; [|exact A]. split; [eapply Rle_trans; [apply A|apply Rmax_l]|]. apply Rmax_lub; [apply A|apply B].
Qed.

Lemma timings_ok v emu : hrv_ok v ->
  exists i d, calc_timings_ms v emu = Ok (i, d) /\ fin i = true /\ fin d = true
    /\ fR i = interval_R v emu /\ fR d = duration_R v emu.
Proof.
  intros V. destruct V as [Hs _ _ _ _ _ _ [Fi Hi] [Fd Hd] Hw _].
  pose proof (t_min_range v emu Hs Hw) as T. destruct dec2 as [_ D2].
  unfold calc_timings_ms.
  destruct (div_sr ((1 + vh_wait v) * 1000)) as (t0 & A1 & A2 & A3); [lia|].
  destruct (div_sr (vh_samples v * (1 + vh_wait v) * 1000)) as (w & B1 & B2 & B3); [nia|].
  rewrite A1, B1. cbn [bind]. set (tm := if emu then fmax t0 w else t0).
  assert (Ft : fin tm = true) by (unfold tm; destruct emu; [now apply fmax_fin|exact A2]).
  assert (Rt : fR tm = t_min v emu).
  { unfold tm, t_min. destruct emu; [rewrite fmax_R by assumption; now rewrite A3, B3|exact A3]. }
  assert (Fm : fin (fz 1000000) = true) by (apply fz_fin; lia).
  set (i := fmin (fmax (vh_interval v) tm) (fz 1000000)).
  assert (Fi' : fin i = true) by (unfold i; apply fmin_fin; [now apply fmax_fin|exact Fm]).
  assert (Ri : fR i = interval_R v emu).
  { unfold i, interval_R. rewrite fmin_R by (auto using fmax_fin). rewrite fmax_R by auto.
    rewrite fz_R by lia. now rewrite Rt. }
  set (d := fmin (fmax (vh_duration v) tm) i).
  assert (Fd' : fin d = true) by (unfold d; apply fmin_fin; [now apply fmax_fin|exact Fi']).
  assert (Rd : fR d = duration_R v emu).
  { unfold d, duration_R. rewrite fmin_R by (auto using fmax_fin). rewrite fmax_R by auto. now rewrite Rt, Ri. }
  assert (Bi : (/ 100 <= fR i <= 1000000)%R).
  { rewrite Ri. unfold interval_R. split; [|apply Rmin_r]. apply Rmin_glb; [|lra].
    eapply Rle_trans; [|apply Rmax_l]. lra. }
  assert (Bd : (/ 100 <= fR d <= 1000000)%R).
  { rewrite Rd. unfold duration_R. rewrite Ri in Bi. split.
    - apply Rmin_glb; [|lra]. eapply Rle_trans; [|apply Rmax_l]. lra.
    - eapply Rle_trans; [apply Rmin_r|lra]. }
  clearbody i d tm.
  destruct (fdiv_Big d i Fd' Fi') as (q1 & Q1 & Q2 & Q3); [lra| |].
  { apply small_Big. change (2 ^ 60) with 1152921504606846976.
    assert (0 < / fR i <= 100)%R. { split; [apply Rinv_0_lt_compat; lra|].
      rewrite <- (Rinv_inv 100). apply Rinv_le; lra. }
    unfold Rdiv. rewrite Rabs_pos_eq by nra. nra. }
  rewrite Q1. cbn [bind].
  assert (Pq : (/ 100 * / 1000000 <= fR (vh_duration v) / fR (vh_interval v) <= 100000000)%R).
  { assert (/ 1000000 <= / fR (vh_interval v) <= 100)%R. { split; [apply Rinv_le; lra|].
      rewrite <- (Rinv_inv 100). apply Rinv_le; lra. }
    unfold Rdiv. nra. }
  destruct (fdiv_Big (vh_duration v) (vh_interval v) Fd Fi) as (q2 & Q4 & Q5 & Q6); [lra| |].
  { apply small_Big. change (2 ^ 60) with 1152921504606846976. rewrite Rabs_pos_eq by lra. lra. }
  rewrite Q4. cbn [bind].
  assert (P2 : (0 < fR q2)%R).
  { rewrite Q6. apply Rlt_le_trans with (bpow radix2 (-40)); [apply bpow_gt_0|].
    apply rnd_ge; [|].
    - replace (bpow radix2 (-40)) with (IZR 1 * bpow radix2 (-40))%R by ring. apply fmt_scaled; lia.
    - assert (bpow radix2 (-40) = / 1099511627776)%R as -> by reflexivity. lra. }
  rewrite (fdiv_nz q1 q2 Q5) by lra. cbn [bind].
  exists i, d. auto.
Qed.

Lemma timing_order v emu : hrv_ok v ->
  (/ 100 <= duration_R v emu <= interval_R v emu)%R /\ (interval_R v emu <= 1000000)%R.
Proof.
  intros V. destruct V as [Hs _ _ _ _ _ _ [Fi Hi] [Fd Hd] Hw _]. destruct dec2 as [_ D2].
  assert (I1 : (/ 100 <= interval_R v emu)%R).
  { unfold interval_R. apply Rmin_glb; [|lra]. eapply Rle_trans; [|apply Rmax_l]. lra. }
  split; [split|].
  - unfold duration_R. apply Rmin_glb; [|exact I1]. eapply Rle_trans; [|apply Rmax_l]. lra.
  - apply Rmin_r.
  - apply Rmin_r.
Qed.

Lemma setpoint_ok x : fin x = true -> (0 <= fR x <= 1)%R ->
  exists n, fround (fmin (fz 255) (fmul x (fz (2 ^ 8)))) = Ok n /\ n = ZnearestE (Rmin 255 (fR x * 256)) /\ 0 <= n <= 255.
Proof.
  intros F H. assert (Fk : fin (fz (2 ^ 8)) = true) by (apply fz_fin; lia).
  assert (Q : (Rabs (fR x * fR (fz (2 ^ 8))) <= Big)%R).
  { rewrite fz_R by lia. apply small_Big. change (IZR (2 ^ 8)) with 256%R. change (2 ^ 60) with 1152921504606846976.
    rewrite Rabs_pos_eq by lra. lra. }
  destruct (fmul_Big _ _ F Fk Q) as [M1 M2]. rewrite fz_R in M2 by lia.
  assert (F2 : fin (fz 255) = true) by (apply fz_fin; lia).
  assert (E : rnd (fR x * IZR (2 ^ 8)) = (fR x * 256)%R).
  { change (IZR (2 ^ 8)) with 256%R. apply rnd_id. replace 256%R with (bpow radix2 8) by reflexivity.
    apply generic_format_FLT. pose proof (fmt_fR x) as G. apply FLT_format_generic in G; [|reflexivity].
    destruct G as [[m e] G1 G2 G3]. exists (Float radix2 m (e + 8)); cbn [Fnum Fexp] in *.
    - rewrite G1. unfold F2R. cbn [Fnum Fexp]. rewrite bpow_plus. ring.
    - exact G2.
    - lia. }
  rewrite fround_ok by (now apply fmin_fin). rewrite fmin_R by auto. rewrite M2, E, fz_R by lia.
  eexists. split; [reflexivity|]. split; [reflexivity|]. split.
  - apply near_ge_Z. apply Rmin_glb; lra.
  - apply near_le_Z. apply Rmin_l.
Qed.

(** All registers of a sensible conversion. *)
Definition step_R (v : vhrv) (s : option f64) : R :=
  match s with Some x => rnd (1000 * fR x) | None => fR (vh_step v) end.

Lemma from_vhrv_ok v dt w s emu : hrv_ok v -> sensible v dt w s emu ->
  exists c, from_vhrv v dt w s emu = Ok (c, vh_wait v)
    /\ h_algorithm c = algo_to_num (vh_algorithm v)
    /\ h_mode c = calc_hrv_mode v emu
    /\ h_window c = match w with Some n => n | None => calc_window_size v dt emu end
    /\ h_voltage c = ZnearestE (rnd (fR (vh_voltage v) * 1000))
    /\ h_vmin c = ZnearestE (rnd (fR (vh_vmin v) * 1000))
    /\ h_vmax c = ZnearestE (rnd (fR (vh_vmax v) * 1000))
    /\ h_vstep c = ZnearestE (rnd (step_R v s * 1000))
    /\ h_ilimit c = ZnearestE (rnd (fR (vh_ilimit v) * 1000))
    /\ h_setpoint_n8 c = ZnearestE (Rmin 255 (fR (vh_setpoint v) * 256))
    /\ h_interval c = ZnearestE (ms_R (interval_R v emu))
    /\ h_duration c = ZnearestE (ms_R (duration_R v emu)).
Proof.
  intros V [S1 [S2 [S3 S4]]]. pose proof (timings_ok v emu V) as (ti & td & T1 & T2 & T3 & T4 & T5).
  pose proof (timing_order v emu V) as [O1 O2].
  destruct (scaled (vh_voltage v) 1000 5000) as (n1 & A1 & A2 & A3); [apply (ho_voltage v V)|lia|lia|lia|lia|apply (ho_voltage v V)|].
  destruct (scaled (vh_vmin v) 1000 5000) as (n2 & B1 & B2 & B3); [apply (ho_vmin v V)|lia|lia|lia|lia|apply (ho_vmin v V)|].
  destruct (scaled (vh_vmax v) 1000 5000) as (n3 & C1 & C2 & C3); [apply (ho_vmax v V)|lia|lia|lia|lia|apply (ho_vmax v V)|].
  destruct (scaled (vh_ilimit v) 1000 50000) as (n4 & D1 & D2 & D3); [apply (ho_ilimit v V)|lia|lia|lia|lia|pose proof (ho_ilimit v V); lra|].
  destruct (setpoint_ok (vh_setpoint v)) as (n5 & E1 & E2 & E3); [apply (ho_setpoint v V)|apply (ho_setpoint v V)|].
  assert (F : exists n6, fround (fmul match s with Some x => fmul (fz 1000) x | None => vh_step v end (fz (10 ^ 3))) = Ok n6
    /\ n6 = ZnearestE (rnd (step_R v s * 1000)) /\ 0 <= n6 < 2 ^ 32).
  { destruct s as [x|].
    - destruct (S4 x eq_refl) as [Fx Hx]. assert (Fk : fin (fz 1000) = true) by (apply fz_fin; lia).
      assert (Q : (Rabs (fR (fz 1000) * fR x) <= Big)%R).
      { rewrite fz_R by lia. apply small_Big. change (2 ^ 60) with 1152921504606846976. rewrite Rabs_pos_eq by lra. lra. }
      destruct (fmul_Big _ _ Fk Fx Q) as [M1 M2]. rewrite fz_R in M2 by lia.
      assert (B : (0 <= rnd (1000 * fR x) <= 4294000)%R).
      { split; [apply rnd_nonneg; lra|apply (rnd_le_Z 4294000); [lia|lra]]. }
      destruct (scaled (fmul (fz 1000) x) 1000 4294000) as (n6 & G1 & G2 & G3); [exact M1|lia|lia|lia|lia|rewrite M2; exact B|].
      exists n6. rewrite M2 in G2. split; [exact G1|split; [exact G2|lia]].
    - destruct (scaled (vh_step v) 1000 1000000) as (n6 & G1 & G2 & G3); [apply (ho_step v V)|lia|lia|lia|lia|pose proof (ho_step v V); lra|].
      exists n6. split; [exact G1|split; [exact G2|lia]]. }
  destruct F as (n6 & F1 & F2 & F3).
  assert (GI : ms_to_n ti = Ok (ZnearestE (ms_R (interval_R v emu)))).
  { rewrite <- T4. apply ms_ok; [exact T2|rewrite T4; lra]. }
  assert (GD : ms_to_n td = Ok (ZnearestE (ms_R (duration_R v emu)))).
  { rewrite <- T5. apply ms_ok; [exact T3|rewrite T5; lra]. }
  assert (UI : 0 <= ZnearestE (ms_R (interval_R v emu)) <= 100000000).
  { split; [pose proof (ms_lower 0 (interval_R v emu)); lia || (apply (ms_lower 0); [lia|lra])|apply (ms_upper 1000000); [lia|lra]]. }
  assert (UD : 0 <= ZnearestE (ms_R (duration_R v emu)) <= 100000000).
  { split; [apply (ms_lower 0); [lia|lra]|apply (ms_upper 1000000); [lia|lra]]. }
  change (10 ^ 3) with 1000 in *.
  unfold from_vhrv. change (10 ^ 3) with 1000.
  assert (G0 : emu && negb (match dt with Some D_ivsample | Some D_ivcurve => true | _ => false end) = false).
  { destruct emu; [|reflexivity]. destruct (S1 eq_refl) as [_ [->|[-> _]]]; reflexivity. }
  assert (G1 : emu && match dt with Some D_ivcurve => true | _ => false end && match s with None => true | _ => false end = false).
  { destruct emu; [|reflexivity]. destruct (S1 eq_refl) as [_ [->|[-> [_ W]]]]; [reflexivity|]. destruct s; [reflexivity|congruence]. }
  assert (G2 : emu && match dt with Some D_ivcurve => true | _ => false end && match w with None => true | _ => false end = false).
  { destruct emu; [|reflexivity]. destruct (S1 eq_refl) as [_ [->|[-> [W _]]]]; [reflexivity|]. destruct w; [reflexivity|congruence]. }
  rewrite G0. cbn [negb]. cbv zeta. rewrite G1. cbn [negb]. rewrite G2. cbn [negb]. rewrite T1. cbn [bind fst snd].
  assert (GA : calc_algorithm_num v emu = Ok (algo_to_num (vh_algorithm v))).
  { unfold calc_algorithm_num. destruct emu.
    - destruct (S1 eq_refl) as [[N1 N2] _]. destruct (vh_algorithm v); try congruence; reflexivity.
    - specialize (S2 eq_refl). destruct (vh_algorithm v); try congruence; reflexivity. }
  rewrite GA. cbn [bind]. rewrite A1. cbn [bind]. rewrite B1. cbn [bind]. rewrite C1. cbn [bind].
  rewrite F1. cbn [bind]. rewrite D1. cbn [bind]. rewrite E1. cbn [bind].
  rewrite GI. cbn [bind]. rewrite GD. cbn [bind].
  match goal with |- exists c, (if ?g then Ok ?r else _) = _ /\ _ => assert (GV : g = true) end.
  { unfold valid_pru. cbn [h_algorithm h_mode h_window h_voltage h_vmin h_vmax h_vstep h_ilimit h_setpoint_n8 h_interval h_duration].
    rewrite !andb_true_iff, !is_u32_ok. unfold u32. pose proof (ho_samples v V). pose proof (ho_wait v V).
    repeat split; try lia.
    - destruct (vh_algorithm v); cbn; lia.
    - destruct (vh_algorithm v); cbn; lia.
    - unfold calc_hrv_mode. destruct emu, (vh_rising v), (vh_extrapolate v); cbn; lia.
    - unfold calc_hrv_mode. destruct emu, (vh_rising v), (vh_extrapolate v); cbn; lia.
    - destruct w as [n|]; [destruct (S3 n eq_refl); lia|]. unfold calc_window_size. destruct emu; cbn [negb]; [|lia].
      destruct (get _ _); nia.
    - destruct w as [n|]; [destruct (S3 n eq_refl); lia|]. unfold calc_window_size. destruct emu; cbn [negb]; [|lia].
      destruct (get _ _); nia. }
  rewrite GV. eexists. split; [reflexivity|]. cbn. repeat split; auto.
Qed.

(** What a successful conversion says. *)
Lemma from_vhrv_inv v dt w s emu c wt : from_vhrv v dt w s emu = Ok (c, wt) ->
  wt = vh_wait v
  /\ (emu = true -> dt = Some D_ivsample \/ (dt = Some D_ivcurve /\ w <> None /\ s <> None))
  /\ calc_algorithm_num v emu = Ok (h_algorithm c)
  /\ h_mode c = calc_hrv_mode v emu
  /\ h_window c = match w with Some n => n | None => calc_window_size v dt emu end
  /\ fround (fmul (vh_voltage v) (fz 1000)) = Ok (h_voltage c)
  /\ fround (fmul (vh_vmin v) (fz 1000)) = Ok (h_vmin c)
  /\ fround (fmul (vh_vmax v) (fz 1000)) = Ok (h_vmax c)
  /\ fround (fmul (vh_ilimit v) (fz 1000)) = Ok (h_ilimit c)
  /\ fround (fmin (fz 255) (fmul (vh_setpoint v) (fz (2 ^ 8)))) = Ok (h_setpoint_n8 c)
  /\ (exists t, calc_timings_ms v emu = Ok t /\ ms_to_n (fst t) = Ok (h_interval c) /\ ms_to_n (snd t) = Ok (h_duration c))
  /\ valid_pru (c, wt) = true.
Proof.
  unfold from_vhrv. change (10 ^ 3) with 1000. intros H.
  match type of H with (if negb ?g then _ else _) = _ => destruct g eqn:G0; cbn [negb] in H; [discriminate|] end.
  cbv zeta in H.
  match type of H with (if negb ?g then _ else _) = _ => destruct g eqn:G1; cbn [negb] in H; [discriminate|] end.
  match type of H with (if negb ?g then _ else _) = _ => destruct g eqn:G2; cbn [negb] in H; [discriminate|] end.
  destruct (calc_timings_ms v emu) as [t|] eqn:E1; cbn [bind] in H; [|discriminate].
  destruct (calc_algorithm_num v emu) as [num|] eqn:E2; cbn [bind] in H; [|discriminate].
  destruct (fround (fmul (vh_voltage v) (fz 1000))) as [n1|] eqn:E3; cbn [bind] in H; [|discriminate].
  destruct (fround (fmul (vh_vmin v) (fz 1000))) as [n2|] eqn:E4; cbn [bind] in H; [|discriminate].
  destruct (fround (fmul (vh_vmax v) (fz 1000))) as [n3|] eqn:E5; cbn [bind] in H; [|discriminate].
  match type of H with bind ?r _ = _ => destruct r as [n4|] eqn:E6; cbn [bind] in H; [|discriminate] end.
  destruct (fround (fmul (vh_ilimit v) (fz 1000))) as [n5|] eqn:E7; cbn [bind] in H; [|discriminate].
  match type of H with bind ?r _ = _ => destruct r as [n6|] eqn:E8; cbn [bind] in H; [|discriminate] end.
  destruct (ms_to_n (fst t)) as [n7|] eqn:E9; cbn [bind] in H; [|discriminate].
  destruct (ms_to_n (snd t)) as [n8|] eqn:E10; cbn [bind] in H; [|discriminate].
  match type of H with (if ?g then Ok ?r else _) = _ => destruct g eqn:GV; [|discriminate] end.
  injection H as <- <-. cbn [h_algorithm h_mode h_window h_voltage h_vmin h_vmax h_vstep h_ilimit h_setpoint_n8 h_interval h_duration].
  split; [reflexivity|]. split.
  { intros ->. cbn [andb] in G0, G1, G2. destruct dt as [[]|]; cbn in G0, G1, G2; try discriminate; [now left|].
    right. split; [reflexivity|]. split; [destruct w|destruct s]; congruence. }
  repeat (split; [first [reflexivity | assumption]|]). split; [|exact GV].
  exists t. auto.
Qed.

Lemma pru_u32 c wt : valid_pru (c, wt) = true ->
  u32 (h_algorithm c) /\ u32 (h_mode c) /\ u32 (h_window c) /\ u32 (h_voltage c) /\ u32 (h_vmin c) /\ u32 (h_vmax c)
  /\ u32 (h_vstep c) /\ u32 (h_ilimit c) /\ u32 (h_setpoint_n8 c) /\ u32 (h_interval c) /\ u32 (h_duration c) /\ u32 wt.
Proof. unfold valid_pru. rewrite !andb_true_iff, !is_u32_ok. tauto. Qed.

(** C09: registers of a validated configuration. *)
Theorem registers_hrv v v' dt w s emu c wt : check_vhrv v = Ok v' -> from_vhrv v dt w s emu = Ok (c, wt) ->
  (u32 (h_algorithm c) /\ u32 (h_mode c) /\ u32 (h_window c) /\ u32 (h_voltage c) /\ u32 (h_vmin c) /\ u32 (h_vmax c)
   /\ u32 (h_vstep c) /\ u32 (h_ilimit c) /\ u32 (h_setpoint_n8 c) /\ u32 (h_interval c) /\ u32 (h_duration c) /\ u32 wt)
  /\ 0 <= h_vmin c <= h_voltage c /\ h_voltage c <= h_vmax c <= 5000000
  /\ 1 <= h_duration c <= h_interval c /\ h_interval c <= 10 ^ 8
  /\ 0 <= h_setpoint_n8 c <= 255 /\ 1000 <= h_ilimit c <= 50000000 /\ 0 <= wt <= 100.
Proof.
  intros Hc H. assert (V : hrv_ok v) by (apply check_vhrv_ok; eauto).
  destruct (from_vhrv_inv _ _ _ _ _ _ _ H) as (W & _ & _ & _ & _ & E1 & E2 & E3 & E4 & E5 & (t & T1 & T2 & T3) & GV).
  split; [now apply pru_u32|].
  destruct (scaled (vh_voltage v) 1000 5000) as (n1 & A1 & A2 & A3); [apply (ho_voltage v V)|lia|lia|lia|lia|apply (ho_voltage v V)|].
  destruct (scaled (vh_vmin v) 1000 5000) as (n2 & B1 & B2 & B3); [apply (ho_vmin v V)|lia|lia|lia|lia|apply (ho_vmin v V)|].
  destruct (scaled (vh_vmax v) 1000 5000) as (n3 & C1 & C2 & C3); [apply (ho_vmax v V)|lia|lia|lia|lia|apply (ho_vmax v V)|].
  destruct (scaled (vh_ilimit v) 1000 50000) as (n4 & D1 & D2 & D3); [apply (ho_ilimit v V)|lia|lia|lia|lia|pose proof (ho_ilimit v V); lra|].
  destruct (setpoint_ok (vh_setpoint v)) as (n5 & F1 & F2 & F3); [apply (ho_setpoint v V)|apply (ho_setpoint v V)|].
  rewrite A1 in E1. rewrite B1 in E2. rewrite C1 in E3. rewrite D1 in E4. rewrite F1 in E5.
  injection E1 as <-. injection E2 as <-. injection E3 as <-. injection E4 as <-. injection E5 as <-.
  pose proof (ho_order v V) as O.
  assert (n2 <= n1) by (rewrite A2, B2; apply near_le, rnd_le; lra).
  assert (n1 <= n3) by (rewrite A2, C2; apply near_le, rnd_le; lra).
  assert (1000 <= n4). { rewrite D2. apply near_ge_Z, rnd_ge_Z; [lia|]. pose proof (ho_ilimit v V). lra. }
  destruct (timings_ok v emu V) as (ti & td & U1 & U2 & U3 & U4 & U5). rewrite U1 in T1. injection T1 as <-.
  cbn [fst snd] in T2, T3. pose proof (timing_order v emu V) as [O1 O2].
  rewrite ms_ok in T2 by (auto; rewrite U4; lra). rewrite ms_ok in T3 by (auto; rewrite U5; lra).
  rewrite U4 in T2. rewrite U5 in T3. injection T2 as <-. injection T3 as <-.
  pose proof (ms_one (duration_R v emu) ltac:(lra)) as M1.
  pose proof (near_le _ _ (ms_mono (duration_R v emu) (interval_R v emu) ltac:(lra))) as M2.
  pose proof (ms_upper 1000000 (interval_R v emu) ltac:(lia) O2) as M3.
  pose proof (ho_wait v V). rewrite W. lia.
Qed.

(** Values of the registers. *)
Theorem accuracy_hrv v v' dt w s emu c wt : check_vhrv v = Ok v' -> from_vhrv v dt w s emu = Ok (c, wt) ->
  rounds_to (h_voltage c) (fR (vh_voltage v) * 1000) /\ rounds_to (h_vmin c) (fR (vh_vmin v) * 1000)
  /\ rounds_to (h_vmax c) (fR (vh_vmax v) * 1000) /\ rounds_to (h_ilimit c) (fR (vh_ilimit v) * 1000)
  /\ rounds_to (h_setpoint_n8 c) (Rmin 255 (fR (vh_setpoint v) * 256)) /\ wt = vh_wait v
  /\ (s = None -> rounds_to (h_vstep c) (fR (vh_step v) * 1000)).
Proof.
  intros Hc H. assert (V : hrv_ok v) by (apply check_vhrv_ok; eauto).
  destruct (from_vhrv_inv _ _ _ _ _ _ _ H) as (W & _ & _ & _ & _ & E1 & E2 & E3 & E4 & E5 & (t & T1 & T2 & T3) & GV).
  assert (K : forall x n, fin x = true -> (0 <= fR x <= 1000000)%R -> fround (fmul x (fz 1000)) = Ok n -> rounds_to n (fR x * 1000)).
  { intros x n F B E. destruct (scaled x 1000 1000000) as (m & A1 & A2 & A3); [exact F|lia|lia|lia|lia|exact B|].
    rewrite A1 in E. injection E as <-. rewrite A2. apply rnd_near. change (2 ^ 33) with 8589934592. lra. }
  split; [apply K; [apply (ho_voltage v V)|pose proof (ho_voltage v V); lra|exact E1]|].
  split; [apply K; [apply (ho_vmin v V)|pose proof (ho_vmin v V); lra|exact E2]|].
  split; [apply K; [apply (ho_vmax v V)|pose proof (ho_vmax v V); lra|exact E3]|].
  split; [apply K; [apply (ho_ilimit v V)|pose proof (ho_ilimit v V); lra|exact E4]|].
  split.
  { destruct (setpoint_ok (vh_setpoint v)) as (n5 & F1 & F2 & F3); [apply (ho_setpoint v V)|apply (ho_setpoint v V)|].
    rewrite F1 in E5. injection E5 as <-. rewrite F2. unfold rounds_to.
    pose proof (near_half (Rmin 255 (fR (vh_setpoint v) * 256))). pose proof (bpow_gt_0 radix2 (-18)). lra. }
  split; [exact W|]. intros ->.
  destruct (scaled (vh_step v) 1000 1000000) as (n6 & G1 & G2 & G3); [apply (ho_step v V)|lia|lia|lia|lia|pose proof (ho_step v V); lra|].
  assert (E : h_vstep c = n6).
  { unfold from_vhrv in H. change (10 ^ 3) with 1000 in H.
    match type of H with (if ?g then _ else _) = _ => destruct g; [|discriminate] end. cbv zeta in H.
    match type of H with (if ?g then _ else _) = _ => destruct g; [|discriminate] end.
    match type of H with (if ?g then _ else _) = _ => destruct g; [|discriminate] end.
    do 5 (match type of H with bind ?r _ = _ => destruct r; cbn [bind] in H; [|discriminate] end).
    rewrite G1 in H. cbn [bind] in H.
    do 4 (match type of H with bind ?r _ = _ => destruct r; cbn [bind] in H; [|discriminate] end).
    match type of H with (if ?g then _ else _) = _ => destruct g; [|discriminate] end.
    injection H as <- _. reflexivity. }
  rewrite E, G2. apply rnd_near. pose proof (ho_step v V). change (2 ^ 33) with 8589934592. lra.
Qed.

(** The intervals are limited by the duration of one settling, or of one window. *)
Theorem timing_hrv v v' dt w s emu c wt : check_vhrv v = Ok v' -> from_vhrv v dt w s emu = Ok (c, wt) ->
  let window := if emu then vh_samples v * (1 + vh_wait v) else 1 + vh_wait v in
  h_interval c >= window /\ h_duration c >= window
  /\ ((IZR window / 100 <= fR (vh_interval v))%R -> rounds_to (h_interval c) (fR (vh_interval v) * 100)
      /\ ((IZR window / 100 <= fR (vh_duration v) <= fR (vh_interval v))%R -> rounds_to (h_duration c) (fR (vh_duration v) * 100))).
Proof.
  intros Hc H. assert (V : hrv_ok v) by (apply check_vhrv_ok; eauto).
  destruct (from_vhrv_inv _ _ _ _ _ _ _ H) as (W & _ & _ & _ & _ & E1 & E2 & E3 & E4 & E5 & (t & T1 & T2 & T3) & GV).
  destruct (timings_ok v emu V) as (ti & td & U1 & U2 & U3 & U4 & U5). rewrite U1 in T1. injection T1 as <-.
  cbn [fst snd] in T2, T3. pose proof (timing_order v emu V) as [O1 O2].
  rewrite ms_ok in T2 by (auto; rewrite U4; lra). rewrite ms_ok in T3 by (auto; rewrite U5; lra).
  rewrite U4 in T2. rewrite U5 in T3. injection T2 as <-. injection T3 as <-.
  pose proof (ho_samples v V) as HS. pose proof (ho_wait v V) as HW. intros window.
  (* the minimal time is the rounded duration of [window] samples *)
  assert (TM : t_min v emu = rnd (IZR window / 100)).
  { unfold t_min, window. destruct emu.
    - rewrite Rmax_right.
      + f_equal. rewrite (mult_IZR (vh_samples v * (1 + vh_wait v)) 1000). lra.
      + apply rnd_le. apply Rmult_le_compat_r; [lra|]. apply IZR_le. nia.
    - f_equal. rewrite mult_IZR. lra. }
  assert (HWn : 1 <= window <= 202000) by (unfold window; destruct emu; nia).
  assert (MW : window <= ZnearestE (ms_R (rnd (IZR window / 100)))).
  { assert (X : rounds_to (ZnearestE (ms_R (rnd (IZR window / 100)))) (rnd (IZR window / 100) * 100)).
    { apply ms_near. destruct HWn as [H1 H2]. apply IZR_le in H1, H2. split; [apply rnd_nonneg; lra|].
      apply (rnd_le_Z 1000000); [lia|lra]. }
    pose proof (rnd_err (IZR window / 100)) as R1. destruct HWn as [H1 H2]. apply IZR_le in H1, H2.
    rewrite Rabs_pos_eq with (x := (IZR window / 100)%R) in R1 by lra. rewrite u64_val in R1.
    assert (eta64 <= bpow radix2 (-40))%R as ET by (apply bpow_le; lia).
    assert (bpow radix2 (-40) = / 1099511627776)%R as B1 by reflexivity. rewrite B1 in ET.
    unfold rounds_to in X. assert (bpow radix2 (-18) = / 262144)%R as B2 by reflexivity. rewrite B2 in X.
    apply Rabs_le_inv in X, R1. set (n := ZnearestE _) in *. clearbody n.
    assert (L : (IZR (window - 1) < IZR n)%R) by (rewrite minus_IZR; lra).
    apply lt_IZR in L. lia. }
  assert (B1 : (rnd (IZR window / 100) <= interval_R v emu)%R).
  { unfold interval_R. rewrite TM. apply Rmin_glb; [apply Rmax_r|]. apply (rnd_le_Z 1000000); [lia|].
    destruct HWn as [H1 H2]. apply IZR_le in H1, H2. lra. }
  assert (B2 : (rnd (IZR window / 100) <= duration_R v emu)%R).
  { unfold duration_R. rewrite TM. apply Rmin_glb; [apply Rmax_r|exact B1]. }
  split; [|split].
  - pose proof (near_le _ _ (ms_mono _ _ B1)). lia.
  - pose proof (near_le _ _ (ms_mono _ _ B2)). lia.
  - intros L. destruct (ho_interval v V) as [Fi [_ Hi]]. destruct (ho_duration v V) as [Fd [_ Hd]].
    assert (L' : (rnd (IZR window / 100) <= fR (vh_interval v))%R) by (now apply rnd_le_self).
    assert (EI : interval_R v emu = fR (vh_interval v)).
    { unfold interval_R. rewrite TM, Rmax_left, Rmin_left by lra. reflexivity. }
    split.
    + rewrite EI. apply ms_near. destruct HWn as [H1 H2]. apply IZR_le in H1. lra.
    + intros [L2 L3]. assert (L2' : (rnd (IZR window / 100) <= fR (vh_duration v))%R) by (now apply rnd_le_self).
      assert (ED : duration_R v emu = fR (vh_duration v)).
      { unfold duration_R. rewrite TM, EI, Rmax_left, Rmin_left by lra. reflexivity. }
      rewrite ED. apply ms_near. destruct HWn as [H1 H2]. apply IZR_le in H1. lra.
Qed.

(** C08: dispatch. *)
Theorem dispatch v dt w s emu c wt : from_vhrv v dt w s emu = Ok (c, wt) ->
  (emu = true -> 1 < h_window c -> forall st x, run_named (vh_algorithm v) c st x = Some (ivcurve_sample c st x))
  /\ (emu = true -> emulable (vh_algorithm v)) /\ (emu = false -> vh_algorithm v <> A_neutral)
  /\ (h_window c <= 1 -> forall st x, ivcurve_sample c st x = (st, x))
  /\ is_rising (h_init c) = vh_rising v /\ lin_extrapolation (h_init c) = vh_extrapolate v
  /\ Z.testbit (h_mode c) 0 = emu.
Proof.
  intros H. destruct (from_vhrv_inv _ _ _ _ _ _ _ H) as (W & S1 & E1 & E2 & E3 & _).
  assert (EA : h_algorithm c = algo_to_num (vh_algorithm v)
    /\ (emu = true -> emulable (vh_algorithm v)) /\ (emu = false -> vh_algorithm v <> A_neutral)).
  { unfold calc_algorithm_num in E1. set (n := h_algorithm c) in *. clearbody n.
    destruct emu; cbn [andb negb] in E1; unfold emulable;
    destruct (vh_algorithm v); vm_compute in E1; try discriminate; injection E1 as E1; rewrite <- E1;
    (split; [reflexivity|split; intros; try discriminate; try (split; discriminate)]). }
  destruct EA as (EA & E5 & E6).
  split; [|split; [exact E5|split; [exact E6|]]].
  - intros Em L st x. unfold ivcurve_sample. destruct (h_window c <=? 1) eqn:G; [apply Z.leb_le in G; lia|].
    rewrite EA. destruct (E5 Em) as [N1 N2]. destruct (vh_algorithm v); try congruence; reflexivity.
  - split.
    + intros L st x. unfold ivcurve_sample. destruct (h_window c <=? 1) eqn:G; [reflexivity|apply Z.leb_gt in G; lia].
    + unfold h_init. cbn [is_rising lin_extrapolation]. rewrite E2. unfold calc_hrv_mode.
      destruct emu, (vh_rising v), (vh_extrapolate v); repeat split; reflexivity.
Qed.

(** The register has the bit of the algorithm and no other. *)
Theorem algo_bits v dt w s emu c wt : from_vhrv v dt w s emu = Ok (c, wt) ->
  forall k, 0 <= k -> Z.testbit (h_algorithm c) k = (k =? flag_bit (vh_algorithm v)).
Proof.
  intros H k Hk. destruct (from_vhrv_inv _ _ _ _ _ _ _ H) as (_ & _ & E1 & _).
  assert (EA : h_algorithm c = 2 ^ flag_bit (vh_algorithm v)).
  { unfold calc_algorithm_num in E1. set (n := h_algorithm c) in *. clearbody n.
    destruct emu; cbn [andb negb] in E1; destruct (vh_algorithm v); vm_compute in E1; try discriminate E1; injection E1 as E1; rewrite <- E1; reflexivity. }
  rewrite EA, Z.pow2_bits_eqb by (destruct (vh_algorithm v); cbn; lia). apply Z.eqb_sym.
Qed.

(** Window of an emulation that is fed with operating points. *)
Theorem passthrough v s c wt : from_vhrv v (Some D_ivsample) None s true = Ok (c, wt) ->
  forall st x, ivcurve_sample c st x = (st, x).
Proof.
  intros H. destruct (from_vhrv_inv _ _ _ _ _ _ _ H) as (_ & _ & _ & _ & E3 & _).
  destruct (dispatch _ _ _ _ _ _ _ H) as (_ & _ & _ & P & _). apply P. rewrite E3. cbn. lia.
Qed.

(** Different algorithms get different numbers. *)
Lemma algo_num_inj a b : algo_to_num a = algo_to_num b -> a = b.
Proof. destruct a, b; intros H; vm_compute in H; congruence. Qed.

(** Rejections. *)
Theorem rejected v dt w s emu : hrv_ok v ->
  (emu = true -> dt <> Some D_ivsample -> dt <> Some D_ivcurve -> from_vhrv v dt w s emu = Err NotImplementedError)
  /\ (emu = true -> dt = Some D_ivcurve -> w = None \/ s = None -> from_vhrv v dt w s emu = Err ValueError)
  /\ (emu = true -> dt = Some D_ivsample \/ (dt = Some D_ivcurve /\ w <> None /\ s <> None) ->
      ~ emulable (vh_algorithm v) -> from_vhrv v dt w s emu = Err ValueError)
  /\ (emu = false -> vh_algorithm v = A_neutral -> from_vhrv v dt w s emu = Err ValueError).
Proof.
  intros V. destruct (timings_ok v emu V) as (ti & td & U1 & _).
  split; [|split; [|split]].
  - intros -> D1 D2. unfold from_vhrv. destruct dt as [[]|]; try congruence; reflexivity.
  - intros -> -> D. unfold from_vhrv. cbn [andb negb]. destruct w, s; try reflexivity. destruct D; discriminate.
  - intros -> D N. unfold from_vhrv. rewrite U1.
    assert (E : calc_algorithm_num v true = Err ValueError).
    { unfold calc_algorithm_num, emulable in *. destruct (vh_algorithm v); try reflexivity; exfalso; apply N; split; discriminate. }
    rewrite E. destruct D as [->|(-> & D1 & D2)]; [reflexivity|]. destruct w, s; try congruence. reflexivity.
  - intros -> N. unfold from_vhrv. rewrite U1. unfold calc_algorithm_num. rewrite N. reflexivity.
Qed.

(** ** Validation *)
Lemma default_hrv_ok : exists cal, default_hrv = Ok cal
  /\ (fin (fmul (fz (10 ^ 6)) (raw_to_si (adc_C_Hrv cal) (fz 4) true)) = true
      /\ (fR (fmul (fz (10 ^ 6)) (raw_to_si (adc_C_Hrv cal) (fz 4) true)) < 1)%R)
  /\ (fin (fmul (fz (10 ^ 3)) (raw_to_si (dac_V_Hrv cal) (fz 4) true)) = true
      /\ (fR (fmul (fz (10 ^ 3)) (raw_to_si (dac_V_Hrv cal) (fz 4) true)) < 1)%R).
Proof.
  assert (A : match default_hrv with
    | Ok c => B2SF (fmul (fz (10 ^ 6)) (raw_to_si (adc_C_Hrv c) (fz 4) true)) = SpecFloat.S754_finite false 7330077518506667 (-53)
       /\ B2SF (fmul (fz (10 ^ 3)) (raw_to_si (dac_V_Hrv c) (fz 4) true)) = SpecFloat.S754_finite false 5497642026240020 (-54)
    | Err _ => False end) by (vm_compute; split; reflexivity).
  destruct default_hrv as [cal|]; [|destruct A]. exists cal. split; [reflexivity|]. destruct A as [A B].
  apply cst in A. apply cst in B.
  assert (bpow radix2 (-53) = / 9007199254740992)%R as E1 by reflexivity.
  assert (bpow radix2 (-54) = / 18014398509481984)%R as E2 by reflexivity. rewrite E1 in A. rewrite E2 in B.
  destruct A as [A1 A2], B as [B1 B2]. split; (split; [assumption|]); [rewrite A2|rewrite B2]; lra.
Qed.

Lemma rnd_nz k : k <> 0 -> rnd (IZR k) <> 0%R.
Proof.
  intros N. destruct (Z.lt_trichotomy k 0) as [L2|[L2|L2]]; [|lia|].
  - assert (rnd (IZR k) <= -1)%R by (apply (rnd_le_Z (-1)); [lia|apply IZR_le; lia]). lra.
  - assert (1 <= rnd (IZR k))%R by (apply (rnd_ge_Z 1); [lia|apply IZR_le; lia]). lra.
Qed.

(** The float of an integer is zero only for zero. *)
Lemma fz_zero k : feq (fz k) (fz 0) = true -> k = 0.
Proof.
  intros E. destruct (Z.eq_dec k 0) as [|N]; [assumption|exfalso]. apply rnd_nz in N.
  assert (F0 : fin (fz 0) = true) by (apply fz_fin; lia).
  destruct (fin (fz k)) eqn:F.
  - apply feq_R in E; [|exact F|exact F0]. rewrite (fz_R 0) in E by lia.
    assert (X : fR (fz k) = rnd (IZR k)).
    { unfold fz in F |- *. pose proof (binary_normalize_correct 53 1024 eq_refl eq_refl mode_NE k 0 false) as C.
      cbv zeta in C. match type of C with if ?b then _ else _ => destruct b end.
      - destruct C as [C _]. rewrite C. unfold rnd. f_equal. unfold F2R. cbn [Fnum Fexp bpow]. ring.
      - exfalso. apply (f_equal is_finite_SF) in C. rewrite is_finite_SF_B2SF, F in C.
        unfold binary_overflow in C. cbn in C. discriminate. }
    rewrite X in E. lra.
  - unfold feq, Beqb, SpecFloat.SFeqb in E. destruct (fz k) as [|s| |]; try discriminate F.
    + destruct s; vm_compute in E; discriminate.
    + vm_compute in E; discriminate.
Qed.

(** Errors of the validation. *)
Theorem make_errors i e : make_vhrv i = Err e ->
  e = ValueError
  \/ (vi_step i = None /\ vi_samples i = Some 1 /\ e = ZeroDivisionError)
  \/ (vi_step i = None /\ e = OverflowError /\ exists n, vi_samples i = Some n /\ 2 ^ 1023 < Z.abs (n - 1)).
Proof.
  unfold make_vhrv, complete_vhrv. destruct default_hrv_ok as (cal & D & _). rewrite D. clear D.
  destruct (String.eqb _ _); cbn [negb]; [cbn [bind]; intros H; left; congruence|]. cbn [bind].
  unfold default_step. destruct (vi_step i) as [st|] eqn:ES.
  { cbn [bind]. intros H. left. now apply check_vhrv_err in H. }
  unfold py_float. destruct (Z.abs (get (vi_samples i) 8 - 1) <? 2 ^ 1024 - 2 ^ 970) eqn:G.
  - cbn [bind]. apply Z.ltb_lt in G. set (num := fabs _). clearbody num. set (k := get (vi_samples i) 8 - 1) in *.
    unfold fdiv. destruct (feq (fz k) (fz 0)) eqn:E.
    + cbn [bind]. intros H. right. left. split; [reflexivity|]. split; [|congruence].
      pose proof (fz_zero k E) as K0.
      unfold k in K0. destruct (vi_samples i) as [n|]; cbn [get] in K0; [|lia]. f_equal. lia.
    + cbn [bind]. intros H. left. now apply check_vhrv_err in H.
  - cbn [bind]. intros H. apply Z.ltb_ge in G. right. right. split; [reflexivity|]. split; [congruence|].
    assert (P : 2 ^ 1023 < 2 ^ 1024 - 2 ^ 970) by (vm_compute; reflexivity).
    destruct (vi_samples i) as [n|]; cbn [get] in G.
    + exists n. split; [reflexivity|lia].
    + change (Z.abs (8 - 1)) with 7 in G. assert (7 < 2 ^ 1023) by (vm_compute; reflexivity). lia.
Qed.

(** Acceptance. *)
Theorem make_accepts i : good_fields i -> vi_name i <> "neutral"%string ->
  ((exists v, make_vhrv i = Ok v) <-> (vi_step i <> None \/ (1 <= natural_step i)%R)).
Proof.
  intros (G1 & G2 & G3 & G4 & G5 & G6 & G7 & G8 & G9 & G10 & G11) N.
  unfold make_vhrv, complete_vhrv. destruct default_hrv_ok as (cal & D & (DC1 & DC2) & (DV1 & DV2)). rewrite D. clear D.
  destruct (String.eqb_spec (vi_name i) "neutral"); [congruence|]. cbn [negb bind].
  set (lc := fmul (fz (10 ^ 6)) _) in *. set (lv := fmul (fz (10 ^ 3)) _) in *. clearbody lc lv.
  assert (GF : forall o d lo hi, opt_in o lo hi -> Z.abs d <= 2 ^ 53 -> (lo <= IZR d <= hi)%R ->
    fin (get o (fz d)) = true /\ (lo <= fR (get o (fz d)) <= hi)%R /\ fR (get o (fz d)) = value o (IZR d)).
  { intros o d lo hi O Hd Hr. destruct o as [x|]; cbn [get value].
    - destruct (O x eq_refl) as [F1 F2]. auto.
    - rewrite fz_R by exact Hd. split; [apply fz_fin; exact Hd|auto]. }
  destruct (GF (vi_voltage i) 2500 0%R 5000%R G3 ltac:(lia) ltac:(lra)) as (A1 & A2 & A3).
  destruct (GF (vi_vmin i) 0 0%R 5000%R G4 ltac:(lia) ltac:(lra)) as (B1 & B2 & B3).
  destruct (GF (vi_vmax i) 5000 0%R 5000%R G5 ltac:(lia) ltac:(lra)) as (C1 & C2 & C3).
  destruct (GF (vi_ilimit i) 50000 1%R 50000%R G6 ltac:(lia) ltac:(lra)) as (I1 & I2 & I3).
  destruct dec2 as [_ D2].
  destruct (GF (vi_interval i) 100 _ _ G9 ltac:(lia) ltac:(lra)) as (J1 & J2 & _).
  assert (K : fin (get (vi_duration i) (fdec 1 1)) = true /\ (fR (fdec 1 2) <= fR (get (vi_duration i) (fdec 1 1)) <= 1000000)%R).
  { destruct (vi_duration i) as [x|]; cbn [get]; [now apply G10|].
    destruct (cst (fdec 1 1) 7205759403792794 (-56)) as [A B]; [vm_compute; reflexivity|]. split; [exact A|].
    rewrite B. assert (bpow radix2 (-56) = / 72057594037927936)%R as -> by reflexivity. lra. }
  assert (SP : fin (get (vi_setpoint i) (fdec 70 2)) = true /\ (0 <= fR (get (vi_setpoint i) (fdec 70 2)) <= 1)%R).
  { destruct (vi_setpoint i) as [x|]; cbn [get]; [now apply G8|].
    destruct (cst (fdec 70 2) 6305039478318694 (-53)) as [A B]; [vm_compute; reflexivity|]. split; [exact A|].
    rewrite B. assert (bpow radix2 (-53) = / 9007199254740992)%R as -> by reflexivity. lra. }
  assert (S1 : 8 <= get (vi_samples i) 8 <= 2000).
  { destruct (vi_samples i) as [n0|]; cbn [get]; [apply G1; reflexivity|lia]. }
  assert (W1 : 0 <= get (vi_wait i) 1 <= 100).
  { destruct (vi_wait i) as [n0|]; cbn [get]; [apply G2; reflexivity|lia]. }
  assert (IL : fin (fmax lc (get (vi_ilimit i) (fz 50000))) = true /\ (1 <= fR (fmax lc (get (vi_ilimit i) (fz 50000))) <= 50000)%R).
  { split; [now apply fmax_fin|]. rewrite fmax_R by assumption. rewrite Rmax_right by lra. lra. }
  (* the step *)
  assert (ST : exists st, default_step i = Ok st /\ fin st = true
    /\ fR st = match vi_step i with Some x => fR x | None => natural_step i end
    /\ (fR st <= 1000000)%R).
  { unfold default_step. destruct (vi_step i) as [x|] eqn:E.
    - exists x. destruct (G7 x eq_refl) as [X1 X2]. split; [reflexivity|]. split; [exact X1|]. split; [reflexivity|]. lra.
    - unfold py_float. assert (Z.abs (get (vi_samples i) 8 - 1) <? 2 ^ 1024 - 2 ^ 970 = true) as ->.
      { apply Z.ltb_lt. apply Z.lt_trans with 3000; [lia|vm_compute; reflexivity]. }
      cbn [bind]. set (k := get (vi_samples i) 8 - 1).
      assert (HK : 7 <= k <= 1999) by (unfold k; lia).
      assert (Q : (Rabs (fR (get (vi_vmax i) (fz 5000)) - fR (get (vi_vmin i) (fz 0))) <= Big)%R).
      { apply small_Big. change (2 ^ 60) with 1152921504606846976. apply Rabs_le. lra. }
      destruct (fsub_Big _ _ C1 B1 Q) as [M1 M2].
      assert (M0 : (0 <= rnd (fR (get (vi_vmax i) (fz 5000)) - fR (get (vi_vmin i) (fz 0))) <= 5000)%R).
      { split; [apply rnd_nonneg; lra|apply (rnd_le_Z 5000); [lia|lra]]. }
      set (dd := fsub (get (vi_vmax i) (fz 5000)) (get (vi_vmin i) (fz 0))) in *.
      assert (FA : fin (fabs dd) = true) by (now rewrite fabs_fin).
      assert (RA : fR (fabs dd) = fR dd) by (rewrite fabs_R; apply Rabs_pos_eq; rewrite M2; lra).
      assert (FK : fin (fz k) = true) by (apply fz_fin; lia).
      destruct HK as [K1 K2]. apply IZR_le in K1, K2.
      destruct (fdiv_Big (fabs dd) (fz k) FA FK) as (st & Q1 & Q2 & Q3).
      + rewrite fz_R by (unfold k; lia). lra.
      + rewrite fz_R by (unfold k; lia). rewrite RA, M2. apply small_Big. change (2 ^ 60) with 1152921504606846976.
        assert (0 < / IZR k <= / 7)%R by (split; [apply Rinv_0_lt_compat; lra|apply Rinv_le; lra]).
        unfold Rdiv. apply Rabs_le. nra.
      + exists st. split; [exact Q1|]. split; [exact Q2|]. rewrite Q3, RA, M2, fz_R by (unfold k; lia).
        assert (EK : IZR k = IZR (match vi_samples i with Some n => n - 1 | None => 7 end)).
        { unfold k. destruct (vi_samples i); reflexivity. }
        split.
        * unfold natural_step. rewrite C3, B3, EK. reflexivity.
        * apply (rnd_le_Z 1000000); [lia|].
          assert (0 < / IZR k <= / 7)%R by (split; [apply Rinv_0_lt_compat; lra|apply Rinv_le; lra]).
          unfold Rdiv. nra. }
  destruct ST as (st & ST1 & ST2 & ST3 & ST4). rewrite ST1. cbn [bind].
  rewrite check_vhrv_ok. split.
  - intros V. pose proof (ho_step _ V) as [_ HS]. cbn [vh_step] in HS. rewrite fmax_R in HS by assumption.
    destruct (vi_step i) eqn:E; [left; discriminate|right]. rewrite ST3 in HS.
    unfold Rmax in HS. destruct (Rle_dec (fR lv) _) in HS; lra.
  - intros A. assert (HS : (1 <= fR st)%R).
    { rewrite ST3. destruct (vi_step i) as [x|]; [destruct (G7 x eq_refl); lra|]. destruct A as [A|A]; [congruence|exact A]. }
    constructor; cbn [vh_samples vh_voltage vh_vmin vh_vmax vh_ilimit vh_step vh_setpoint vh_interval vh_duration vh_wait]; auto.
    + split; [now apply fmax_fin|]. rewrite fmax_R by assumption. rewrite Rmax_right by lra. lra.
    + rewrite A3, B3, C3. exact G11.
Qed.
