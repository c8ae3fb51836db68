(** Properties of the IVonne converters: C82 - C84. *)
From Coq Require Import ZArith QArith Qround Bool Reals Lia Lra List.
From Flocq Require Import Core IEEE754.BinarySingleNaN.
From Verif Require Import PyBase F64 F64x IvoModel IvoSpec IvoUpProofs IvoProofs IvoGridProofs IvoFileProofs.
Import ListNotations.
Open Scope Z_scope.

Definition cell : coef := mkCoef (fz 3) (fz 1) (fz 1).
Definition dark : coef := mkCoef (fz 0) (fz 1) (fz 1).
Lemma fz_small z : Z.abs z <= 1000 -> fin (fz z) = true /\ fR (fz z) = IZR z.
Proof. intros H. apply fz_ok. lia. Qed.
Lemma cell_solar : solar cell.
Proof.
  unfold solar, cell; cbn [c_a c_b c_c]. destruct (fz_small 3) as [A1 A2]; [lia|]. destruct (fz_small 1) as [B1 B2]; [lia|].
  rewrite A2, B2. repeat split; try assumption; lra.
Qed.
Lemma dark_solar : solar dark.
Proof.
  unfold solar, dark; cbn [c_a c_b c_c]. destruct (fz_small 0) as [A1 A2]; [lia|]. destruct (fz_small 1) as [B1 B2]; [lia|].
  rewrite A2, B2. repeat split; try assumption; lra.
Qed.
Lemma big_enough z : 1 <= z <= 1000 -> (bpow radix2 (-900) <= fR (fz z))%R.
Proof.
  intros H. destruct (fz_small z) as [_ ->]; [lia|]. apply Rle_trans with (bpow radix2 0); [apply bpow_le; lia|].
  change (bpow radix2 0) with 1%R. apply (IZR_le 1 z). lia.
Qed.

(** ** C82: the optimal tracker returns the best point of the modelled curve *)

(** Currents are finite, between 0 and the short-circuit current (which flows at 0 V), and fall with the voltage. *)
Theorem C82_curve m r v : exp_ok m -> solar r -> fin v = true -> (0 <= fR v)%R ->
  fin (iv_model m r v) = true /\ (0 <= fR (iv_model m r v) <= fR (c_a r))%R
  /\ (fR v = 0%R -> fR (iv_model m r v) = fR (c_a r))
  /\ (forall v', fin v' = true -> (fR v <= fR v')%R -> (fR (iv_model m r v') <= fR (iv_model m r v))%R).
Proof.
  intros He Hr Fv Pv. destruct (model_x m r He Hr v Fv Pv) as (A & B & _). split; [exact A|]. split; [exact B|]. split.
  - exact (model_0 m r He Hr v Fv).
  - intros v' Fv' L. exact (model_mono m r He Hr v v' Fv Fv' (conj Pv L)).
Qed.
Print Assumptions C82_curve.

(** The variant for a single voltage is the same function. *)
Theorem C82_scalar m r v : exp_ok m -> solar r -> fin v = true -> (0 <= fR v)%R ->
  feq (iv_model m r v) (iv_model_scalar m r v) = true \/ iv_model m r v = iv_model_scalar m r v.
Proof. intros He Hr Fv Pv. destruct (raw_x m r He Hr v Fv Pv) as [N _]. exact (scalar_same m r v N). Qed.
Print Assumptions C82_scalar.

(** The voltages of a curve: as many as asked for, from 0 to the limit, ascending, evenly spread up to rounding. *)
Theorem C82_grid v num : fin v = true -> (bpow radix2 (-900) <= fR v)%R -> 2 <= num <= 2 ^ 50 ->
  exists l, linspace v num = Ok l /\ Z.of_nat (List.length (l : list f64)) = num /\ voltages v l /\ fR (hd (fz 0) l) = 0%R /\ last l (fz 0) = v
    /\ forall k, 0 <= k < num ->
         (Rabs (fR (nth (Z.to_nat k) l (fz 0)) - IZR k * (fR v / IZR (num - 1))) <= fR v * bpow radix2 (-51))%R.
Proof. exact (lin_ok v num). Qed.
Print Assumptions C82_grid.

(** For every row the tracker returns the point of highest power (at the lowest voltage if there are several). *)
Theorem C82_best m v_max pts rows : exp_ok m -> Forall solar rows -> fin v_max = true -> (bpow radix2 (-900) <= fR v_max)%R ->
  2 <= pts <= 2 ^ 50 ->
  exists grid out, linspace v_max pts = Ok grid /\ optimal_process m v_max pts rows = Ok out /\ Forall2 (best_point m grid) rows out.
Proof.
  intros He Hr Fv Pv Hp. destruct (optimal_all m v_max pts rows He Hr Fv Pv Hp) as (grid & Eg & E & B).
  exists grid, (map (opt_point m grid) rows). split; [exact Eg|]. split; [exact E|]. clear - B. induction B; cbn; constructor; assumption.
Qed.
Print Assumptions C82_best.

(** The hypotheses hold for the correctly rounded exponential. *)
Example C82_ex : exp_ok real_np /\ Forall solar [cell; dark]
  /\ exists grid out, linspace (fz 5) 1000 = Ok grid /\ optimal_process real_np (fz 5) 1000 [cell; dark] = Ok out
     /\ Forall2 (best_point real_np grid) [cell; dark] out.
Proof.
  assert (S : Forall solar [cell; dark]) by exact (Forall_cons _ cell_solar (Forall_cons _ dark_solar (Forall_nil _))).
  split; [exact real_exp_ok|]. split; [exact S|].
  apply (C82_best real_np (fz 5) 1000); [exact real_exp_ok|exact S|apply fz_small; lia|apply big_enough; lia|lia].
Qed.

(** Powers of two instead of the exponential, five voltages: the best point of 3 - (2^v - 1) is at 1 V. *)
Definition np2 : npmath := mkNp (fun x => if feq x (fz 0) then fz 1 else if feq x (fz 1) then fz 2 else if feq x (fz 2) then fz 4 else fz 8) (fun x => fsub x (fz 1)).
Example C82_numbers : match optimal_process np2 (fz 3) 4 [cell] with
  | Ok [(v, i)] => feq v (fz 1) && feq i (fz 2) | _ => false end = true.
Proof. vm_compute. reflexivity. Qed.

(** ** C83: the open-circuit tracker works at a fixed share of the open-circuit voltage *)

(** Where that share is a positive voltage, it returns the point of the curve at the highest voltage of the grid
    below it. *)
Theorem C83_point m v_max t_max pts ratio rows : exp_ok m -> Forall solar rows -> fin t_max = true -> (bpow radix2 (-900) <= fR t_max)%R ->
  2 <= pts <= 2 ^ 50 ->
  let w r := fmul ratio (limited_voc m v_max r) in
  Forall (fun r => isnan (w r) = false /\ (0 < xR (w r))%R) rows ->
  exists grid out, linspace t_max pts = Ok grid /\ track_oc m v_max t_max pts ratio rows = Ok out
    /\ Forall2 (fun r => highest_below m grid (w r) r) rows out.
Proof.
  intros He Hr Fv Pv Hp w Hw. destruct (oc_all m v_max t_max pts ratio rows He Hr Fv Pv Hp) as (grid & Eg & A & _).
  destruct (A Hw) as (out & E & F). exists grid, out. repeat split; assumption.
Qed.
Print Assumptions C83_point.

(** In all other cases it raises, one such row is enough. *)
Theorem C83_fails m v_max t_max pts ratio rows : exp_ok m -> Forall solar rows -> fin t_max = true -> (bpow radix2 (-900) <= fR t_max)%R ->
  2 <= pts <= 2 ^ 50 ->
  let w r := fmul ratio (limited_voc m v_max r) in
  Exists (fun r => isnan (w r) = true \/ (xR (w r) <= 0)%R) rows ->
  track_oc m v_max t_max pts ratio rows = Err ValueError.
Proof. intros He Hr Fv Pv Hp w Hw. destruct (oc_all m v_max t_max pts ratio rows He Hr Fv Pv Hp) as (grid & _ & _ & B). exact (B Hw). Qed.
Print Assumptions C83_fails.

(** So a single dark row (no current at all) ends the conversion of a whole recording. *)
Theorem C83_dark_refuted m ratio rows : exp_ok m -> np_log m (fz 1) = fz 0 -> fin ratio = true ->
  solar dark /\ track_oc m (fz 5) (fz 5) 1000 ratio (dark :: rows) = Err ValueError.
Proof.
  intros He Hl Fr. split; [exact dark_solar|].
  destruct (fz_small 0) as [Z1 Z2]; [lia|]. destruct (fz_small 1) as [O1 O2]; [lia|]. destruct (fz_small 5) as [V1 V2]; [lia|].
  destruct (lin_ok (fz 5) 1000 V1 (big_enough 5 ltac:(lia)) ltac:(lia)) as (grid & Eg & Lg & Vg & H0 & _).
  eapply oc_dark; try eassumption.
  - cbn [dark c_a c_b c_c]. rewrite O2. repeat split; try assumption; lra.
  - rewrite V2. lra.
  - exact dark_solar.
  - intros ->. cbn in Lg. lia.
Qed.
Print Assumptions C83_dark_refuted.

(** Without the column "voc" it always raises (for another column that does not exist). *)
Theorem C83_no_column_refuted : exists m v_max pts ratio rows, rows <> [] /\ Forall solar rows /\ (exists out, optimal_process m v_max pts rows = Ok out)
  /\ oc_process m v_max pts ratio rows None = Err KeyError.
Proof.
  exists np2, (fz 3), 4, (fz 1), [cell]. split; [discriminate|]. split; [exact (Forall_cons _ cell_solar (Forall_nil _))|]. split.
  - pose proof C82_numbers as H. destruct (optimal_process np2 (fz 3) 4 [cell]) as [o|]; [now exists o|discriminate H].
  - assert (K : match linspace (fz 3) 4 with Ok _ => true | Err _ => false end = true) by (vm_compute; reflexivity).
    unfold oc_process. destruct (linspace (fz 3) 4) as [g|]; [reflexivity|discriminate K].
Qed.
Print Assumptions C83_no_column_refuted.

(** The search in that branch: the voltage of the first current below the share of the first one ... *)
Theorem C83_find_oc (vs is : list f64) ratio : is <> [] -> List.length vs = List.length is ->
  let low (i : f64) := flt i (fmul (hd (fz 0) is) ratio) in
  (exists k, (k < List.length is)%nat /\ find_oc vs is ratio = Ok (nth k vs (fz 0)) /\ low (nth k is (fz 0)) = true
     /\ forall j, (j < k)%nat -> low (nth j is (fz 0)) = false)
  \/ (find_oc vs is ratio = Ok (hd (fz 0) vs) /\ forall j, (j < List.length is)%nat -> low (nth j is (fz 0)) = false).
Proof. exact (find_oc_spec vs is ratio). Qed.
Print Assumptions C83_find_oc.

(** ... but 0 V when the current stays high up to the last voltage. *)
Theorem C83_find_oc_refuted : exists (vs is : list f64) v, find_oc vs is (fdec 5 2) = Ok v /\ feq v (fz 0) = true
  /\ feq (last vs (fz 0)) (fz 5) = true /\ feq (last is (fz 0)) (hd (fz 0) is) = true.
Proof.
  exists [fz 0; fz 5], [fz 1; fz 1].
  assert (K : match find_oc [fz 0; fz 5] [fz 1; fz 1] (fdec 5 2) with Ok v => feq v (fz 0) | Err _ => false end = true) by (vm_compute; reflexivity).
  destruct (find_oc [fz 0; fz 5] [fz 1; fz 1] (fdec 5 2)) as [v|]; [|discriminate K]. exists v.
  split; [reflexivity|]. split; [exact K|]. split; vm_compute; reflexivity.
Qed.
Print Assumptions C83_find_oc_refuted.

(** Open circuit at 3 V (the logarithm replaced by a line), share one half: the point below 1.5 V. *)
Example C83_ex : match track_oc np2 (fz 5) (fz 3) 4 (fdec 5 1) [cell; cell] with
  | Ok [(v, i); _] => feq v (fz 1) && feq i (fz 2) | _ => false end = true.
Proof. vm_compute. reflexivity. Qed.

(** ** C84: converted recordings are steady in time *)

(** Rows in intervals of [u] output samples: the output has no gaps, starts with the first row, and every row is at its time
    with the converted value; the last row (or the end of the requested duration) is left out.
    This needs that the last pass over the recording does not consist of one or two intervals. *)
Theorem C84_curves m spline rate v_max pts s u t0 xs c :
  1 <= rate <= 100000 -> (1 <= u)%nat -> covers rate (List.length xs) s c ->
  fin v_max = true -> (bpow radix2 (-900) <= fR v_max)%R -> 2 <= pts <= 2 ^ 50 ->
  let d := 10000 * pts in
  let rest := Z.of_nat c mod (4000000 / (10 ^ 9 / rate / 10000)) in
  u = 1%nat \/ (rest <> 1 /\ rest <> 2) ->
  exists grid out, linspace v_max pts = Ok grid
    /\ convert_2_ivcurves m spline rate v_max pts s (stamp t0 (Z.of_nat u * d) xs) = Ok out
    /\ steady t0 d u (c * u) (map (fun r => map (fun v => (v, iv_model m r v)) grid) xs) out.
Proof.
  intros Hr Hu Hc Fv Pv Hp d rest H. destruct (lin_ok v_max pts Fv Pv Hp) as (grid & Eg & _). exists grid.
  destruct (curves m spline rate v_max pts s u t0 xs c grid _ Hr ltac:(lia) Hu Eg Hc (slice_rows_val rate Hr)) as [A _].
  destruct (A H) as (out & E & S). exists out. split; [exact Eg|]. split; [exact E|exact S].
Qed.
Print Assumptions C84_curves.

Theorem C84_samples m spline rate v_max pts s u t0 xs c : exp_ok m -> Forall solar xs ->
  fin v_max = true -> (bpow radix2 (-900) <= fR v_max)%R -> 2 <= pts <= 2 ^ 50 ->
  1 <= rate <= 100000 -> (1 <= u)%nat -> covers rate (List.length xs) s c ->
  let rest := Z.of_nat c mod (4000000 / (10 ^ 9 / rate / 10000)) in
  u = 1%nat \/ (rest <> 1 /\ rest <> 2) ->
  exists grid out points, linspace v_max pts = Ok grid
    /\ convert_2_ivsamples (track_optimal m v_max pts) spline rate s (stamp t0 (Z.of_nat u * 10000) xs) = Ok out
    /\ Forall2 (best_point m grid) xs points /\ steady t0 10000 u (c * u) points out.
Proof.
  intros He Hx Fv Pv Hp Hr Hu Hc rest H.
  destruct (samples m spline rate v_max pts s u t0 xs c _ He Hx Fv Pv Hp Hr Hu Hc (slice_rows_val rate Hr)) as (grid & Eg & A & _).
  destruct (A H) as (out & points & E & B & S). exists grid, out, points. split; [exact Eg|]. split; [exact E|]. split; [exact B|exact S].
Qed.
Print Assumptions C84_samples.

Theorem C84_isc_voc m spline rate v_max s u t0 xs c :
  1 <= rate <= 100000 -> (1 <= u)%nat -> covers rate (List.length xs) s c ->
  let rest := Z.of_nat c mod (4000000 / (10 ^ 9 / rate / 10000)) in
  let voc r := idiv (np_log m (fadd (idiv (c_a r) (c_b r)) (fz 1))) (c_c r) in
  u = 1%nat \/ (rest <> 1 /\ rest <> 2) ->
  exists out, upsample_2_isc_voc m spline rate v_max s (stamp t0 (Z.of_nat u * 10000) xs) = Ok out
    /\ steady t0 10000 u (c * u) (map (fun r => (if fle v_max (voc r) then v_max else voc r, c_a r)) xs) out.
Proof.
  intros Hr Hu Hc rest voc H. destruct (isc_voc m spline rate v_max s u t0 xs c _ Hr Hu Hc (slice_rows_val rate Hr)) as [A _].
  destruct (A H) as (out & E & S). exists out. split; [exact E|exact S].
Qed.
Print Assumptions C84_isc_voc.

(** Otherwise all three fail: the spline has too few points, for every recording of such a length. *)
Theorem C84_short_refuted m spline spline2 rate v_max pts s u t0 xs c : exp_ok m -> Forall solar xs ->
  fin v_max = true -> (bpow radix2 (-900) <= fR v_max)%R -> 2 <= pts <= 2 ^ 50 ->
  1 <= rate <= 100000 -> (1 < u)%nat -> covers rate (List.length xs) s c ->
  let rest := Z.of_nat c mod (4000000 / (10 ^ 9 / rate / 10000)) in
  rest = 1 \/ rest = 2 ->
  convert_2_ivcurves m spline rate v_max pts s (stamp t0 (Z.of_nat u * (10000 * pts)) xs) = Err ValueError
  /\ convert_2_ivsamples (track_optimal m v_max pts) spline2 rate s (stamp t0 (Z.of_nat u * 10000) xs) = Err ValueError
  /\ upsample_2_isc_voc m spline2 rate v_max s (stamp t0 (Z.of_nat u * 10000) xs) = Err ValueError.
Proof.
  intros He Hx Fv Pv Hp Hr Hu Hc rest H. assert (Hu' : (1 <= u)%nat) by lia.
  destruct (lin_ok v_max pts Fv Pv Hp) as (grid & Eg & _). split; [|split].
  - destruct (curves m spline rate v_max pts s u t0 xs c grid _ Hr ltac:(lia) Hu' Eg Hc (slice_rows_val rate Hr)) as [_ B]. exact (B Hu H).
  - destruct (samples m spline2 rate v_max pts s u t0 xs c _ He Hx Fv Pv Hp Hr Hu' Hc (slice_rows_val rate Hr)) as (grid' & _ & _ & B). exact (B Hu H).
  - destruct (isc_voc m spline2 rate v_max s u t0 xs c _ Hr Hu' Hc (slice_rows_val rate Hr)) as [_ B]. exact (B Hu H).
Qed.
Print Assumptions C84_short_refuted.

(** Curves that do not fit into the interval of the rows: a gap of 0.4 s in a recording of curves of 0.3 s. *)
Theorem C84_gap_refuted m spline : exists out, convert_2_ivcurves m spline 1 (fz 5) 30000 None (stamp 0 (10 ^ 9) (repeat cell 52)) = Ok out
  /\ map (nth_error (map fst out)) [0; 1; 131; 132; 133; 134]%nat
     = [Some 0; Some 300000000; Some 39300000000; Some 39600000000; Some 40000000000; Some 40300000000].
Proof.
  destruct (fz_small 5) as [V1 V2]; [lia|].
  destruct (lin_ok (fz 5) 30000 V1 (big_enough 5 ltac:(lia)) ltac:(lia)) as (grid & Eg & _).
  unfold convert_2_ivcurves. rewrite Eg. cbn [bind].
  set (f := fun l : list coef => Ok l).
  assert (K : option_map (fun out : list (Z * coef) => map (nth_error (map fst out)) [0; 1; 131; 132; 133; 134]%nat)
      (match convert f spline (shp_interval * 30000) 1 None (stamp 0 (10 ^ 9) (repeat cell 52)) with Ok o => Some o | Err _ => None end)
    = Some [Some 0; Some 300000000; Some 39300000000; Some 39600000000; Some 40000000000; Some 40300000000]) by (vm_compute; reflexivity).
  destruct (convert f spline (shp_interval * 30000) 1 None (stamp 0 (10 ^ 9) (repeat cell 52))) as [o|]; [|discriminate K].
  cbn [option_map] in K. cbn [bind]. eexists. split; [reflexivity|]. rewrite map_map. cbn [fst].
  assert (J : forall a b : list (option Z), Some a = Some b -> a = b) by (intros a b E; now injection E). exact (J _ _ K).
Qed.
Print Assumptions C84_gap_refuted.

(** Recordings with more than 100000 rows per second cannot be converted at all. *)
Theorem C84_fast_refuted m spline rate v_max s rows : 100000 < rate -> upsample_2_isc_voc m spline rate v_max s rows = Err ZeroDivisionError.
Proof. intros H. unfold upsample_2_isc_voc, convert. rewrite (slice_rows_fast rate H). reflexivity. Qed.
Print Assumptions C84_fast_refuted.

(** The defaults (50 rows per second): passes of 2000 rows; 2002 rows fail, 2500 rows give 49980000 us. *)
Example C84_ex : 4000000 / (10 ^ 9 / 50 / 10000) = 2000 /\ covers 50 2002 None 2001 /\ 2001 mod 2000 = 1 /\ covers 50 2500 (Some 3%Q) 150
  /\ covers 50 2500 (Some 3600%Q) 2499.
Proof.
  split; [reflexivity|]. split; [reflexivity|]. split; [reflexivity|]. split.
  - split; [discriminate|]. left. split; reflexivity.
  - split; [discriminate|]. right. split; reflexivity.
Qed.
(** One row per second for 5 s: 4 s of output, samples of 10 us; the second row is sample 100000. *)
Example C84_ex2 m spline : exp_ok m -> exists grid out points, linspace (fz 5) 1000 = Ok grid
  /\ convert_2_ivsamples (track_optimal m (fz 5) 1000) spline 1 None (stamp 0 (10 ^ 9) [cell; cell; dark; cell; cell]) = Ok out
  /\ Forall2 (best_point m grid) [cell; cell; dark; cell; cell] points
  /\ steady 0 10000 (Z.to_nat 100000) (4 * Z.to_nat 100000) points out.
Proof.
  intros He. apply (C84_samples m spline 1 (fz 5) 1000 None (Z.to_nat 100000) 0 [cell; cell; dark; cell; cell] 4); try assumption; try lia.
  - exact (Forall_cons _ cell_solar (Forall_cons _ cell_solar (Forall_cons _ dark_solar (Forall_cons _ cell_solar (Forall_cons _ cell_solar (Forall_nil _)))))).
  - apply fz_small; lia.
  - apply big_enough; lia.
  - reflexivity.
  - right. vm_compute. split; discriminate.
Qed.
