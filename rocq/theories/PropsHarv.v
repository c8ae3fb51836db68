(** Properties of the harvester model (C01 - C07).  Vocabulary: HarvSpec.v; code: HarvModel.v. *)
From Verif Require Import PyBase HarvModel HarvSpec HarvOptProofs HarvVocProofs HarvCvProofs.
Open Scope Z_scope.

(** * Streams and configurations used in the examples *)

(** A solar-cell like curve of nine points, swept again and again. *)
Definition ex_curve : list sample :=
  [(0, 10000000); (500000, 9687500); (1000000, 8750000); (1500000, 7187500); (2000000, 5000000);
   (2500000, 2187500); (3000000, 0); (3500000, 0); (4000000, 0)].
Definition ex_stream : list sample := ex_curve ++ ex_curve ++ ex_curve.
Definition ex_cfg (algorithm mode : Z) : hcfg :=
  mkHcfg algorithm mode 9 2000000 0 5000000 500000 100000 179 40 10.

(** * C01 Pre-harvested input passes the harvester unchanged *)

Theorem C01_pass_through :
  forall c xs, h_window c <= 1 -> h_outputs c xs = xs.
Proof. exact pass_through. Qed.
Print Assumptions C01_pass_through.

Example C01_example :
  h_outputs (mkHcfg (2 ^ 14) 7 0 2000000 0 5000000 500000 100000 179 40 10) ex_curve = ex_curve.
Proof. apply C01_pass_through. cbn. lia. Qed.

(** * C02 Optimal harvester only returns real, recent, in-range operating points *)

Theorem C02_opt_explained :
  forall c xs, runs_opt c ->
    exists src, opt_explains c xs (h_outputs c xs) src /\ opt_steady c (h_outputs c xs) src.
Proof. exact opt_correct. Qed.
Print Assumptions C02_opt_explained.

Example C02_example :
  runs_opt (ex_cfg (2 ^ 14) 7) /\
  nth_error (h_outputs (ex_cfg (2 ^ 14) 7) ex_stream) 8 = Some (1500000, 7187500).
Proof. split; [unfold runs_opt; cbn; lia|vm_compute; reflexivity]. Qed.

(** * C03 Optimal harvester is never worse than the present sample *)

Theorem C03_opt_not_worse :
  forall c xs k x y, runs_opt c ->
    nth_error xs k = Some x -> usable c x ->
    nth_error (h_outputs c xs) k = Some y -> power x <= power y.
Proof. exact opt_not_worse. Qed.
Print Assumptions C03_opt_not_worse.

Example C03_example :
  runs_opt (ex_cfg (2 ^ 14) 7) /\ usable (ex_cfg (2 ^ 14) 7) (2500000, 2187500) /\
  nth_error ex_stream 5 = Some (2500000, 2187500) /\
  nth_error (h_outputs (ex_cfg (2 ^ 14) 7) ex_stream) 5 = Some (1500000, 7187500).
Proof.
  split; [unfold runs_opt; cbn; lia|]. split; [unfold usable, power; cbn; lia|].
  split; vm_compute; reflexivity.
Qed.

(** * C04 Constant-voltage harvester without extrapolation *)

(** Every result was really fed before (or is the initial (0,0)). *)
Theorem C04_cv_real :
  forall c xs k y, cv_based c -> ~ extrapolates c ->
    nth_error (h_outputs c xs) k = Some y ->
    y = (0, 0) \/ (exists j, (j <= k)%nat /\ nth_error xs j = Some y).
Proof. exact cv_fed. Qed.
Print Assumptions C04_cv_real.

(** A result that differs from the previous one is this or the previous sample, and closer than four
    steps to the setpoint in force. *)
Theorem C04_cv_near_setpoint :
  forall c xs k x y, cv_based c -> ~ extrapolates c ->
    nth_error xs k = Some x -> nth_error (h_outputs c xs) k = Some y ->
    y = output_before (h_outputs c xs) k \/
    ((y = x \/ (k = 0%nat /\ y = (0,0)) \/ (exists k', k = S k' /\ nth_error xs k' = Some y)) /\
     Z.abs (fst y - setpoint_after c xs k) < 4 * h_vstep c).
Proof. exact cv_real. Qed.
Print Assumptions C04_cv_near_setpoint.

(** Plain constant voltage: exactly which sample is returned after the first one. *)
Theorem C04_cv_exact :
  forall c xs k a b y y', runs_cv c -> ~ extrapolates c ->
    nth_error xs k = Some a -> nth_error xs (S k) = Some b ->
    nth_error (h_outputs c xs) k = Some y -> nth_error (h_outputs c xs) (S k) = Some y' ->
    let S := h_voltage c + 1 in let reach := 4 * h_vstep c in
    (brackets S reach a b -> closer S a b -> y' = a) /\
    (brackets S reach a b -> closer S b a -> y' = b) /\
    (~ (brackets S reach a b /\ (closer S a b \/ closer S b a)) -> y' = y).
Proof. exact cv_exact. Qed.
Print Assumptions C04_cv_exact.

Example C04_example :
  let c := ex_cfg (2 ^ 8) 3 in
  runs_cv c /\ ~ extrapolates c /\ brackets 2000001 2000000 (2000000, 5000000) (2500000, 2187500) /\
  closer 2000001 (2000000, 5000000) (2500000, 2187500) /\
  nth_error (h_outputs c ex_stream) 4 = Some (0, 0) /\
  nth_error (h_outputs c ex_stream) 5 = Some (2000000, 5000000) /\
  nth_error (h_outputs c ex_stream) 20 = Some (2000000, 5000000).
Proof.
  cbv zeta. split; [unfold runs_cv; cbn; lia|]. split; [unfold extrapolates; cbn; discriminate|].
  split; [unfold brackets; cbn; lia|]. split; [unfold closer; cbn; lia|].
  repeat split; vm_compute; reflexivity.
Qed.

(** * C05 Harvested voltage and current are never negative *)

(** False in general: with the default linear extrapolation both trackers return negative currents
    for an ordinary solar-cell curve, because the extrapolated point leaves the curve when the
    setpoint moves. *)
Theorem C05_nonneg_refuted :
  exists c xs k y, cv_based c /\ Forall nonneg xs /\
    nth_error (h_outputs c xs) k = Some y /\ ~ nonneg y.
Proof.
  exists (ex_cfg (2 ^ 13) 7), ex_stream, 18%nat, (3000000, -625000).
  split; [right; right; unfold runs_po; cbn; lia|].
  split; [repeat constructor; cbn; lia|].
  split; [vm_compute; reflexivity|]. unfold nonneg; cbn. lia.
Qed.
Print Assumptions C05_nonneg_refuted.

(** What holds: pass-through, the optimal algorithm, everything without extrapolation ... *)
Theorem C05_nonneg_partial :
  forall c xs k y,
    (h_window c <= 1 \/ h_algorithm c < 2 ^ 8 \/ runs_opt c \/ (cv_based c /\ ~ extrapolates c)) ->
    Forall nonneg xs -> nth_error (h_outputs c xs) k = Some y -> nonneg y.
Proof. exact nonneg_noext. Qed.
Print Assumptions C05_nonneg_partial.

(** ... and plain constant voltage even with extrapolation. *)
Theorem C05_cv_nonneg_partial :
  forall c xs k y, runs_cv c -> 0 <= h_voltage c -> Forall nonneg xs ->
    nth_error (h_outputs c xs) k = Some y -> nonneg y.
Proof. exact cv_nonneg. Qed.
Print Assumptions C05_cv_nonneg_partial.

Example C05_example :
  runs_cv (ex_cfg (2 ^ 8) 7) /\ extrapolates (ex_cfg (2 ^ 8) 7) /\ Forall nonneg ex_stream /\
  nth_error (h_outputs (ex_cfg (2 ^ 8) 7) ex_stream) 6 = Some (2500000, 2187500).
Proof.
  split; [unfold runs_cv; cbn; lia|]. split; [reflexivity|].
  split; [repeat constructor; cbn; lia|vm_compute; reflexivity].
Qed.

(** * C06 Perturb-and-observe setpoint stays inside the configured window *)

Theorem C06_po_range :
  forall c xs k, runs_po c -> 0 < h_interval c ->
    (2 * h_window c < h_interval c \/ h_interval c <= 2 ^ 30 + 1) ->
    h_vmin c <= h_vmax c -> h_vstep c <= h_vmax c ->
    (k < length xs)%nat -> (exists j, (j <= k)%nat /\ po_updates c j) ->
    Z.max (h_vmin c) (h_vstep c) <= setpoint_after c xs (S k) <= h_vmax c.
Proof. exact po_range. Qed.
Print Assumptions C06_po_range.

Theorem C06_po_still_between_updates :
  forall c xs k x, runs_po c -> 0 < h_interval c ->
    (2 * h_window c < h_interval c \/ h_interval c <= 2 ^ 30 + 1) ->
    nth_error xs k = Some x -> ~ po_updates c k ->
    setpoint_after c xs (S k) = setpoint_after c xs k.
Proof.
  intros c xs k x Hr Hi Hc Hx. exact (proj1 (po_setpoint c xs k x Hr Hi Hc Hx)).
Qed.
Print Assumptions C06_po_still_between_updates.

Theorem C06_po_step_power_of_two :
  forall c xs, runs_po c -> exists n, 0 <= n /\ volt_step (h_state c xs) = h_vstep c * 2 ^ n.
Proof. exact po_volt_step. Qed.
Print Assumptions C06_po_step_power_of_two.

Example C06_example :
  let c := ex_cfg (2 ^ 13) 7 in
  runs_po c /\ po_updates c 17 /\ setpoint_after c ex_stream 17 = 2000001 /\
  setpoint_after c ex_stream 18 = 2500001 /\ volt_step (h_state c ex_stream) = 1000000.
Proof.
  cbv zeta. split; [unfold runs_po; cbn; lia|]. split; [vm_compute; reflexivity|].
  repeat split; vm_compute; reflexivity.
Qed.

(** * C07 Open-circuit harvester tracks a bounded, recent open-circuit voltage *)

Theorem C07_voc_explained :
  forall c xs, runs_voc c ->
    exists src, voc_explains c xs src /\ voc_steady c xs src.
Proof. exact voc_correct. Qed.
Print Assumptions C07_voc_explained.

Theorem C07_voc_bounds :
  forall c xs k x, runs_voc c -> 1000 <= h_vmax c -> h_vmin c <= h_vmax c ->
    nth_error xs k = Some x ->
    Z.max 1000 (h_vmin c) <= voc_after c xs (S k) <= h_vmax c /\
    (open_circuit c x -> voc_after c xs (S k) <= fst x).
Proof. exact voc_bounds. Qed.
Print Assumptions C07_voc_bounds.

Theorem C07_voc_setpoint :
  forall c xs k x, runs_voc c -> 0 < h_interval c ->
    (2 * h_window c < h_interval c \/ h_interval c <= 2 ^ 30 + 1) ->
    nth_error xs k = Some x ->
    setpoint_after c xs (S k) =
      (if phase c k <? h_duration c then voc_after c xs (S k)
       else if phase c k =? h_duration c then Z.quot (voc_after c xs (S k) * h_setpoint_n8 c) 256
       else setpoint_after c xs k).
Proof. exact voc_setpoint. Qed.
Print Assumptions C07_voc_setpoint.

(** The derived setpoint never exceeds the estimate it is derived from. *)
Theorem C07_voc_setpoint_below_estimate :
  forall c xs k x, runs_voc c -> 0 < h_interval c ->
    (2 * h_window c < h_interval c \/ h_interval c <= 2 ^ 30 + 1) ->
    1000 <= h_vmax c -> h_vmin c <= h_vmax c -> 0 <= h_setpoint_n8 c <= 256 ->
    nth_error xs k = Some x -> phase c k <= h_duration c ->
    0 <= setpoint_after c xs (S k) <= voc_after c xs (S k).
Proof.
  intros c xs k x Hr Hi Hc H1 H2 H3 Hx Hp.
  destruct (voc_bounds c xs k x Hr H1 H2 Hx) as [[B1 B2] _].
  rewrite (voc_setpoint c xs k x Hr Hi Hc Hx). set (v := voc_after c xs (S k)) in *. clearbody v.
  destruct (phase c k <? h_duration c) eqn:E; [lia|].
  destruct (phase c k =? h_duration c) eqn:E2; [|lia].
  split; [apply Z.quot_pos; nia|].
  apply Z.quot_le_upper_bound; nia.
Qed.
Print Assumptions C07_voc_setpoint_below_estimate.

Example C07_example :
  let c := ex_cfg (2 ^ 12) 7 in
  runs_voc c /\ open_circuit c (3000000, 0) /\ phase c 24 = 7 /\
  voc_after c ex_stream 8 = 3000000 /\ setpoint_after c ex_stream 25 = 3000000.
Proof.
  cbv zeta. split; [unfold runs_voc; cbn; lia|]. split; [unfold open_circuit; cbn; lia|].
  repeat split; vm_compute; reflexivity.
Qed.

(** * C57 Perturb & observe keeps its direction while the power grows *)

(** Successive updates [j] and [k] turn the setpoint from [v0] to [v1] to [v2]. After a gain the
    search goes on into the same direction, twice as far if the gain was the second in a row;
    after a loss it turns around with the basic step; without any power it falls back by four. *)
Theorem C57_po_direction :
  forall c xs j k yj yk pb,
    runs_po c -> 0 < h_interval c ->
    (2 * h_window c < h_interval c \/ h_interval c <= 2 ^ 30 + 1) -> 0 < h_vstep c ->
    next_update c j k -> nth_error (h_outputs c xs) j = Some yj ->
    nth_error (h_outputs c xs) k = Some yk ->
    power_before c (h_outputs c xs) j pb ->
    0 < power yj -> inside c (setpoint_after c xs k) ->
    let v0 := setpoint_after c xs j in
    let v1 := setpoint_after c xs k in
    let v2 := setpoint_after c xs (S k) in
    v1 <> v0 /\
    (power yj < power yk ->
       v2 = limited c (v1 + if pb <? power yj then 2 * (v1 - v0) else v1 - v0)) /\
    (0 < power yk <= power yj -> v2 = limited c (v1 - Z.sgn (v1 - v0) * h_vstep c)) /\
    (power yk <= 0 -> v2 = limited c (v1 - 4 * h_vstep c)).
Proof. exact po_direction. Qed.
Print Assumptions C57_po_direction.

(** At its limits the search starts anew into the opposite direction with the basic step. *)
Theorem C57_turns_at_limits :
  forall c xs j k yj yk,
    runs_po c -> 0 < h_interval c ->
    (2 * h_window c < h_interval c \/ h_interval c <= 2 ^ 30 + 1) -> 0 < h_vstep c ->
    next_update c j k -> nth_error (h_outputs c xs) j = Some yj ->
    nth_error (h_outputs c xs) k = Some yk ->
    let v1 := setpoint_after c xs k in
    let v2 := setpoint_after c xs (S k) in
    (v1 = h_vmax c -> h_vmin c < h_vmax c -> h_vstep c < h_vmax c ->
       (power yj < power yk -> v2 = limited c (v1 - h_vstep c)) /\
       (0 < power yk <= power yj -> v2 = v1)) /\
    (v1 = Z.max (h_vmin c) (h_vstep c) ->
       (power yj < power yk -> v2 = limited c (v1 + h_vstep c)) /\
       (0 < power yk <= power yj -> v2 = v1)).
Proof. exact po_turns. Qed.
Print Assumptions C57_turns_at_limits.

(** Gain, doubled step, loss, turn. *)
Example C57_example :
  let c := mkHcfg (2 ^ 13) 3 9 1000000 0 5000000 250000 100000 18 40 10 in
  let xs := ex_stream ++ ex_stream ++ ex_stream ++ ex_stream in
  next_update c 17 57 /\ next_update c 57 97 /\
  nth_error (h_outputs c xs) 17 = Some (1000000, 8750000) /\
  nth_error (h_outputs c xs) 57 = Some (1500000, 7187500) /\
  nth_error (h_outputs c xs) 97 = Some (2000000, 5000000) /\
  map (setpoint_after c xs) [17; 18; 58; 98]%nat = [1000001; 1250001; 1750001; 1500001].
Proof.
  cbv zeta. split; [|split].
  1, 2: split; [lia|]; split; [reflexivity|]; split; [reflexivity|];
    unfold po_updates, phase; cbn [h_interval h_window]; change (40 >? 2 * 9) with true;
    cbv iota; intros i Hi H.
  - rewrite <- (Z.mod_add _ 0) in H by lia.
    replace (Z.of_nat i + 1 - 2 * 9 + 0 * 40) with (Z.of_nat i - 17) in H by lia.
    rewrite Z.mod_small in H by lia. lia.
  - replace (Z.of_nat i + 1 - 2 * 9) with (Z.of_nat i - 57 + 1 * 40) in H by lia.
    rewrite Z.mod_add, Z.mod_small in H by lia. lia.
  - repeat split; vm_compute; reflexivity.
Qed.
