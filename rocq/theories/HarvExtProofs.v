(** Proofs about the harvester, part 5: linear extrapolation. *)
From Coq Require Import ZArith Bool Lia List.
From RecordUpdate Require Import RecordSet.
From Verif Require Import PyBase HarvModel HarvSpec HarvOptProofs HarvVocProofs HarvCvProofs.
Import RecordSetNotations ListNotations.
Open Scope Z_scope.

Definition slope (s : hst) : sample := (voltage_delta s, current_delta s).
Definition held_ (s : hst) : sample := (voltage_hold s, current_hold s).
Definition last_ (s : hst) : sample := (voltage_last s, current_last s).

(** One call of the stage. *)
Lemma ext_call s b : lin_extrapolation s = true -> let s' := fst (ivcurve_2_cv s b) in
  extrapolated (voltage_set s) (step_x4 s) (compare_last s = true) (last_ s) b (held_ s) (slope s) (snd (ivcurve_2_cv s b)) (slope s').
Proof.
  destruct b as [v i]. intros E. unfold ivcurve_2_cv, extrapolated, closer, way, towards, forth, back, slope, held_, last_; cbv zeta. rewrite E.
  cbn [fst snd]. set (S := voltage_set s).
  assert (CR : negb (Bool.eqb (v <? S) (compare_last s)) && (Z.abs (v - voltage_last s) <? step_x4 s) = true <->
    ((compare_last s = true <-> S <= v) /\ Z.abs (v - voltage_last s) < step_x4 s)).
  { destruct (Z.ltb_spec v S), (compare_last s), (Z.ltb_spec (Z.abs (v - voltage_last s)) (step_x4 s)); cbn; intuition (try lia; try discriminate). }
  destruct (negb (Bool.eqb (v <? S) (compare_last s)) && (Z.abs (v - voltage_last s) <? step_x4 s)).
  - assert (C : (compare_last s = true <-> S <= v) /\ Z.abs (v - voltage_last s) < step_x4 s) by (apply CR; reflexivity). clear CR.
    destruct ((Z.abs (v - S) <? Z.abs (voltage_last s - S)) && (Z.abs (v - S) <? step_x4 s)) eqn:E2.
    + cbn. repeat split; intros; auto; try lia; tauto.
    + destruct ((Z.abs (voltage_last s - S) <? Z.abs (v - S)) && (Z.abs (voltage_last s - S) <? step_x4 s)) eqn:E3;
        cbn; repeat split; intros; auto; try lia; tauto.
  - assert (C : ~ ((compare_last s = true <-> S <= v) /\ Z.abs (v - voltage_last s) < step_x4 s)) by (intros Q; apply CR in Q; discriminate Q). clear CR.
    split; [tauto|]. split; [tauto|]. split; [tauto|]. intros _.
    replace (voltage_delta s >? 0) with (0 <? voltage_delta s) by (now rewrite Z.gtb_ltb).
    destruct (voltage_hold s <? S), (0 <? voltage_delta s); cbn [Bool.eqb]; cbn;
      (split; [f_equal; try reflexivity | reflexivity]);
      match goal with |- (if ?x >? ?y then _ else _) = _ => rewrite Z.gtb_ltb; destruct (Z.ltb_spec y x); lia | _ => idtac end.
Qed.

Lemma below_is c xs k : cv_based c -> (k <= length xs)%nat ->
  (compare_last (h_state c (firstn k xs)) = true <-> below_before c xs k).
Proof.
  intros Hb Hk. destruct k as [|k]; [cbn; split; [discriminate|tauto]|].
  destruct (nth_error xs k) as [x|] eqn:Hx; [|apply nth_error_None in Hx; lia].
  rewrite (firstn_S_snoc _ _ _ Hx), h_state_snoc.
  destruct (cv_stage c (h_state c (firstn k xs)) x Hb) as [_ E]. apply cv_vars_hold in E as (_ & _ & _ & _ & E & _).
  destruct (cv_call (h_state c (firstn k xs)) x) as (_ & _ & C & _). rewrite E, C.
  cbn [below_before]. rewrite (nth_error_nth (A := sample) _ _ (0,0) Hx). apply Z.ltb_lt.
Qed.

Lemma last_is c xs k : cv_based c -> (k <= length xs)%nat -> last_ (h_state c (firstn k xs)) = input_before xs k.
Proof. intros Hb Hk. destruct (cv_memory_at c xs k Hb Hk) as (_ & M & _). exact M. Qed.

Lemma ext_step c xs : cv_based c -> extrapolates c ->
  exists dir : nat -> sample, dir 0%nat = (0, 0) /\ forall k b y', nth_error xs k = Some b -> nth_error (h_outputs c xs) k = Some y' ->
    extrapolated (setpoint_after c xs k) (4 * h_vstep c) (below_before c xs k) (input_before xs k) b
      (output_before (h_outputs c xs) k) (dir k) y' (dir (S k)).
Proof.
  intros Hb He. exists (fun k => slope (h_state c (firstn k xs))). split; [reflexivity|]. intros k b y' Hx Hy.
  pose proof (nth_error_lt _ _ _ Hx) as Hk.
  rewrite (h_output_at c xs k b Hx) in Hy. injection Hy as Hy.
  set (s := h_state c (firstn k xs)) in *. destruct (cv_stage c s b Hb) as [E1 E2].
  destruct (cv_memory_at c xs k Hb) as (M1 & _ & M3 & M4); [lia|]. fold s in M1, M3, M4.
  pose proof (last_is c xs k Hb) as ML. fold s in ML. pose proof (below_is c xs k Hb) as MB. fold s in MB.
  assert (El : lin_extrapolation s = true) by (rewrite M4; exact He).
  pose proof (ext_call s b El) as HC. cbv zeta in HC. rewrite <- E1, Hy in HC.
  rewrite (firstn_S_snoc _ _ _ Hx), h_state_snoc. fold s.
  apply cv_vars_hold in E2 as (_ & _ & _ & _ & _ & V6 & V7 & _).
  unfold slope in HC at 2. rewrite <- V6, <- V7 in HC. fold (slope (fst (ivcurve_sample c s b))) in HC.
  rewrite M3 in HC. rewrite (ML ltac:(lia)) in HC. unfold held_ in HC. rewrite M1 in HC. unfold setpoint_after. fold s.
  assert (Hk' : (k <= length xs)%nat) by lia. specialize (MB Hk').
  unfold extrapolated in HC |- *. cbv zeta in HC |- *. rewrite <- MB. exact HC.
Qed.

(** Constant voltage: never four steps away from the setpoint once a point was taken. *)
Definition close_ (c : hcfg) (s : hst) : Prop :=
  voltage_set s = h_voltage c + 1 /\ step_x4 s = 4 * h_vstep c
  /\ (held_ s = (0, 0) /\ slope s = (0, 0) \/ Z.abs (voltage_hold s - (h_voltage c + 1)) < 4 * h_vstep c /\ Z.abs (voltage_delta s) < 4 * h_vstep c).
Lemma close_step c s x : 0 <= h_voltage c -> close_ c s -> close_ c (fst (ivcurve_2_cv s x)).
Proof.
  intros Hv (H1 & H2 & H3). destruct x as [v i]. unfold ivcurve_2_cv; cbv zeta. unfold close_, held_, slope in *. rewrite H1, H2.
  set (S := h_voltage c + 1) in *. set (r := 4 * h_vstep c) in *.
  destruct (negb (Bool.eqb (v <? S) (compare_last s)) && (Z.abs (v - voltage_last s) <? r)) eqn:E1.
  - destruct ((Z.abs (v - S) <? Z.abs (voltage_last s - S)) && (Z.abs (v - S) <? r)) eqn:E2;
      [|destruct ((Z.abs (voltage_last s - S) <? Z.abs (v - S)) && (Z.abs (voltage_last s - S) <? r)) eqn:E3]; cbn;
      (split; [exact H1|]; split; [exact H2|]); [right; lia|right; lia|exact H3].
  - destruct (lin_extrapolation s).
    + destruct H3 as [[A B]|[A B]].
      * injection A as A1 A2. injection B as B1 B2. rewrite A1, A2, B1, B2.
        destruct (Bool.eqb (0 <? S) (0 >? 0)); cbn; rewrite B1, B2; auto.
      * destruct (Bool.eqb (voltage_hold s <? S) (voltage_delta s >? 0)) eqn:E2; cbn; (split; [exact H1|]; split; [exact H2|]; right; split; [|lia]).
        -- destruct (Z.ltb_spec (voltage_hold s) S), (voltage_delta s >? 0) eqn:E3; try discriminate E2; lia.
        -- destruct (Z.ltb_spec (voltage_hold s) S), (voltage_delta s >? 0) eqn:E3; try discriminate E2; destruct (voltage_hold s >? voltage_delta s) eqn:E4; lia.
    + cbn. auto.
Qed.
Lemma cv_close c xs k y : runs_cv c -> 0 <= h_voltage c -> nth_error (h_outputs c xs) k = Some y ->
  y = (0, 0) \/ Z.abs (fst y - (h_voltage c + 1)) < 4 * h_vstep c.
Proof.
  intros Hr Hv.
  cut (close_ c (h_state c xs) /\ forall k y, nth_error (h_outputs c xs) k = Some y -> y = (0, 0) \/ Z.abs (fst y - (h_voltage c + 1)) < 4 * h_vstep c).
  { intros [_ H]. apply H. }
  clear k y. induction xs as [|x xs IH] using rev_ind.
  - split; [|intros [|k] y H; discriminate]. unfold close_, held_, slope; cbn. auto.
  - destruct IH as [IHp IHo]. pose proof (close_step c _ x Hv IHp) as HP.
    rewrite h_state_snoc, h_outputs_snoc, (runs_cv_dispatch c _ x Hr).
    split; [exact HP|]. intros k y Hy. apply nth_error_snoc in Hy as [[_ Hy]|[_ ->]].
    + eapply IHo; eauto.
    + pose proof (cv_call (h_state c xs) x) as HC. cbv zeta in HC. destruct HC as [-> _].
      destruct HP as (_ & _ & HP). unfold held_ in HP. cbn [fst]. intuition.
Qed.

(** Constant voltage: alternates between both points of the last crossing. *)
Lemma cv_alternates c xs k a b p q : runs_cv c -> extrapolates c ->
  nth_error xs k = Some a -> nth_error xs (S k) = Some b -> nonneg a -> nonneg b ->
  let S := h_voltage c + 1 in let reach := 4 * h_vstep c in
  brackets S reach a b -> (p = a /\ q = b) \/ (p = b /\ q = a) -> closer S p q ->
  forall n, (k + 1 + n < length xs)%nat ->
    (forall j x x', (k + 1 <= j < k + 1 + n)%nat -> nth_error xs j = Some x -> nth_error xs (j + 1) = Some x' -> ~ brackets S reach x x') ->
    nth_error (h_outputs c xs) (k + 1 + n) = Some (if Nat.even n then p else q).
Proof.
  intros Hr He Ha Hb Na Nb SS reach HB HP HC. assert (Hc : cv_based c) by (left; exact Hr).
  destruct (ext_step c xs Hc He) as (dir & _ & Hd).
  assert (SP : forall j, setpoint_after c xs j = SS) by (intros j; apply (cv_setpoint c _ Hr)).
  assert (CR : forall j x x', nth_error xs j = Some x -> nth_error xs (j + 1) = Some x' ->
    (((below_before c xs (j + 1) <-> SS <= fst x') /\ Z.abs (fst x' - fst (input_before xs (j + 1))) < reach) <-> brackets SS reach x x')
    /\ input_before xs (j + 1) = x).
  { intros j x x' Hx Hx'. rewrite Nat.add_1_r in *. cbn [input_before below_before]. rewrite (nth_error_nth (A := sample) _ _ (0,0) Hx), SP.
    split; [|reflexivity]. unfold brackets. lia. }
  assert (K : forall n, (k + 1 + n < length xs)%nat ->
    (forall j x x', (k + 1 <= j < k + 1 + n)%nat -> nth_error xs j = Some x -> nth_error xs (j + 1) = Some x' -> ~ brackets SS reach x x') ->
    nth_error (h_outputs c xs) (k + 1 + n) = Some (if Nat.even n then p else q) /\ dir (S (k + 1 + n)) = way a b).
  { induction n as [|n IH].
    - intros Hl _. rewrite Nat.add_0_r in *. rewrite <- (Nat.add_1_r k) in Hb. destruct (CR k a b Ha Hb) as [C1 C2].
      destruct (nth_error (h_outputs c xs) (k + 1)) as [y'|] eqn:Hy; [|apply nth_error_None in Hy; rewrite h_outputs_length in Hy; lia].
      pose proof (Hd _ _ _ Hb Hy) as E. rewrite SP, C2 in E. fold reach in E. unfold extrapolated in E. cbv zeta in E.
      rewrite C2 in C1. destruct E as (E1 & E2 & _). cbn [Nat.even].
      assert (D : Z.abs (fst p - SS) < reach) by (unfold brackets, closer in *; destruct HP as [[-> ->]|[-> ->]]; lia).
      destruct HP as [[-> ->]|[-> ->]].
      + destruct E2 as [-> ->]; [apply C1; exact HB|exact HC|exact D|auto].
      + destruct E1 as [-> ->]; [apply C1; exact HB|exact HC|exact D|auto].
    - intros Hl Hn. destruct IH as [IHy IHd]; [lia|intros j x x' Hj; apply Hn; lia|].
      destruct (nth_error xs (k + 1 + n)) as [x|] eqn:Hx; [|apply nth_error_None in Hx; lia].
      destruct (nth_error xs (k + 1 + n + 1)) as [x'|] eqn:Hx'; [|apply nth_error_None in Hx'; lia].
      destruct (CR _ _ _ Hx Hx') as [C1 C2]. specialize (Hn (k + 1 + n)%nat x x' ltac:(lia) Hx Hx').
      replace (k + 1 + Datatypes.S n)%nat with (k + 1 + n + 1)%nat by lia.
      destruct (nth_error (h_outputs c xs) (k + 1 + n + 1)) as [y'|] eqn:Hy; [|apply nth_error_None in Hy; rewrite h_outputs_length in Hy; lia].
      pose proof (Hd _ _ _ Hx' Hy) as E. rewrite SP in E. fold reach in E. unfold extrapolated in E. cbv zeta in E.
      destruct E as (_ & _ & _ & E). rewrite <- C1 in Hn. destruct (E Hn) as [-> ->]. clear E.
      replace (k + 1 + n + 1)%nat with (Datatypes.S (k + 1 + n)) by lia. rewrite IHd. split; [|reflexivity].
      cbn [output_before]. rewrite (nth_error_nth (A := sample) _ _ (0,0) IHy). f_equal.
      rewrite Nat.even_succ, <- Nat.negb_even. unfold towards, forth, back, way.
      destruct a as [va ia], b as [vb ib]. unfold nonneg, brackets, closer in *. cbn [fst snd] in *.
      destruct HP as [[-> ->]|[-> ->]]; cbn [fst snd] in *; destruct (Nat.even n); cbn [negb fst snd];
        destruct (Z.ltb_spec va SS), (Z.ltb_spec vb SS), (Z.ltb_spec 0 (vb - va)); try lia; f_equal; lia. }
  intros n Hl Hn. apply K; assumption.
Qed.
