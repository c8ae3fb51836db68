(** Proofs about the constant-voltage stage (properties C04, C05) and the
    perturb-and-observe setpoint (property C06). *)
From Verif Require Import PyBase HarvModel HarvSpec HarvOptProofs HarvVocProofs.
From RecordUpdate Require Import RecordUpdate.
From Coq Require Import ZifyBool.
Open Scope Z_scope.

(** The variables of the constant-voltage stage, with the setpoint apart. *)
Definition cv_vars (s : hst) :=
  (voltage_hold s, current_hold s, voltage_last s, current_last s, compare_last s,
   (current_delta s, voltage_delta s, step_x4 s, lin_extrapolation s)).

Lemma cv_only_vars s s' x :
  cv_vars s = cv_vars s' -> voltage_set s = voltage_set s' ->
  cv_vars (fst (ivcurve_2_cv s x)) = cv_vars (fst (ivcurve_2_cv s' x)) /\
  snd (ivcurve_2_cv s x) = snd (ivcurve_2_cv s' x).
Proof.
  destruct x as [v i]. unfold cv_vars. intros H E.
  injection H as H1 H2 H3 H4 H5 H6 H7 H8 H9.
  unfold ivcurve_2_cv; cbv zeta. rewrite H1, H2, H3, H4, H5, H6, H7, H8, H9, E.
  repeat match goal with |- context [if ?b then _ else _] => destruct b eqn:? end;
    cbn; split; congruence.
Qed.

Lemma voc_track_vars c s x : cv_vars (voc_track c s x) = cv_vars s.
Proof.
  destruct x as [v i]. unfold voc_track, tick_interval, cv_vars.
  repeat match goal with |- context [if ?b then _ else _] => destruct b end; reflexivity.
Qed.

Lemma po_vars c s p : cv_vars (po_limit c (po_perturb c s p)) = cv_vars s.
Proof.
  assert (H1 : forall s, cv_vars (po_perturb c s p) = cv_vars s).
  { intros t. unfold po_perturb, cv_vars.
    repeat match goal with |- context [if ?b then _ else _] => destruct b end; reflexivity. }
  assert (H2 : forall s, cv_vars (po_limit c s) = cv_vars s).
  { intros t. unfold po_limit, cv_vars.
    repeat match goal with |- context [if ?b then _ else _] => destruct b end; reflexivity. }
  rewrite H2, H1. reflexivity.
Qed.

(** Every algorithm based on the constant-voltage stage returns what that stage returns
    for the setpoint in force before the call. *)
Lemma cv_stage c s x :
  cv_based c ->
  snd (ivcurve_sample c s x) = snd (ivcurve_2_cv s x) /\
  cv_vars (fst (ivcurve_sample c s x)) = cv_vars (fst (ivcurve_2_cv s x)).
Proof.
  intros [Hr|[Hr|Hr]].
  - rewrite (runs_cv_dispatch c s x Hr). auto.
  - rewrite (runs_voc_dispatch c s x Hr). unfold ivcurve_2_mppt_voc.
    destruct (cv_only_vars (voc_track c s x) s x) as [E1 E2];
      [apply voc_track_vars|apply voc_track_frame|].
    destruct (ivcurve_2_cv (voc_track c s x) x) as [s5 out]. cbn [fst snd] in *.
    split; [exact E2|]. rewrite <- E1.
    repeat match goal with |- context [if ?b then _ else _] => destruct b end; reflexivity.
  - rewrite (runs_po_dispatch c s x Hr). unfold ivcurve_2_mppt_po.
    destruct (cv_only_vars (tick_interval c s) s x) as [E1 E2]; [reflexivity|reflexivity|].
    destruct (ivcurve_2_cv (tick_interval c s) x) as [s5 out]. cbn [fst snd] in *.
    split; [exact E2|]. rewrite <- E1.
    destruct (interval_step s5 =? 0); [apply po_vars|reflexivity].
Qed.

(** One call of the stage: what it remembers and, without extrapolation, what it returns. *)
Lemma cv_call s x :
  let s' := fst (ivcurve_2_cv s x) in let y := snd (ivcurve_2_cv s x) in
  y = (voltage_hold s', current_hold s') /\
  (voltage_last s', current_last s') = x /\
  compare_last s' = (fst x <? voltage_set s) /\
  step_x4 s' = step_x4 s /\ lin_extrapolation s' = lin_extrapolation s /\
  voltage_set s' = voltage_set s.
Proof.
  destruct x as [v i]. unfold ivcurve_2_cv; cbv zeta.
  repeat match goal with |- context [if ?b then _ else _] => destruct b eqn:? end;
    cbn; repeat split; auto.
Qed.

Lemma cv_call_noext s x :
  lin_extrapolation s = false ->
  let y := snd (ivcurve_2_cv s x) in
  y = (voltage_hold s, current_hold s) \/
  (y = x /\ Z.abs (fst y - voltage_set s) < step_x4 s) \/
  (y = (voltage_last s, current_last s) /\ Z.abs (fst y - voltage_set s) < step_x4 s).
Proof.
  destruct x as [v i]. intros E. unfold ivcurve_2_cv; cbv zeta. rewrite E.
  repeat match goal with |- context [if ?b then _ else _] => destruct b eqn:? end;
    cbn; auto; right; [left|right]; split; auto; lia.
Qed.

Lemma cv_vars_hold s s' :
  cv_vars s = cv_vars s' ->
  voltage_hold s = voltage_hold s' /\ current_hold s = current_hold s' /\
  voltage_last s = voltage_last s' /\ current_last s = current_last s' /\
  compare_last s = compare_last s' /\ current_delta s = current_delta s' /\
  voltage_delta s = voltage_delta s' /\
  step_x4 s = step_x4 s' /\ lin_extrapolation s = lin_extrapolation s'.
Proof. unfold cv_vars. intros H. injection H as. auto 20. Qed.

(** What the stage remembers after a stream: the last result and the last sample. *)
Lemma cv_memory c xs :
  cv_based c ->
  let s := h_state c xs in
  (voltage_hold s, current_hold s) = output_before (h_outputs c xs) (length xs) /\
  (voltage_last s, current_last s) = match length xs with O => (0,0) | S k => nth k xs (0,0) end /\
  step_x4 s = 4 * h_vstep c /\ lin_extrapolation s = Z.testbit (h_mode c) 2.
Proof.
  intros Hb. cbv zeta. induction xs as [|x xs IH] using rev_ind; [cbn; auto|].
  destruct (cv_stage c (h_state c xs) x Hb) as [E1 E2].
  apply cv_vars_hold in E2 as (V1 & V2 & V3 & V4 & V5 & V6 & V7 & V8 & V9).
  pose proof (cv_call (h_state c xs) x) as HC. cbv zeta in HC.
  destruct HC as (C1 & C2 & C3 & C4 & C5 & C6).
  rewrite h_state_snoc, h_outputs_snoc, V1, V2, V3, V4, V8, V9, app_length.
  cbn [length]. rewrite Nat.add_1_r. cbn [output_before].
  rewrite E1, <- C1, C2, C4, C5.
  rewrite !app_nth2; rewrite ?h_outputs_length, ?Nat.sub_diag; try lia.
  cbn. destruct IH as (_ & _ & -> & ->). auto.
Qed.

Lemma nth_output_before ys k y : nth_error ys k = Some y -> output_before ys (S k) = y.
Proof. cbn. intros H. apply nth_error_nth. exact H. Qed.

(** Result of call [k], in terms of the calls and results before it. *)
Lemma h_output_at c xs k x :
  nth_error xs k = Some x ->
  nth_error (h_outputs c xs) k = Some (snd (ivcurve_sample c (h_state c (firstn k xs)) x)).
Proof.
  intros Hx. unfold h_outputs, h_state.
  generalize (h_init c). revert k Hx.
  induction xs as [|a xs IH]; intros [|k] Hx s; try discriminate; cbn in Hx.
  - injection Hx as ->. cbn. destruct (ivcurve_sample c s x); cbn.
    destruct (h_run c h xs); reflexivity.
  - cbn. destruct (ivcurve_sample c s a) as [s1 y] eqn:E1.
    specialize (IH k Hx s1). destruct (h_run c s1 xs) as [s2 ys]. cbn in *.
    rewrite IH. destruct (h_run c s1 (firstn k xs)); reflexivity.
Qed.

Lemma firstn_outputs c xs k : firstn k (h_outputs c xs) = h_outputs c (firstn k xs).
Proof.
  unfold h_outputs. generalize (h_init c). revert k.
  induction xs as [|a xs IH]; intros [|k] s; cbn; auto.
  destruct (ivcurve_sample c s a) as [s1 y]. specialize (IH k s1).
  destruct (h_run c s1 xs) as [s2 ys]. destruct (h_run c s1 (firstn k xs)).
  cbn in *. congruence.
Qed.

Lemma output_before_firstn ys k : output_before (firstn k ys) k = output_before ys k.
Proof.
  destruct k as [|k]; [reflexivity|]. cbn [output_before].
  revert ys. induction k as [|k IH]; intros [|y ys]; try reflexivity.
  cbn [firstn nth]. apply IH.
Qed.

Lemma nth_firstn_lt {A} (l : list A) d k n : (k < n)%nat -> nth k (firstn n l) d = nth k l d.
Proof.
  revert k n. induction l as [|a l IH]; intros k [|n] H; try lia; [rewrite firstn_nil; reflexivity|].
  destruct k; [reflexivity|]. cbn. apply IH. lia.
Qed.

Lemma cv_memory_at c xs k :
  cv_based c -> (k <= length xs)%nat ->
  let s := h_state c (firstn k xs) in
  (voltage_hold s, current_hold s) = output_before (h_outputs c xs) k /\
  (voltage_last s, current_last s) = match k with O => (0,0) | S k' => nth k' xs (0,0) end /\
  step_x4 s = 4 * h_vstep c /\ lin_extrapolation s = Z.testbit (h_mode c) 2.
Proof.
  intros Hb Hk. cbv zeta.
  pose proof (cv_memory c (firstn k xs) Hb) as H. cbv zeta in H.
  rewrite firstn_length_le in H by exact Hk.
  rewrite <- firstn_outputs, output_before_firstn in H.
  destruct H as (H1 & H2 & H3 & H4). split; [exact H1|]. split; [|auto].
  rewrite H2. destruct k as [|k]; [reflexivity|]. apply nth_firstn_lt. lia.
Qed.

Lemma cv_real c xs k x y :
  cv_based c -> ~ extrapolates c ->
  nth_error xs k = Some x -> nth_error (h_outputs c xs) k = Some y ->
  y = output_before (h_outputs c xs) k \/
  ((y = x \/ (k = 0%nat /\ y = (0,0)) \/ (exists k', k = S k' /\ nth_error xs k' = Some y)) /\
   Z.abs (fst y - setpoint_after c xs k) < 4 * h_vstep c).
Proof.
  intros Hb He Hx Hy.
  rewrite (h_output_at c xs k x Hx) in Hy. injection Hy as Hy.
  destruct (cv_stage c (h_state c (firstn k xs)) x Hb) as [E1 _]. rewrite E1 in Hy.
  pose proof (cv_memory_at c xs k Hb) as M. cbv zeta in M.
  pose proof (nth_error_lt _ _ _ Hx) as Hk.
  destruct M as (M1 & M2 & M3 & M4); [lia|].
  assert (Hl : lin_extrapolation (h_state c (firstn k xs)) = false).
  { rewrite M4. unfold extrapolates in He. destruct (Z.testbit (h_mode c) 2); congruence. }
  pose proof (cv_call_noext _ x Hl) as H. cbv zeta in H.
  rewrite Hy in H. rewrite M1, M2, M3 in H. unfold setpoint_after.
  destruct H as [H|[[H1 H2]|[H1 H2]]]; [left; exact H|right; auto|right].
  split; [|exact H2]. right. destruct k as [|k]; [left; auto|right].
  exists k. split; [reflexivity|].
  rewrite H1. apply nth_error_nth'. lia.
Qed.

(** Without extrapolation every result is (0,0) or was fed before. *)
Lemma cv_fed c xs k y :
  cv_based c -> ~ extrapolates c ->
  nth_error (h_outputs c xs) k = Some y ->
  y = (0, 0) \/ (exists j, (j <= k)%nat /\ nth_error xs j = Some y).
Proof.
  intros Hb He. revert y. induction k as [k IH] using lt_wf_ind. intros y Hy.
  pose proof (nth_error_lt _ _ _ Hy) as Hk. rewrite h_outputs_length in Hk.
  destruct (nth_error xs k) as [x|] eqn:Hx; [|apply nth_error_None in Hx; lia].
  destruct (cv_real c xs k x y Hb He Hx Hy) as [H|[[->|[[-> ->]|(k' & -> & Hk')]] _]].
  - destruct k as [|k]; [left; exact H|]. cbn in H.
    destruct (nth_error (h_outputs c xs) k) as [y'|] eqn:Hy'.
    + pose proof Hy' as Hn. apply nth_error_nth with (d := (0,0)) in Hn. rewrite Hn in H. subst y'.
      destruct (IH k (Nat.lt_succ_diag_r k) y Hy') as [->|(j & Hj & Hx')]; [auto|].
      right. exists j. split; [lia|exact Hx'].
    + apply nth_error_None in Hy'. rewrite nth_overflow in H by exact Hy'. auto.
  - right. exists k. auto.
  - left; reflexivity.
  - right. exists k'. split; [lia|exact Hk'].
Qed.

(** Plain constant voltage: the setpoint never moves. *)
Lemma cv_setpoint c xs : runs_cv c -> voltage_set (h_state c xs) = h_voltage c + 1.
Proof.
  intros Hr. induction xs as [|x xs IH] using rev_ind; [reflexivity|].
  rewrite h_state_snoc, (runs_cv_dispatch c _ x Hr).
  pose proof (cv_call (h_state c xs) x) as H. cbv zeta in H. destruct H as (_ & _ & _ & _ & _ & ->).
  exact IH.
Qed.

Lemma cv_compare c xs x :
  runs_cv c -> compare_last (h_state c (xs ++ [x])) = (fst x <? h_voltage c + 1).
Proof.
  intros Hr. rewrite h_state_snoc, (runs_cv_dispatch c _ x Hr).
  pose proof (cv_call (h_state c xs) x) as H. cbv zeta in H. destruct H as (_ & _ & -> & _).
  rewrite cv_setpoint by exact Hr. reflexivity.
Qed.

Lemma cv_exact c xs k a b y y' :
  runs_cv c -> ~ extrapolates c ->
  nth_error xs k = Some a -> nth_error xs (S k) = Some b ->
  nth_error (h_outputs c xs) k = Some y -> nth_error (h_outputs c xs) (S k) = Some y' ->
  let S := h_voltage c + 1 in let reach := 4 * h_vstep c in
  (brackets S reach a b -> closer S a b -> y' = a) /\
  (brackets S reach a b -> closer S b a -> y' = b) /\
  (~ (brackets S reach a b /\ (closer S a b \/ closer S b a)) -> y' = y).
Proof.
  intros Hr He Ha Hb Hy Hy' SS reach.
  assert (HB : cv_based c) by (left; exact Hr).
  rewrite (h_output_at c xs _ b Hb) in Hy'.
  apply (f_equal (fun o => match o with Some z => z | None => b end)) in Hy'. cbv beta iota in Hy'.
  rewrite (runs_cv_dispatch c _ b Hr) in Hy'.
  pose proof (cv_memory_at c xs (S k) HB) as M. cbv zeta in M.
  pose proof (nth_error_lt _ _ _ Hb) as Hk.
  destruct M as (M1 & M2 & M3 & M4); [lia|].
  rewrite (nth_output_before _ _ _ Hy) in M1.
  apply nth_error_nth with (d := (0,0)) in Ha as Ha'. rewrite Ha' in M2.
  pose proof (cv_setpoint c (firstn (S k) xs) Hr) as HS. fold SS in HS.
  assert (HC : compare_last (h_state c (firstn (S k) xs)) = (fst a <? SS)).
  { rewrite (firstn_S_snoc _ _ _ Ha). apply cv_compare. exact Hr. }
  assert (Hl : lin_extrapolation (h_state c (firstn (S k) xs)) = false).
  { rewrite M4. unfold extrapolates in He. destruct (Z.testbit (h_mode c) 2); congruence. }
  fold reach in M3.
  generalize dependent (h_state c (firstn (S k) xs)). intros s Hy' M1 M2 M3 M4 HS HC Hl.
  destruct a as [va ia], b as [vb ib], y as [vy iy].
  injection M1 as M1a M1b. injection M2 as M2a M2b. cbn [fst] in HC.
  subst y'. unfold ivcurve_2_cv; cbv zeta.
  rewrite M1a, M1b, M2a, M2b, M3, HS, HC, Hl.
  unfold brackets, closer; cbn [fst].
  destruct (negb (Bool.eqb (vb <? SS) (va <? SS)) && (Z.abs (vb - va) <? reach)) eqn:E1.
  - assert (HBr : ((va < SS /\ SS <= vb) \/ (vb < SS /\ SS <= va)) /\ Z.abs (vb - va) < reach).
    { destruct (vb <? SS) eqn:?, (va <? SS) eqn:?; cbn in E1; try discriminate; lia. }
    destruct ((Z.abs (vb - SS) <? Z.abs (va - SS)) && (Z.abs (vb - SS) <? reach)) eqn:E2.
    + cbn. split; [lia|]. split; [auto|]. intros HN. exfalso. apply HN. split; [exact HBr|]. lia.
    + destruct ((Z.abs (va - SS) <? Z.abs (vb - SS)) && (Z.abs (va - SS) <? reach)) eqn:E3.
      * cbn. split; [auto|]. split; [lia|]. intros HN. exfalso. apply HN. split; [exact HBr|]. lia.
      * cbn. rewrite M1a, M1b. split; [lia|]. split; [lia|]. auto.
  - assert (HBr : ~ (((va < SS /\ SS <= vb) \/ (vb < SS /\ SS <= va)) /\ Z.abs (vb - va) < reach)).
    { destruct (vb <? SS) eqn:?, (va <? SS) eqn:?; cbn in E1; lia. }
    cbn. rewrite M1a, M1b. split; [tauto|]. split; [tauto|]. auto.
Qed.

(** Non-negativity of plain constant voltage, with or without extrapolation: the extrapolation
    steps back and forth between the two samples of the last crossing. *)
Definition cv_pos (c : hcfg) (s : hst) : Prop :=
  let SS := h_voltage c + 1 in
  0 <= voltage_hold s /\ 0 <= current_hold s /\
  0 <= voltage_last s /\ 0 <= current_last s /\
  voltage_set s = SS /\
  ((0 <= voltage_delta s /\ 0 <= current_delta s) \/
   exists vp ip vq iq,
     0 <= vp < SS /\ SS <= vq /\ 0 <= ip /\ 0 <= iq /\
     ((voltage_hold s = vp /\ current_hold s = ip) \/ (voltage_hold s = vq /\ current_hold s = iq)) /\
     ((voltage_delta s = vq - vp /\ current_delta s = iq - ip) \/
      (voltage_delta s = vp - vq /\ current_delta s = ip - iq))) /\
  (compare_last s = (voltage_last s <? SS) \/
   (voltage_last s = 0 /\ current_last s = 0 /\ compare_last s = false)).

Lemma cv_pos_step c s x :
  0 <= h_voltage c -> cv_pos c s -> nonneg x -> cv_pos c (fst (ivcurve_2_cv s x)).
Proof.
  intros Hv (H1 & H2 & H3 & H4 & HS & HD & HC) [Hx1 Hx2]. destruct x as [v i]. cbn [fst snd] in *.
  unfold ivcurve_2_cv; cbv zeta. set (SS := h_voltage c + 1) in *.
  rewrite HS.
  destruct (negb (Bool.eqb (v <? SS) (compare_last s)) && (Z.abs (v - voltage_last s) <? step_x4 s)) eqn:E1.
  - destruct ((Z.abs (v - SS) <? Z.abs (voltage_last s - SS)) && (Z.abs (v - SS) <? step_x4 s)) eqn:E2.
    + unfold cv_pos; cbn; fold SS. repeat (split; [lia|]). split; [|left; reflexivity].
      destruct HC as [HC|(HC1 & HC2 & HC3)].
      * right. rewrite HC in E1.
        destruct (v <? SS) eqn:E3, (voltage_last s <? SS) eqn:E4; cbn in E1; try discriminate.
        -- exists v, i, (voltage_last s), (current_last s). repeat (split; [lia|]). lia.
        -- exists (voltage_last s), (current_last s), v, i. repeat (split; [lia|]). lia.
      * left. lia.
    + destruct ((Z.abs (voltage_last s - SS) <? Z.abs (v - SS)) && (Z.abs (voltage_last s - SS) <? step_x4 s)) eqn:E3.
      * unfold cv_pos; cbn; fold SS. repeat (split; [lia|]). split; [|left; reflexivity].
        destruct HC as [HC|(HC1 & HC2 & HC3)].
        -- right. rewrite HC in E1.
           destruct (v <? SS) eqn:E4, (voltage_last s <? SS) eqn:E5; cbn in E1; try discriminate.
           ++ exists v, i, (voltage_last s), (current_last s). repeat (split; [lia|]). lia.
           ++ exists (voltage_last s), (current_last s), v, i. repeat (split; [lia|]). lia.
        -- left. lia.
      * unfold cv_pos; cbn; fold SS. repeat (split; [assumption|]). left; reflexivity.
  - destruct (lin_extrapolation s) eqn:El.
    + destruct (Bool.eqb (voltage_hold s <? SS) (voltage_delta s >? 0)) eqn:E2;
        unfold cv_pos; cbn; fold SS.
      * destruct HD as [HD|(vp & ip & vq & iq & P1 & P2 & P3 & P4 & P5 & P6)].
        -- repeat (split; [lia|]). left; reflexivity.
        -- assert (HH : (voltage_hold s + voltage_delta s = vp /\ current_hold s + current_delta s = ip) \/
                        (voltage_hold s + voltage_delta s = vq /\ current_hold s + current_delta s = iq)).
           { destruct (voltage_hold s <? SS) eqn:E3, (voltage_delta s >? 0) eqn:E4; cbn in E2;
               try discriminate; lia. }
           repeat (split; [lia|]). split; [|left; reflexivity].
           right. exists vp, ip, vq, iq. auto 10.
      * destruct HD as [HD|(vp & ip & vq & iq & P1 & P2 & P3 & P4 & P5 & P6)].
        -- destruct (voltage_hold s >? voltage_delta s) eqn:E3, (current_hold s >? current_delta s) eqn:E4;
             (repeat (split; [lia|])); left; reflexivity.
        -- assert (HH : ((if voltage_hold s >? voltage_delta s then voltage_hold s - voltage_delta s else 0) = vp /\
                         (if current_hold s >? current_delta s then current_hold s - current_delta s else 0) = ip) \/
                        ((if voltage_hold s >? voltage_delta s then voltage_hold s - voltage_delta s else 0) = vq /\
                         (if current_hold s >? current_delta s then current_hold s - current_delta s else 0) = iq)).
           { destruct (voltage_hold s <? SS) eqn:E3, (voltage_delta s >? 0) eqn:E4; cbn in E2;
               try discriminate;
             destruct (voltage_hold s >? voltage_delta s) eqn:E5, (current_hold s >? current_delta s) eqn:E6; lia. }
           revert HH.
           generalize (if voltage_hold s >? voltage_delta s then voltage_hold s - voltage_delta s else 0).
           generalize (if current_hold s >? current_delta s then current_hold s - current_delta s else 0).
           intros ih vh HH.
           repeat (split; [lia|]). split; [|left; reflexivity].
           right. exists vp, ip, vq, iq. auto 10.
    + unfold cv_pos; cbn; fold SS. repeat (split; [assumption|]). left; reflexivity.
Qed.

Lemma cv_nonneg c xs k y :
  runs_cv c -> 0 <= h_voltage c -> Forall nonneg xs ->
  nth_error (h_outputs c xs) k = Some y -> nonneg y.
Proof.
  intros Hr Hv HF.
  cut (cv_pos c (h_state c xs) /\
       forall k y, nth_error (h_outputs c xs) k = Some y -> nonneg y).
  { intros [_ H]. apply H. }
  clear k y. induction xs as [|x xs IH] using rev_ind.
  - split; [|intros [|k] y H; discriminate].
    unfold cv_pos; cbn. repeat (split; [lia|]). right; auto.
  - apply Forall_app in HF as [HF1 HF2]. inversion HF2 as [|? ? Hx _]; subst.
    destruct (IH HF1) as [IHp IHo].
    pose proof (cv_pos_step c _ x Hv IHp Hx) as HP.
    rewrite h_state_snoc, h_outputs_snoc, (runs_cv_dispatch c _ x Hr).
    split; [exact HP|]. intros k y Hy. apply nth_error_snoc in Hy as [[_ Hy]|[_ ->]].
    + eapply IHo; eauto.
    + pose proof (cv_call (h_state c xs) x) as HC. cbv zeta in HC. destruct HC as [-> _].
      unfold nonneg; cbn. destruct HP as (? & ? & _). auto.
Qed.

(** Non-negativity of the optimal algorithm and without extrapolation. *)
Lemma nonneg_noext c xs k y :
  (h_window c <= 1 \/ h_algorithm c < 2 ^ 8 \/ runs_opt c \/ (cv_based c /\ ~ extrapolates c)) ->
  Forall nonneg xs -> nth_error (h_outputs c xs) k = Some y -> nonneg y.
Proof.
  intros Hc HF Hy.
  assert (Hfed : y = (0,0) \/ exists j, nth_error xs j = Some y).
  { destruct Hc as [Hw|[Ha|[Hr|[Hb He]]]].
    - right. exists k. pose proof (nth_error_lt _ _ _ Hy) as Hk. rewrite h_outputs_length in Hk.
      destruct (nth_error xs k) as [x|] eqn:Hx; [|apply nth_error_None in Hx; lia].
      rewrite (h_output_at _ _ _ _ Hx) in Hy. unfold ivcurve_sample in Hy.
      destruct (h_window c <=? 1) eqn:E; [|lia]. exact Hy.
    - right. exists k. pose proof (nth_error_lt _ _ _ Hy) as Hk. rewrite h_outputs_length in Hk.
      destruct (nth_error xs k) as [x|] eqn:Hx; [|apply nth_error_None in Hx; lia].
      rewrite (h_output_at _ _ _ _ Hx) in Hy.
      unfold ivcurve_sample, HRV_MPPT_OPT, HRV_MPPT_PO, HRV_MPPT_VOC, HRV_CV in Hy.
      destruct (h_window c <=? 1); [exact Hy|].
      destruct (h_algorithm c >=? 2 ^ 14) eqn:E2; [lia|].
      destruct (h_algorithm c >=? 2 ^ 13) eqn:E3; [lia|].
      destruct (h_algorithm c >=? 2 ^ 12) eqn:E4; [lia|].
      destruct (h_algorithm c >=? 2 ^ 8) eqn:E5; [lia|exact Hy].
    - destruct (opt_correct c xs Hr) as (src & [_ Hex] & _).
      specialize (Hex k y Hy). destruct (src k) as [j|]; [|left; apply Hex].
      right. exists j. apply Hex.
    - destruct (cv_fed c xs k y Hb He Hy) as [H|(j & _ & H)]; eauto. }
  destruct Hfed as [->|(j & Hj)]; [unfold nonneg; cbn; lia|].
  eapply Forall_forall; [exact HF|]. eapply nth_error_In; eauto.
Qed.

(** * Pass-through (C01) *)

Lemma pass_through c xs : h_window c <= 1 -> h_outputs c xs = xs.
Proof.
  intros Hw. unfold h_outputs. generalize (h_init c).
  induction xs as [|x xs IH]; intros s; [reflexivity|].
  cbn. unfold ivcurve_sample. destruct (h_window c <=? 1) eqn:E; [|lia].
  specialize (IH s). destruct (h_run c s xs). cbn in *. congruence.
Qed.

(** * Perturb and observe (C06) *)

Definition po_inv (c : hcfg) (s : hst) : Prop :=
  step_x4 s = 4 * h_vstep c /\ exists n, 0 <= n /\ volt_step s = h_vstep c * 2 ^ n.

Lemma po_limit_bounds c s :
  let s' := po_limit c s in
  h_vstep c <= voltage_set s' /\ h_vmin c <= voltage_set s' /\
  voltage_set s' <= Z.max (Z.max (h_vmin c) (h_vmax c)) (h_vstep c) /\
  (volt_step s' = volt_step s \/ volt_step s' = h_vstep c).
Proof.
  unfold po_limit; cbv zeta.
  repeat match goal with |- context [if ?b then _ else _] => destruct b eqn:? end; cbn in *; lia.
Qed.

Lemma po_perturb_step c s p :
  (volt_step (po_perturb c s p) = volt_step s * 2) \/ (volt_step (po_perturb c s p) = h_vstep c).
Proof.
  unfold po_perturb.
  repeat match goal with |- context [if ?b then _ else _] => destruct b eqn:? end; cbn; auto.
Qed.

(** One call: setpoint unchanged, or updated by perturb + limit. *)
Lemma po_call c s x :
  let s' := fst (ivcurve_2_mppt_po c s x) in
  let y := snd (ivcurve_2_mppt_po c s x) in
  exists s2, voltage_set s2 = voltage_set s /\ volt_step s2 = volt_step s /\
             is_rising s2 = is_rising s /\ power_last s2 = power_last s /\ step_x4 s2 = step_x4 s /\
             s' = (if interval_step (tick_interval c s) =? 0
                   then po_limit c (po_perturb c s2 (fst y * snd y)) else s2).
Proof.
  cbv zeta. unfold ivcurve_2_mppt_po.
  pose proof (cv_frame (tick_interval c s) x) as F. cbv zeta in F.
  destruct (ivcurve_2_cv (tick_interval c s) x) as [s2 out]. cbn [fst snd] in F |- *.
  destruct F as (F1 & F2 & F3 & F4 & F5 & F6 & F7 & F8 & F9 & F10 & F11 & F12 & F13).
  exists s2. rewrite F1, F2, F3, F4, F5, F13. repeat (split; [reflexivity|]). reflexivity.
Qed.

Lemma po_setpoint c xs k x :
  runs_po c -> 0 < h_interval c ->
  (2 * h_window c < h_interval c \/ h_interval c <= 2 ^ 30 + 1) ->
  nth_error xs k = Some x ->
  (phase c k <> 0 -> setpoint_after c xs (S k) = setpoint_after c xs k) /\
  (phase c k = 0 ->
     h_vstep c <= setpoint_after c xs (S k) /\ h_vmin c <= setpoint_after c xs (S k) /\
     setpoint_after c xs (S k) <= Z.max (Z.max (h_vmin c) (h_vmax c)) (h_vstep c)).
Proof.
  intros Hr Hi Hc Hx. unfold setpoint_after.
  pose proof (interval_phase c (firstn (S k) xs) k (or_intror Hr) Hi Hc) as HP.
  rewrite firstn_length_le in HP by (apply nth_error_lt in Hx; lia).
  specialize (HP eq_refl).
  rewrite (firstn_S_snoc _ _ _ Hx) in *. rewrite h_state_snoc in *.
  rewrite call_interval in HP by (right; exact Hr).
  rewrite (runs_po_dispatch c _ x Hr).
  destruct (po_call c (h_state c (firstn k xs)) x) as (s2 & E1 & E2 & E3 & E4 & E5 & ->).
  rewrite HP. split; intros Hp.
  - destruct (Z.eqb_spec (phase c k) 0); [contradiction|]. exact E1.
  - rewrite Hp. cbn [Z.eqb]. change (0 =? 0) with true. cbv iota.
    pose proof (po_limit_bounds c (po_perturb c s2
       (fst (snd (ivcurve_2_mppt_po c (h_state c (firstn k xs)) x)) *
        snd (snd (ivcurve_2_mppt_po c (h_state c (firstn k xs)) x))))) as B.
    cbv zeta in B. destruct B as (B1 & B2 & B3 & _). auto.
Qed.

Lemma po_range c xs k :
  runs_po c -> 0 < h_interval c ->
  (2 * h_window c < h_interval c \/ h_interval c <= 2 ^ 30 + 1) ->
  h_vmin c <= h_vmax c -> h_vstep c <= h_vmax c ->
  (k < length xs)%nat -> (exists j, (j <= k)%nat /\ phase c j = 0) ->
  Z.max (h_vmin c) (h_vstep c) <= setpoint_after c xs (S k) <= h_vmax c.
Proof.
  intros Hr Hi Hc H1 H2 Hk (j & Hj & Hp).
  induction k as [|k IH].
  - assert (j = 0%nat) as -> by lia.
    destruct (nth_error xs 0) as [x|] eqn:Hx; [|apply nth_error_None in Hx; lia].
    destruct (po_setpoint c xs 0 x Hr Hi Hc Hx) as [_ B]. specialize (B Hp). lia.
  - destruct (nth_error xs (S k)) as [x|] eqn:Hx; [|apply nth_error_None in Hx; lia].
    destruct (po_setpoint c xs (S k) x Hr Hi Hc Hx) as [A B].
    destruct (Z.eq_dec (phase c (S k)) 0) as [E|E].
    + specialize (B E). lia.
    + rewrite (A E). apply IH; [lia|]. assert (j <> S k) by congruence. lia.
Qed.

Lemma po_volt_step c xs :
  runs_po c -> exists n, 0 <= n /\ volt_step (h_state c xs) = h_vstep c * 2 ^ n.
Proof.
  intros Hr. induction xs as [|x xs IH] using rev_ind.
  - exists 0. cbn. lia.
  - destruct IH as (n & Hn & E). rewrite h_state_snoc, (runs_po_dispatch c _ x Hr).
    destruct (po_call c (h_state c xs) x) as (s2 & E1 & E2 & E3 & E4 & E5 & ->).
    destruct (interval_step (tick_interval c (h_state c xs)) =? 0).
    + match goal with |- context [po_limit c ?t] => pose proof (po_limit_bounds c t) as B end.
      cbv zeta in B. destruct B as (_ & _ & _ & [B|B]).
      * rewrite B. destruct (po_perturb_step c s2
          (fst (snd (ivcurve_2_mppt_po c (h_state c xs) x)) *
           snd (snd (ivcurve_2_mppt_po c (h_state c xs) x)))) as [P|P]; rewrite P.
        -- exists (n + 1). split; [lia|]. rewrite E2, E, Z.pow_add_r by lia.
           change (2 ^ 1) with 2. lia.
        -- exists 0. split; [lia|]. change (2 ^ 0) with 1. lia.
      * rewrite B. exists 0. split; [lia|]. change (2 ^ 0) with 1. lia.
    + exists n. split; [lia|]. congruence.
Qed.

(** ** Direction of the search (C57) *)

Definition po_vars4 (s : hst) := (voltage_set s, volt_step s, is_rising s, power_last s).

Lemma po_call_at c xs k x y :
  runs_po c -> 0 < h_interval c ->
  (2 * h_window c < h_interval c \/ h_interval c <= 2 ^ 30 + 1) ->
  nth_error xs k = Some x -> nth_error (h_outputs c xs) k = Some y ->
  exists s2, po_vars4 s2 = po_vars4 (h_state c (firstn k xs)) /\
    step_x4 s2 = step_x4 (h_state c (firstn k xs)) /\
    h_state c (firstn (S k) xs) =
      (if phase c k =? 0 then po_limit c (po_perturb c s2 (power y)) else s2).
Proof.
  intros Hr Hi Hc Hx Hy.
  pose proof (interval_phase c (firstn (S k) xs) k (or_intror Hr) Hi Hc) as HP.
  rewrite firstn_length_le in HP by (apply nth_error_lt in Hx; lia).
  specialize (HP eq_refl).
  rewrite (h_output_at c xs k x Hx) in Hy. injection Hy as Hy.
  rewrite (firstn_S_snoc _ _ _ Hx) in *. rewrite h_state_snoc in *.
  rewrite call_interval in HP by (right; exact Hr).
  rewrite (runs_po_dispatch c _ x Hr) in *.
  destruct (po_call c (h_state c (firstn k xs)) x) as (s2 & E1 & E2 & E3 & E4 & E5 & ->).
  rewrite HP. rewrite Hy. exists s2. unfold po_vars4. rewrite E1, E2, E3, E4, E5. auto.
Qed.

Lemma step_x4_const c xs : runs_po c -> step_x4 (h_state c xs) = 4 * h_vstep c.
Proof.
  intros Hr. induction xs as [|x xs IH] using rev_ind; [reflexivity|].
  rewrite h_state_snoc, (runs_po_dispatch c _ x Hr).
  destruct (po_call c (h_state c xs) x) as (s2 & E1 & E2 & E3 & E4 & E5 & ->).
  destruct (interval_step (tick_interval c (h_state c xs)) =? 0); [|congruence].
  rewrite <- IH, <- E5. unfold po_limit, po_perturb.
  repeat match goal with |- context [if ?b then _ else _] => destruct b end; reflexivity.
Qed.

Lemma limit_set c s : voltage_set (po_limit c s) = limited c (voltage_set s).
Proof.
  unfold po_limit, limited.
  repeat match goal with |- context [if ?b then _ else _] => destruct b eqn:? end; cbn in *; lia.
Qed.

Lemma limit_inside c s :
  inside c (voltage_set (po_limit c s)) -> po_limit c s = s.
Proof.
  unfold po_limit, inside.
  repeat match goal with |- context [if ?b then _ else _] => destruct b eqn:? end; cbn in *;
    try lia; reflexivity.
Qed.

Lemma limit_power c s : power_last (po_limit c s) = power_last s.
Proof.
  unfold po_limit.
  repeat match goal with |- context [if ?b then _ else _] => destruct b eqn:? end; reflexivity.
Qed.

Lemma outputs_length c xs : length (h_outputs c xs) = length xs.
Proof.
  induction xs as [|x xs IH] using rev_ind; [reflexivity|].
  rewrite h_outputs_snoc, !app_length, IH. reflexivity.
Qed.

Lemma nth_some {A} (l : list A) k : (k < length l)%nat -> exists a, nth_error l k = Some a.
Proof.
  intros H. destruct (nth_error l k) as [a|] eqn:E; [eauto|]. apply nth_error_None in E. lia.
Qed.

Lemma power_last_before c xs k :
  runs_po c -> 0 < h_interval c ->
  (2 * h_window c < h_interval c \/ h_interval c <= 2 ^ 30 + 1) ->
  (k <= length xs)%nat -> po_updates c k ->
  power_before c (h_outputs c xs) k (power_last (h_state c (firstn k xs))).
Proof.
  intros Hr Hi Hc Hk Hu.
  assert (G : forall n, (n <= k)%nat ->
    (exists j y, (j < n)%nat /\ po_updates c j /\ (forall i, (j < i < n)%nat -> ~ po_updates c i) /\
       nth_error (h_outputs c xs) j = Some y /\
       power_last (h_state c (firstn n xs)) = power y) \/
    ((forall j, (j < n)%nat -> ~ po_updates c j) /\ power_last (h_state c (firstn n xs)) = 0)).
  { induction n as [|n IH]; intros Hn.
    - right. split; [intros j Hj; lia | reflexivity].
    - destruct (nth_some xs n) as [x Hx]; [lia|].
      destruct (nth_some (h_outputs c xs) n) as [y Hy]; [rewrite outputs_length; lia|].
      destruct (po_call_at c xs n x y Hr Hi Hc Hx Hy) as (s2 & V & _ & E).
      unfold po_updates in *. destruct (Z.eqb_spec (phase c n) 0) as [P|P].
      + left. exists n, y. split; [lia|]. split; [exact P|]. split; [intros i Hin; lia|].
        split; [exact Hy|]. rewrite E, limit_power. reflexivity.
      + assert (EP : power_last (h_state c (firstn (S n) xs)) =
                     power_last (h_state c (firstn n xs))).
        { rewrite E. unfold po_vars4 in V. congruence. }
        destruct IH as [[j [y' (J1 & J2 & J3 & J4 & J5)]]|[J1 J2]]; [lia| |].
        * left. exists j, y'. split; [lia|]. split; [exact J2|]. split.
          { intros i Hin. destruct (Nat.eq_dec i n) as [->|]; [exact P|]. apply J3. lia. }
          split; [exact J4 | congruence].
        * right. split; [|congruence]. intros j Hj.
          destruct (Nat.eq_dec j n) as [->|]; [exact P|]. apply J1. lia. }
  destruct (G k (le_n k)) as [[j [y (J1 & J2 & J3 & J4 & J5)]]|[J1 J2]].
  - left. exists j, y. split; [split; [exact J1|]; split; [exact J2|]; split; [exact Hu|exact J3]|].
    auto.
  - right. auto.
Qed.

(** Nothing changes between updates. *)
Lemma po_between c xs j k :
  runs_po c -> 0 < h_interval c ->
  (2 * h_window c < h_interval c \/ h_interval c <= 2 ^ 30 + 1) ->
  (j < k <= length xs)%nat -> (forall i, (j < i < k)%nat -> ~ po_updates c i) ->
  po_vars4 (h_state c (firstn k xs)) = po_vars4 (h_state c (firstn (S j) xs)).
Proof.
  intros Hr Hi Hc. induction k as [|k IH]; intros Hk Hn; [lia|].
  destruct (Nat.eq_dec j k) as [->|]; [reflexivity|].
  rewrite <- IH by (try lia; intros i Hik; apply Hn; lia).
  destruct (nth_some xs k) as [x Hx]; [lia|].
  destruct (nth_some (h_outputs c xs) k) as [y Hy]; [rewrite outputs_length; lia|].
  destruct (po_call_at c xs k x y Hr Hi Hc Hx Hy) as (s2 & V & _ & E).
  assert (P : phase c k <> 0) by (apply Hn; lia).
  rewrite E. destruct (Z.eqb_spec (phase c k) 0); [contradiction | exact V].
Qed.

Lemma perturb_fields c s p :
  let grew := p >? power_last s in
  let lost := (p <=? 0) && (voltage_set s >? 0) in
  voltage_set (po_perturb c s p) =
    (if grew then if is_rising s then voltage_set s + volt_step s else voltage_set s - volt_step s
     else if lost then voltage_set s - step_x4 s
     else if is_rising s then voltage_set s - h_vstep c else voltage_set s + h_vstep c) /\
  volt_step (po_perturb c s p) = (if grew then volt_step s * 2 else h_vstep c) /\
  is_rising (po_perturb c s p) =
    (if grew then is_rising s else if lost then true else negb (is_rising s)) /\
  power_last (po_perturb c s p) = p.
Proof.
  cbv zeta. unfold po_perturb.
  destruct (p >? power_last s), ((p <=? 0) && (voltage_set s >? 0)), (is_rising s) eqn:R; cbn;
    rewrite ?R; auto.
Qed.

Lemma po_direction c xs j k yj yk pb :
  runs_po c -> 0 < h_interval c ->
  (2 * h_window c < h_interval c \/ h_interval c <= 2 ^ 30 + 1) -> 0 < h_vstep c ->
  next_update c j k -> nth_error (h_outputs c xs) j = Some yj ->
  nth_error (h_outputs c xs) k = Some yk ->
  power_before c (h_outputs c xs) j pb ->
  0 < power yj -> inside c (setpoint_after c xs k) ->
  let v0 := setpoint_after c xs j in
  let v1 := setpoint_after c xs k in
  let v2 := setpoint_after c xs (S k) in
  v1 <> v0 /\
  (power yj < power yk -> v2 = limited c (v1 + if pb <? power yj then 2 * (v1 - v0) else v1 - v0)) /\
  (0 < power yk <= power yj -> v2 = limited c (v1 - Z.sgn (v1 - v0) * h_vstep c)) /\
  (power yk <= 0 -> v2 = limited c (v1 - 4 * h_vstep c)).
Proof.
  intros Hr Hi Hc Hs Hnu Hyj Hyk Hpb Hp Hin v0 v1 v2.
  destruct Hnu as (Hjk & Uj & Uk & Hno).
  assert (Lk : (k < length xs)%nat) by (rewrite <- (outputs_length c); apply nth_error_lt in Hyk; exact Hyk).
  destruct (nth_some xs j) as [xj Hxj]; [lia|].
  destruct (nth_some xs k) as [xk Hxk]; [lia|].
  assert (PB : power_last (h_state c (firstn j xs)) = pb).
  { assert (Lj : (j <= length xs)%nat) by lia.
    destruct (power_last_before c xs j Hr Hi Hc Lj Uj) as [[i [y (A & B & C)]]|[A C]];
      destruct Hpb as [[i' [y' (A' & B' & C')]]|[A' C']].
    - assert (i = i').
      { destruct A as (A1 & A2 & A3 & A4), A' as (A1' & A2' & A3' & A4').
        destruct (Nat.lt_trichotomy i i') as [L|[L|L]]; [|exact L|].
        - exfalso. apply (A4 i'); [lia | exact A2'].
        - exfalso. apply (A4' i); [lia | exact A2]. }
      subst i'. congruence.
    - exfalso. destruct A as (A1 & A2 & _). apply (A' i A1 A2).
    - exfalso. destruct A' as (A1 & A2 & _). apply (A i' A1 A2).
    - congruence. }
  destruct (po_call_at c xs j xj yj Hr Hi Hc Hxj Hyj) as (s2 & V & X4 & E).
  destruct (po_call_at c xs k xk yk Hr Hi Hc Hxk Hyk) as (s3 & V' & X4' & E').
  unfold po_updates in Uj, Uk. rewrite Uj in E. rewrite Uk in E'.
  change (0 =? 0) with true in E, E'. cbv iota in E, E'.
  assert (LK : (j < k <= length xs)%nat) by lia.
  pose proof (po_between c xs j k Hr Hi Hc LK Hno) as BT.
  rewrite (step_x4_const c _ Hr) in X4. rewrite (step_x4_const c _ Hr) in X4'.
  destruct (po_volt_step c (firstn j xs) Hr) as (n & Hn & VS).
  assert (HV : 0 < volt_step (h_state c (firstn j xs))).
  { rewrite VS. apply Z.mul_pos_pos; [exact Hs | apply Z.pow_pos_nonneg; lia]. }
  unfold v2, setpoint_after. rewrite E', limit_set.
  rewrite E in BT.
  assert (E1 : v1 = voltage_set (po_limit c (po_perturb c s2 (power yj)))).
  { unfold v1, setpoint_after. unfold po_vars4 in BT. congruence. }
  unfold inside in Hin. fold v1 in Hin.
  assert (H0 : v1 > 0) by lia. rewrite E1 in Hin.
  pose proof (limit_inside c _ Hin) as LI. rewrite LI in BT, E1. clear LI Hin.
  unfold po_vars4 in V, V', BT. rewrite BT in V'.
  set (a := po_perturb c s2 (power yj)) in *.
  destruct (perturb_fields c s2 (power yj)) as (F1 & F2 & F3 & F4).
  fold a in F1, F2, F3, F4. clearbody a.
  injection V' as V1 V2 V3 V4. injection V as W1 W2 W3 W4.
  fold v0 in W1. unfold setpoint_after in v0. fold v0 in W1.
  destruct (perturb_fields c s3 (power yk)) as [K1 _]. rewrite K1. clear K1.
  rewrite V1, V2, V3, V4, X4', ?F4. rewrite <- ?E1.
  rewrite <- E1 in F1. rewrite W1, W2, W3, W4, PB in *.
  set (st := volt_step (h_state c (firstn j xs))) in *.
  destruct (Z.gtb_spec (power yj) pb) as [G1|G1].
  - assert (pb <? power yj = true) as -> by lia. rewrite F2, F3.
    destruct (is_rising (h_state c (firstn j xs))).
    all: split; [lia|]; split; [|split]; intros Hq.
    all: repeat match goal with |- context [if ?b then _ else _] => destruct b eqn:? end;
        try lia; f_equal; lia.
  - assert (pb <? power yj = false) as -> by lia. rewrite F2, F3.
    destruct ((power yj <=? 0) && (v0 >? 0)) eqn:G2; [lia|].
    destruct (is_rising (h_state c (firstn j xs))); cbn [negb].
    all: split; [lia|]; split; [|split]; intros Hq.
    all: repeat match goal with |- context [if ?b then _ else _] => destruct b eqn:? end;
        try lia; f_equal; lia.
Qed.

Lemma limit_top c s : voltage_set (po_limit c s) = h_vmax c -> h_vmin c < h_vmax c ->
  h_vstep c < h_vmax c ->
  is_rising (po_limit c s) = false /\ volt_step (po_limit c s) = h_vstep c.
Proof.
  unfold po_limit.
  repeat match goal with |- context [if ?b then _ else _] => destruct b eqn:? end; cbn in *;
    intros; try lia; auto.
Qed.

Lemma limit_bottom c s : voltage_set (po_limit c s) = Z.max (h_vmin c) (h_vstep c) ->
  is_rising (po_limit c s) = true /\ volt_step (po_limit c s) = h_vstep c.
Proof.
  unfold po_limit.
  repeat match goal with |- context [if ?b then _ else _] => destruct b eqn:? end; cbn in *;
    intros; try lia; auto.
Qed.

Lemma po_turns c xs j k yj yk :
  runs_po c -> 0 < h_interval c ->
  (2 * h_window c < h_interval c \/ h_interval c <= 2 ^ 30 + 1) -> 0 < h_vstep c ->
  next_update c j k -> nth_error (h_outputs c xs) j = Some yj ->
  nth_error (h_outputs c xs) k = Some yk ->
  let v1 := setpoint_after c xs k in
  let v2 := setpoint_after c xs (S k) in
  (v1 = h_vmax c -> h_vmin c < h_vmax c -> h_vstep c < h_vmax c ->
     (power yj < power yk -> v2 = limited c (v1 - h_vstep c)) /\
     (0 < power yk <= power yj -> v2 = v1)) /\
  (v1 = Z.max (h_vmin c) (h_vstep c) ->
     (power yj < power yk -> v2 = limited c (v1 + h_vstep c)) /\
     (0 < power yk <= power yj -> v2 = v1)).
Proof.
  intros Hr Hi Hc Hs Hnu Hyj Hyk v1 v2.
  destruct Hnu as (Hjk & Uj & Uk & Hno).
  assert (Lk : (k < length xs)%nat) by (rewrite <- (outputs_length c); apply nth_error_lt in Hyk; exact Hyk).
  destruct (nth_some xs j) as [xj Hxj]; [lia|].
  destruct (nth_some xs k) as [xk Hxk]; [lia|].
  destruct (po_call_at c xs j xj yj Hr Hi Hc Hxj Hyj) as (s2 & V & X4 & E).
  destruct (po_call_at c xs k xk yk Hr Hi Hc Hxk Hyk) as (s3 & V' & X4' & E').
  unfold po_updates in Uj, Uk. rewrite Uj in E. rewrite Uk in E'.
  change (0 =? 0) with true in E, E'. cbv iota in E, E'.
  assert (LK : (j < k <= length xs)%nat) by lia.
  pose proof (po_between c xs j k Hr Hi Hc LK Hno) as BT.
  unfold v2, setpoint_after. rewrite E', limit_set. rewrite E in BT.
  assert (PL : power_last (po_limit c (po_perturb c s2 (power yj))) = power yj)
    by (rewrite limit_power; apply (perturb_fields c s2 (power yj))).
  assert (E1 : v1 = voltage_set (po_limit c (po_perturb c s2 (power yj)))).
  { unfold v1, setpoint_after. unfold po_vars4 in BT. congruence. }
  set (a := po_perturb c s2 (power yj)) in *. clearbody a.
  unfold po_vars4 in V', BT. rewrite BT in V'. injection V' as V1 V2 V3 V4.
  destruct (perturb_fields c s3 (power yk)) as [K1 _]. rewrite K1. clear K1.
  rewrite V1, V2, V3, V4, PL, <- E1. clearbody v1. clear E'.
  split.
  - intros Hv A B. rewrite E1 in Hv. destruct (limit_top c a Hv A B) as [-> ->].
    rewrite <- E1 in Hv. split; intros Hq.
    + assert (power yk >? power yj = true) as -> by lia. reflexivity.
    + assert (power yk >? power yj = false) as -> by lia.
      assert ((power yk <=? 0) && (v1 >? 0) = false) as -> by lia. unfold limited. lia.
  - intros Hv. rewrite E1 in Hv. destruct (limit_bottom c a Hv) as [-> ->].
    rewrite <- E1 in Hv. split; intros Hq.
    + assert (power yk >? power yj = true) as -> by lia. reflexivity.
    + assert (power yk >? power yj = false) as -> by lia.
      assert ((power yk <=? 0) && (v1 >? 0) = false) as -> by lia. unfold limited. lia.
Qed.
