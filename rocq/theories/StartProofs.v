(** Proofs about start times. *)
From Coq Require Import String QArith.
From Verif Require Import PyBase StartModel StartSpec.
Open Scope Z_scope.
Open Scope list_scope.

Section Proofs.
  Context (utc_of offset_at : Z -> Z) (tz : Z) (iso : string -> option moment) (too_far : Z -> option exn) (strftime : Z -> string).
  Notation pre_correction := (pre_correction utc_of offset_at tz iso too_far).
  Notation new_harvest := (new_harvest utc_of offset_at tz iso too_far).
  Notation new_emulation := (new_emulation utc_of offset_at tz iso too_far).
  Notation means := (means offset_at iso).

  Lemma zone_means d : (match d with Naive w => exists_here utc_of offset_at w | _ => True end) ->
    exists i o, add_zone utc_of offset_at d = Aware i o /\ moment_means offset_at d i.
  Proof.
    destruct d as [w|i o]; cbn; intros H; [|eauto]. exists (utc_of w), (offset_at (utc_of w)). split; [reflexivity|exact H].
  Qed.

  Lemma corrected g s : sensible utc_of offset_at iso g -> pre_correction g = Ok s ->
    (s = None /\ g = GNone) \/ exists i o, s = Some (Aware i o) /\ means g i.
  Proof.
    destruct g as [|us|t|d|]; cbn [StartModel.pre_correction sensible StartSpec.means].
    - intros _ H. injection H as <-. auto.
    - intros _. destruct (too_far us); [discriminate|]. intros H. injection H as <-. right. exists us, tz. auto.
    - destruct (iso t) as [d|] eqn:E; [|discriminate]. intros Hs H. injection H as <-. right.
      destruct (zone_means d) as (i & o & Z1 & Z2); [destruct d; [exact Hs|exact I]|]. exists i, o. rewrite Z1. split; [reflexivity|]. exists d. auto.
    - intros Hs H. injection H as <-. right. destruct (zone_means d) as (i & o & Z1 & Z2); [destruct d; [exact Hs|exact I]|].
      exists i, o. rewrite Z1. auto.
    - discriminate.
  Qed.

  Lemma check_ok s dur now i o : s = Some (Aware i o) ->
    time_check offset_at s dur now = Ok tt <-> now <= i /\ usable_duration dur.
  Proof.
    intros ->. unfold time_check, usable_duration. cbn [before bind]. split.
    - destruct (Z.ltb_spec i now) as [L|L]; [discriminate|]. cbn [negb]. destruct dur as [d|]; cbn.
      + destruct (Z.ltb_spec d 0); [discriminate|]. intros _. split; [lia|]. intros z H1. injection H1 as <-. lia.
      + intros _. split; [lia|]. discriminate.
    - intros [L D]. destruct (Z.ltb_spec i now); [lia|]. cbn [negb]. destruct dur as [d|]; [|reflexivity].
      specialize (D d eq_refl). destruct (Z.ltb_spec d 0); [lia|]. reflexivity.
  Qed.

  Lemma check_err s dur now e : (forall w, s <> Some (Naive w)) -> time_check offset_at s dur now = Err e -> e = ValueError.
  Proof.
    unfold time_check. destruct s as [[w|i o]|].
    - intros H. exfalso. apply (H w). reflexivity.
    - intros _. cbn [before bind]. destruct (i <? now); [intros H; injection H as <-; reflexivity|]. cbn [negb].
      destruct dur as [d|]; [|discriminate]. destruct (d <? 0); cbn; intros H; [injection H as <-; reflexivity|discriminate].
    - intros _. cbn [bind negb]. destruct dur as [d|]; [|discriminate]. destruct (d <? 0); cbn; intros H; [injection H as <-; reflexivity|discriminate].
  Qed.

  Lemma corrected_zone g s w : pre_correction g = Ok s -> s <> Some (Naive w).
  Proof.
    destruct g as [|us|t|d|]; cbn [StartModel.pre_correction].
    - intros H. injection H as <-. discriminate.
    - destruct (too_far us); [discriminate|]. intros H. injection H as <-. discriminate.
    - destruct (iso t) as [d|]; [|discriminate]. intros H. injection H as <-. destruct d; cbn; discriminate.
    - intros H. injection H as <-. destruct d; cbn; discriminate.
    - discriminate.
  Qed.

  Lemma harvest_starts g dur now t : sensible utc_of offset_at iso g -> new_harvest g dur now = Ok t ->
    k_duration t = dur /\ usable_duration dur /\
    ((g = GNone /\ k_start t = None) \/ exists i o, k_start t = Some (Aware i o) /\ means g i /\ now <= i).
  Proof.
    intros Hs. unfold StartModel.new_harvest. destruct (pre_correction g) as [s|] eqn:E; [|discriminate]. cbn [bind].
    destruct (time_check offset_at s dur now) as [[]|] eqn:C; [|discriminate]. cbn [bind]. intros H. injection H as <-. cbn [k_start k_duration].
    split; [reflexivity|]. destruct (corrected g s Hs E) as [[-> ->] | (i & o & -> & M)].
    - split; [|auto]. intros z ->. cbn in C. destruct (Z.ltb_spec z 0); [discriminate|lia].
    - apply (check_ok _ _ _ i o eq_refl) in C. destruct C as [C1 C2]. split; [exact C2|]. right. exists i, o. auto.
  Qed.

  Lemma harvest_accepts g dur now : sensible utc_of offset_at iso g -> usable_duration dur ->
    (forall us, g = GNumber us -> too_far us = None) ->
    g = GNone \/ (exists i, means g i) -> (forall i, means g i -> now <= i) -> exists t, new_harvest g dur now = Ok t.
  Proof.
    intros Hs Hd Ht Hg Hn. assert (P : exists s, pre_correction g = Ok s).
    { destruct g as [|us|t|d|]; cbn [StartModel.pre_correction].
      - eauto.
      - rewrite (Ht us eq_refl). eauto.
      - destruct Hg as [|[i [d [-> _]]]]; [discriminate|]. eauto.
      - eauto.
      - destruct Hg as [|[i []]]; discriminate. }
    destruct P as [s P]. exists (mkTask s dur). unfold StartModel.new_harvest. rewrite P. cbn [bind].
    destruct (corrected g s Hs P) as [[-> ->] | (i & o & -> & M)].
    - assert (C : time_check offset_at None dur now = Ok tt).
      { unfold time_check. cbn [bind negb]. destruct dur as [d|]; [|reflexivity]. specialize (Hd d eq_refl). destruct (Z.ltb_spec d 0); [lia|reflexivity]. }
      rewrite C. reflexivity.
    - assert (C : time_check offset_at (Some (Aware i o)) dur now = Ok tt) by (apply (check_ok _ _ _ i o eq_refl); auto). rewrite C. reflexivity.
  Qed.

  Lemma aux_ok_iff a : aux_ok a = true <-> usable_aux a.
  Proof.
    destruct a as [v|s]; cbn.
    - rewrite andb_true_iff, !Qle_bool_iff. reflexivity.
    - rewrite orb_true_iff, !String.eqb_eq. reflexivity.
  Qed.

  (** An emulation is a harvest with further conditions. *)
  Lemma emulation_iff g dur a act now t :
    new_emulation g dur a act now = Ok t <-> new_harvest g dur now = Ok t /\ usable_aux a /\ act = false.
  Proof.
    unfold StartModel.new_emulation, StartModel.new_harvest. rewrite <- aux_ok_iff.
    destruct (pre_correction g) as [s|e]; cbn [bind]; [|split; [discriminate|intros [H _]; discriminate]].
    destruct (time_check offset_at s dur now) as [[]|e]; cbn [bind].
    - destruct (aux_ok a) eqn:E; [|split; [destruct a; discriminate|intros [_ [H _]]; discriminate]].
      replace (match a with AuxVolt _ => true | AuxText _ => true end) with true by (destruct a; reflexivity).
      destruct act; cbn; split; auto; try discriminate; [intros [_ [_ H]]; discriminate|intros [H _]; exact H].
    - split; [destruct a; try discriminate; destruct (aux_ok _); discriminate|intros [H _]; discriminate].
  Qed.

  Lemma harvest_err g dur now e : new_harvest g dur now = Err e ->
    e = ValueError \/ (g = GOther /\ e = AttributeError) \/ (exists us, g = GNumber us /\ too_far us = Some e).
  Proof.
    unfold StartModel.new_harvest. destruct (pre_correction g) as [s|e'] eqn:E; cbn [bind].
    - destruct (time_check offset_at s dur now) as [[]|e'] eqn:C; cbn [bind]; [discriminate|]. intros H. injection H as <-. left.
      apply (check_err s dur now e'); [|exact C]. intros w. exact (corrected_zone g s w E).
    - intros H. injection H as <-. destruct g as [|us|t|d|]; cbn [StartModel.pre_correction] in E.
      + discriminate.
      + destruct (too_far us) as [x|] eqn:F; [|discriminate]. injection E as <-. right. right. exists us. auto.
      + destruct (iso t); [discriminate|]. injection E as <-. auto.
      + discriminate.
      + injection E as <-. auto.
  Qed.

  (** Experiments *)
  Notation observers_from_xp := (observers_from_xp utc_of offset_at tz iso too_far strftime).

  Lemma all_observers name x dur act prep clock os : observers_from_xp name x dur act prep clock = Ok os ->
    Forall2 (fun c o => observer_from_xp utc_of offset_at tz iso too_far strftime name x dur act prep (fst c) (snd c) = Ok o) clock os.
  Proof.
    revert os. induction clock as [|[n1 n2] l IH]; cbn [StartModel.observers_from_xp]; intros os H.
    - injection H as <-. constructor.
    - destruct (observer_from_xp _ _ _ _ _ _ name x dur act prep n1 n2) as [o|] eqn:E; [|discriminate]. cbn [bind] in H.
      destruct (observers_from_xp name x dur act prep l) as [os'|] eqn:E2; [|discriminate]. cbn [bind] in H. injection H as <-.
      constructor; [exact E|]. apply IH. reflexivity.
  Qed.

  Lemma together name d dur act prep clock os :
    (match d with Naive w => exists_here utc_of offset_at w | _ => True end) ->
    observers_from_xp name (Some d) dur act prep clock = Ok os ->
    length os = length clock /\ exists i off,
      moment_means offset_at d i /\ Forall (fun c => snd c <= i) clock /\
      Forall (fun o => k_start (b_task o) = Some (Aware i off) /\ k_duration (b_task o) = dur /\
        b_dir o = ("experiments/" ++ name ++ "_" ++ strftime (shown d / 1000000))%string /\ earlier prep d (b_prep o)) os.
  Proof.
    intros Hd H. destruct (zone_means d Hd) as (i & off & Z1 & Z2). apply all_observers in H.
    assert (L : length os = length clock) by (clear -H; induction H; cbn; congruence).
    split; [exact L|]. exists i, off. split; [exact Z2|].
    assert (K : forall c o, observer_from_xp utc_of offset_at tz iso too_far strftime name (Some d) dur act prep (fst c) (snd c) = Ok o ->
      snd c <= i /\ k_start (b_task o) = Some (Aware i off) /\ k_duration (b_task o) = dur /\
      b_dir o = ("experiments/" ++ name ++ "_" ++ strftime (shown d / 1000000))%string /\ earlier prep d (b_prep o)).
    { intros c o. unfold observer_from_xp. cbn [start_of]. destruct (new_emulation (GMoment d) dur (AuxVolt 0) act (snd c)) as [e|] eqn:E; [|discriminate].
      cbn [bind]. intros G. injection G as <-. cbn [b_task b_dir b_prep]. apply emulation_iff in E. destruct E as [E _].
      unfold StartModel.new_harvest in E. cbn [StartModel.pre_correction bind] in E. rewrite Z1 in E.
      destruct (time_check offset_at (Some (Aware i off)) dur (snd c)) as [[]|] eqn:C; [|discriminate]. cbn [bind] in E. injection E as <-.
      apply (check_ok _ _ _ i off eq_refl) in C. cbn [k_start k_duration]. assert (P : earlier prep d (later d (- prep))) by (destruct d; cbn; auto with zarith). tauto. }
    split.
    - clear L. induction H as [|c o cl ol Hc _ IH]; constructor; [exact (proj1 (K c o Hc))|exact IH].
    - clear L. induction H as [|c o cl ol Hc _ IH]; constructor; [exact (proj2 (K c o Hc))|exact IH].
  Qed.

  Lemma at_once name dur act prep clock os : observers_from_xp name None dur act prep clock = Ok os ->
    Forall2 (fun c o => k_start (b_task o) = None /\ k_duration (b_task o) = dur /\
      b_dir o = ("experiments/" ++ name ++ "_" ++ strftime ((fst c + offset_at (fst c)) / 1000000 + 180))%string /\
      earlier prep (Aware (fst c + 180 * 1000000) (offset_at (fst c))) (b_prep o)) clock os.
  Proof.
    intros H. apply all_observers in H. induction H as [|c o cl ol Hc _ IH]; constructor; [|exact IH].
    unfold observer_from_xp in Hc. destruct (new_emulation GNone dur (AuxVolt 0) act (snd c)) as [e|] eqn:E; [|discriminate].
    cbn [bind] in Hc. injection Hc as <-. cbn [b_task b_dir b_prep start_of later shown earlier].
    apply emulation_iff in E. destruct E as [E _]. unfold StartModel.new_harvest in E. cbn [StartModel.pre_correction bind] in E.
    destruct (time_check offset_at None dur (snd c)) as [[]|]; [|discriminate]. cbn [bind] in E. injection E as <-. cbn [k_start k_duration].
    split; [reflexivity|]. split; [reflexivity|]. split; [|split; lia].
    replace (fst c + 180000000 + offset_at (fst c)) with (fst c + offset_at (fst c) + 180 * 1000000) by lia.
    rewrite Z.div_add by lia. reflexivity.
  Qed.
End Proofs.
