(** Proofs about the shipped testbed. *)
From Coq Require Import String ZArith QArith Bool List Lia.
From Verif Require Import PyBase FixModel FixSpec FixProofs TbModel TbSpec TbProofs BedData BedModel BedSpec.
Import ListNotations.
Open Scope Z_scope.
Open Scope list_scope.

Definition db : fixtures := match stocked with Ok x => x | Err _ => [] end.
Lemma stocked_ok : match stocked with Ok _ => true | Err _ => false end = true.
Proof. vm_cast_no_check (eq_refl true). Qed.
Lemma stocked_db : stocked = Ok db.
Proof. unfold db. pose proof stocked_ok as H. destruct stocked; [reflexivity|discriminate H]. Qed.

Definition named (s : string) : dict := [("name"%string, VStr s)].
Definition numbered (z : Z) : dict := [("id"%string, VInt z)].

Lemma bed_made k : make_testbed (10 + k) db [] = Ok bed.
Proof. vm_compute. reflexivity. Qed.
Lemma bed_by_id k : make_testbed (10 + k) db (numbered 1337) = Ok bed.
Proof. vm_compute. reflexivity. Qed.
Lemma bed_by_name k : make_testbed (10 + k) db (named "shepherd_tud_nes") = Ok bed.
Proof. vm_compute. reflexivity. Qed.
Lemma bed_valid : Forall (fun o => validate_observer o = Ok tt) (tb_observers bed) /\ validate_testbed bed = Ok tt.
Proof. split; [repeat constructor | vm_compute; reflexivity]. Qed.

(** * Single components *)

Definition loads {A} (make : dict -> res A) (number : A -> Z) (w : FixModel.wrapper) : Prop :=
  exists n i a, entry_name w = Some (VStr n) /\ entry_id w = Some (VInt i) /\
    make (named n) = Ok a /\ make (numbered i) = Ok a /\ number a = i.
Ltac each_loads :=
  repeat (constructor; [do 3 eexists; split; [reflexivity|]; split; [reflexivity|];
                        split; [vm_compute; reflexivity|]; split; [vm_compute; reflexivity | reflexivity]|]); constructor.
Lemma mcus_load k : Forall (loads (make_mcu (10 + k) db) m_id) BedData.mcus.
Proof. each_loads. Qed.
Lemma targets_load k : Forall (loads (make_target (10 + k) db) t_id) BedData.targets.
Proof. each_loads. Qed.
Lemma capes_load k : Forall (loads (make_cape (10 + k) db) c_id) BedData.capes.
Proof. each_loads. Qed.
Lemma observers_load k : Forall (loads (make_observer (10 + k) db) o_id) BedData.observers.
Proof. each_loads. Qed.

(** * Targets and their places *)

Definition known (id : Z) : Prop := 1 <= id <= 11 \/ id = 1001.
Lemma known_cases id : known id -> In id (map fst station).
Proof. unfold known. cbn [map fst station In]. lia. Qed.

Lemma served_target k id : known id -> db_target (served (10 + k) db) id = Some (if id =? 1001 then paper_node else node id).
Proof.
  intros H. apply known_cases in H. cbn [map fst station In] in H.
  repeat (destruct H as [<- | H]; [vm_compute; reflexivity|]). destruct H.
Qed.
Lemma served_firmware k : exists f, db_firmware (served (10 + k) db) "msp430_deep_sleep" = Some f /\ m_id (f_mcu f) = 1002.
Proof. eexists. split; [vm_compute; reflexivity | reflexivity]. Qed.

(** The observer of a target, by search. *)
Definition holder (id : Z) : res observer := get_observer bed id.
Lemma holder_known id o : holder id = Ok o -> known id /\ In (id, o_name o) station.
Proof.
  intros H. apply get_observer_ok in H. destruct H as [pre [post [E [[_ [p [t [P [T _]]]]] _]]]].
  assert (I : In o (tb_observers bed)) by (rewrite E; apply in_elt). clear E. unfold bed in I. cbn [tb_observers In] in I.
  unfold known. repeat (destruct I as [<- | I];
    [destruct p; cbn in P; (discriminate P || (injection P as <-; cbn in T; subst id; split; [lia | cbn; tauto]))|]). destruct I.
Qed.
Lemma known_holder id n : In (id, n) station -> exists o, holder id = Ok o /\ o_name o = n.
Proof.
  cbn [station In]. intros H.
  repeat (destruct H as [H | H]; [injection H as <- <-; eexists; split; [vm_compute; reflexivity | reflexivity]|]). destruct H.
Qed.

(** Different targets are on different observers, but for one pair. *)
Definition place (id : Z) : Z := match holder id with Ok o => o_id o | Err _ => -1 end.
Lemma places : forallb (fun i => forallb (fun j => negb (place i =? place j) || (i =? j) ||
                                  ((i =? 1) && (j =? 1001)) || ((i =? 1001) && (j =? 1))) (map fst station)) (map fst station) = true.
Proof. vm_compute. reflexivity. Qed.
Lemma place_inj i j : known i -> known j -> place i = place j -> i = j \/ i = 1 /\ j = 1001 \/ i = 1001 /\ j = 1.
Proof.
  intros A B E. apply known_cases in A, B. pose proof places as P. rewrite forallb_forall in P. specialize (P i A).
  rewrite forallb_forall in P. specialize (P j B). apply Z.eqb_eq in E. rewrite E in P. cbn [negb orb] in P.
  apply orb_prop in P as [P|P]; [apply orb_prop in P as [P|P]|].
  - left. now apply Z.eqb_eq.
  - apply andb_prop in P as [P Q]. apply Z.eqb_eq in P, Q. auto.
  - apply andb_prop in P as [P Q]. apply Z.eqb_eq in P, Q. auto.
Qed.

Lemma places_once ids : Forall known ids -> NoDup ids -> ~ (In 1 ids /\ In 1001 ids) -> NoDup (map place ids).
Proof.
  induction ids as [|i ids IH]; intros K N P; [constructor|].
  inversion K as [|? ? K1 K2]; subst. inversion N as [|? ? N1 N2]; subst. cbn [map]. constructor.
  - rewrite in_map_iff. intros [j [E J]]. rewrite Forall_forall in K2.
    destruct (place_inj _ _ (K2 _ J) K1 E) as [->|[[-> ->]|[-> ->]]].
    + contradiction.
    + apply P. cbn. tauto.
    + apply P. cbn. tauto.
  - apply IH; [exact K2 | exact N2|]. intros [A B]. apply P. cbn. tauto.
Qed.
Lemma same_place ids : NoDup (map place ids) -> ~ (In 1 ids /\ In 1001 ids).
Proof.
  intros N [A B]. apply in_split in A as [l1 [l2 ->]]. rewrite map_app in N. cbn [map] in N. apply NoDup_remove_2 in N.
  apply N. rewrite <- map_app. replace (place 1) with (place 1001) by (vm_compute; reflexivity).
  apply in_map. apply in_app_iff in B as [B|[B|B]]; [|discriminate B|]; apply in_app_iff; auto.
Qed.

Lemma holders ids : Forall known ids ->
  exists obs, Forall2 (reaches bed) ids obs /\ map o_id obs = map place ids.
Proof.
  induction 1 as [|i ids K _ [obs [F M]]]; [exists []; split; [constructor | reflexivity]|].
  apply known_cases in K. apply in_map_iff in K as [[i' n] [<- K]]. cbn [fst].
  destruct (known_holder _ _ K) as [o [H _]]. exists (o :: obs). split.
  - constructor; [now apply get_observer_ok | exact F].
  - cbn [map]. f_equal; [|exact M]. unfold place. now rewrite H.
Qed.
Lemma holders_known ids obs : Forall2 (reaches bed) ids obs -> Forall known ids /\ map o_id obs = map place ids.
Proof.
  induction 1 as [|i o ids obs R _ [K M]]; [split; [constructor | reflexivity]|].
  apply get_observer_ok in R. fold (holder i) in R. split.
  - constructor; [exact (proj1 (holder_known _ _ R)) | exact K].
  - cbn [map]. f_equal; [|exact M]. unfold place. now rewrite R.
Qed.

(** * Experiments *)

Lemma in_targets x g id : In g (x_configs x) -> In id (g_targets g) -> In id (all_targets x).
Proof. intros G I. unfold all_targets. apply in_concat. exists (g_targets g). split; [now apply in_map | exact I]. Qed.

Lemma experiments k x : validate_experiment (served (10 + k) db) bed x = Ok tt <-> fitting x.
Proof.
  rewrite experiment_ok. split.
  - intros [S [N [R [[obs [F D]] T]]]]. rewrite Forall_forall in S. destruct (holders_known _ _ F) as [K M].
    assert (Kn : forall id, In id (all_targets x) -> known id) by (rewrite <- Forall_forall; exact K).
    constructor.
    + intros g G. apply S, G.
    + intros g G E. destruct (g_targets g) as [|id l] eqn:Q; [contradiction|].
      assert (I : In id (g_targets g)) by (rewrite Q; now left).
      destruct (S g G) as [_ [H _]]. destruct (H id I) as [t [L [P _]]].
      rewrite (served_target k id (Kn _ (in_targets _ _ _ G I))) in L. injection L as <-.
      destruct (P _ eq_refl) as [f [[E'|[E' _]] M']]; [|discriminate E']. injection E' as <-. rewrite M'.
      destruct (id =? 1001); reflexivity.
    + intros g id f G I X E. destruct (S g G) as [_ [H _]]. destruct (H id I) as [t [L [_ P]]].
      rewrite (served_target k id (Kn _ (in_targets _ _ _ G I))) in L. destruct (Z.eqb_spec id 1001); [contradiction|].
      injection L as <-. destruct (P _ eq_refl) as [f' [[E'|[E' _]] M']]; [|congruence].
      rewrite E in E'. injection E' as <-. exact M'.
    + intros g c G E. destruct (S g G) as [_ [_ H]]. exact (H c E).
    + exact Kn.
    + exact N.
    + rewrite M in D. exact (same_place _ D).
    + exact R.
    + exact T.
  - intros [A B C E K N P R T]. split; [|split; [exact N|split; [exact R|split; [|exact T]]]].
    + rewrite Forall_forall. intros g G. split; [exact (A g G)|]. split; [|intros c; exact (E g c G)].
      intros id I. exists (if id =? 1001 then paper_node else node id).
      split; [apply served_target, K; exact (in_targets _ _ _ G I)|]. split.
      * intros m M. exists (g_fw1 g). split; [now left|]. rewrite (B g G) by (intros Q; rewrite Q in I; destruct I).
        injection M as <-. destruct (id =? 1001); reflexivity.
      * intros m M. destruct (Z.eqb_spec id 1001) as [->|X]; [discriminate M|]. injection M as <-.
        destruct (g_fw2 g) as [f|] eqn:F2.
        { exists f. split; [now left|]. exact (C g id f G I X F2). }
        destruct (served_firmware k) as [f [F M]]. exists f. split; [right; split; [reflexivity | exact F]|exact M].
    + assert (Kn : Forall known (all_targets x)) by (rewrite Forall_forall; exact K).
      destruct (holders _ Kn) as [obs [F M]]. exists obs. split; [exact F|]. rewrite M. now apply places_once.
Qed.

Lemma bed_own_ids : own_ids bed.
Proof.
  intros o p t I L. unfold bed in I. cbn [tb_observers In] in I.
  repeat (destruct I as [<- | I]; [destruct p; cbn in L; (discriminate L || (injection L as <-; reflexivity))|]). destruct I.
Qed.
Lemma bed_no_twin : no_twin bed.
Proof.
  intros o a b I A B. unfold bed in I. cbn [tb_observers In] in I.
  repeat (destruct I as [<- | I]; [cbn in A, B; (discriminate B || (injection A as <-; discriminate))|]). destruct I.
Qed.
