(** Properties of testbeds, experiments and tasks (C46 - C50, C59, C60).
    Vocabulary: TbSpec.v; code: TbModel.v. *)
From Coq Require Import QArith String Ascii.
From Verif Require Import PyBase FixModel TbModel TbSpec TbProofs.
Open Scope Z_scope.
Open Scope list_scope.
Open Scope string_scope.

(** * A testbed used in the examples *)

Definition nrf : mcu := mkMcu 1 "nRF52" 3 500000 "nrf_sleep" 0.
Definition msp : mcu := mkMcu 2 "MSP430FR" 3 500000 "msp_sleep" 0.
Definition blink : firmware := mkFw nrf 100 1.
Definition sleep : firmware := mkFw msp 200 1.
Definition cape_n (n : Z) : option cape := Some (mkCape n true 0).

Definition tgt (id : Z) : target := mkTarget id (testbed_id None id) true nrf (Some msp) 0.
Definition sheep (n : Z) (name eth : string) (t : Z) : observer :=
  mkObs n name n n eth true (cape_n n) (Some (tgt t)) None.

Definition farm : testbed :=
  mkTb [ sheep 1 "sheep1" "e1" 11;
         mkObs 2 "sheep2" 2 2 "e2" false (cape_n 2) (Some (tgt 12)) None;
         mkObs 3 "sheep3" 3 3 "e3" true (cape_n 3) (Some (tgt 13)) (Some (tgt 14)) ]
       true ["var"; "shepherd"] 300.

Definition db : database :=
  mkDb (fun id => if Z.ltb 0 id && Z.ltb id 100000 then Some (tgt id) else None)
       (fun n => if String.eqb n "msp_sleep" then Some sleep else None).

Definition cfg (ids : list Z) (customs : option (list Z)) (fw2 : option firmware) : config :=
  mkCfg ids customs true 7 blink fw2 true false 0.

Definition xp1 : experiment :=
  mkXp "test" None (Some 5000) (Some 60) false
       [cfg [11] None None; cfg [14] (Some [3; 4]) (Some sleep)] 0.

Definition stamp (t : Z) : string := str (VInt t).
Definition early (n : nat) : Z := 1000.

(** * C50 Looking up the observer of a target *)

(** The outcome in all cases: the first observer in service with the active target is found;
    without one a ValueError follows; an active observer without cape makes the search crash. *)
Theorem C50_found_iff_partial :
  forall tb id o, get_observer tb id = Ok o <-> reaches tb id o.
Proof. exact get_observer_ok. Qed.
Print Assumptions C50_found_iff_partial.

Theorem C50_missing_iff_partial :
  forall tb id,
    get_observer tb id = Err ValueError <->
    Forall (fun q => ~ offers q id /\ ~ capeless q) (tb_observers tb).
Proof. exact get_observer_missing. Qed.
Print Assumptions C50_missing_iff_partial.

(** An observer has a port exactly for the active targets on it. *)
Theorem C50_port_of_active_partial :
  forall o id, (exists q, get_target_port o id = Ok q) <-> exists p, carries o p id.
Proof.
  intros o id. rewrite <- has_target_spec. unfold get_target_port. split.
  - intros [q H]. destruct (has_target o id); [reflexivity | discriminate].
  - intros H. rewrite H. destruct (id_is id (o_target_a o)) eqn:Ea; [eauto|].
    destruct (id_is id (o_target_b o)) eqn:Eb; [eauto|]. exfalso.
    unfold has_target, active_with, id_is in *.
    destruct (o_target_a o) as [a|], (o_target_b o) as [b|]; rewrite ?Ea, ?Eb in H; discriminate H.
Qed.
Print Assumptions C50_port_of_active_partial.

(** With a cape on every active observer there is nothing else. *)
Theorem C50_all_capes_partial :
  forall tb id, all_capes tb ->
    (exists o, get_observer tb id = Ok o /\ reaches tb id o) \/
    (get_observer tb id = Err ValueError /\
     forall o, In o (tb_observers tb) -> ~ offers o id).
Proof.
  intros tb id A. destruct (get_observer_total tb id) as [[o H]|[H|H]].
  - left. exists o. split; [exact H | now apply get_observer_ok].
  - right. split; [exact H|]. apply get_observer_missing in H. rewrite Forall_forall in H.
    intros o I. now apply H.
  - exfalso. apply get_observer_crash in H. destruct H as [pre [q [post [E [C _]]]]].
    unfold all_capes in A. rewrite E, Forall_app in A. destruct A as [_ A]. now inversion A.
Qed.
Print Assumptions C50_all_capes_partial.

(** An accepted testbed in which the lookup of an existing target crashes: an active observer
    without cape is listed first. *)
Theorem C50_capeless_refuted :
  exists tb id o,
    Forall (fun o => validate_observer o = Ok tt) (tb_observers tb) /\
    validate_testbed tb = Ok tt /\ In o (tb_observers tb) /\ offers o id /\
    get_observer tb id = Err AttributeError.
Proof.
  exists (mkTb [mkObs 0 "spare" 0 0 "e0" true None None None; sheep 1 "sheep1" "e1" 11]
            true ["var"] 300), 11%Z, (sheep 1 "sheep1" "e1" 11).
  split; [repeat constructor|]. split; [reflexivity|]. split; [right; now left|].
  split; [|reflexivity]. split.
  - split; [reflexivity|]. eexists. split; reflexivity.
  - exists PortA. eexists. repeat split.
Qed.
Print Assumptions C50_capeless_refuted.

Example C50_example :
  get_observer farm 14 =
    Ok (mkObs 3 "sheep3" 3 3 "e3" true (cape_n 3) (Some (tgt 13)) (Some (tgt 14))) /\
  get_observer farm 12 = Err ValueError /\ get_observer farm 99 = Err ValueError.
Proof. repeat split. Qed.

(** * C46 Validation of experiments *)

(** An experiment is accepted exactly when every configuration is sound, no target occurs
    twice, no requested id occurs twice, and the targets are reached through pairwise distinct
    observers. *)
Theorem C46_accepted_iff :
  forall db tb x,
    validate_experiment db tb x = Ok tt <->
    Forall (sound_config db) (x_configs x) /\
    NoDup (all_targets x) /\ NoDup (flat_map requested (x_configs x)) /\
    (exists obs, Forall2 (reaches tb) (all_targets x) obs /\ NoDup (map o_id obs)) /\
    (forall d, x_duration x = Some d -> 0 <= d)%Z.
Proof. exact experiment_ok. Qed.
Print Assumptions C46_accepted_iff.

(** The assignment that follows: existing, distinct targets, distinct active observers, one
    configuration for each target, which is also the one the code finds. *)
Theorem C46_assignment :
  forall db tb x,
    validate_experiment db tb x = Ok tt ->
    (forall id, In id (all_targets x) -> exists t, db_target db id = Some t) /\
    NoDup (all_targets x) /\
    (exists obs, NoDup (map o_id obs) /\
       Forall2 (fun id o => In o (tb_observers tb) /\ usable o /\ exists p, carries o p id)
         (all_targets x) obs) /\
    (forall id, In id (all_targets x) ->
       exists g, get_target_config x id = Ok g /\ only_config x id g).
Proof.
  intros db0 tb x H. apply experiment_ok in H. destruct H as [C [N [_ [[obs [F D]] _]]]].
  split.
  { intros id I. unfold all_targets in I. apply in_concat in I. destruct I as [l [L I]].
    apply in_map_iff in L. destruct L as [g [<- G]]. rewrite Forall_forall in C.
    destruct (C g G) as [_ [X _]]. destruct (X id I) as [t [T _]]. eauto. }
  split; [exact N|]. split.
  { exists obs. split; [exact D|]. eapply forall2_impl; [|exact F].
    intros id o _ [pre [post [-> [[U P] _]]]]. split; [apply in_elt|]. auto. }
  intros id I. destruct (target_config_ok x id N I) as [g [G [_ O]]]. eauto.
Qed.
Print Assumptions C46_assignment.

(** An unknown target is refused as a wrong value. *)
Theorem C46_unknown_target :
  forall db x id, In id (all_targets x) -> db_target db id = None -> validate_targets db x = Err ValueError.
Proof.
  intros db0 x id I N. unfold validate_targets.
  replace (get_target_ids x) with (all_targets x) by (unfold get_target_ids, all_targets; now rewrite flat_map_concat_map).
  assert (E : each (load_target db0) (all_targets x) = Err ValueError).
  { induction (all_targets x) as [|a l IH]; [contradiction|]. cbn [each]. unfold load_target at 1.
    destruct (db_target db0 a) as [t|] eqn:A; [|reflexivity]. cbn [bind].
    destruct I as [-> | I]; [congruence|]. rewrite (IH I). reflexivity. }
  rewrite E. reflexivity.
Qed.
Print Assumptions C46_unknown_target.

Example C46_example :
  validate_experiment db farm xp1 = Ok tt /\
  (* the same target twice *)
  validate_experiment db farm (mkXp "t" None None None false [cfg [11] None None;
     cfg [11] (Some [5]%Z) None] 0) = Err ValueError /\
  (* two targets of one observer *)
  validate_experiment db farm (mkXp "t" None None None false [cfg [13; 14] None None] 0)
    = Err ValueError /\
  (* a target on a decommissioned observer *)
  validate_experiment db farm (mkXp "t" None None None false [cfg [12] None None] 0)
    = Err ValueError /\
  (* requested ids collide *)
  validate_experiment db farm (mkXp "t" None None None false [cfg [11] (Some [14]%Z) None;
     cfg [14] None None] 0) = Err ValueError.
Proof. repeat split. Qed.

(** * C47 Distinct firmware ids *)

(** Two targets of an accepted experiment get the same id in their firmware: 1 and 65537 are
    different ids, but only the lower 16 bit are used. *)
Theorem C47_modulo_refuted :
  exists db tb x clock t1 t2 m1 m2,
    accepted db tb x /\ tasks_from_xp stamp x tb clock = Ok [t1; t2] /\
    ot_fw1_mod t1 = Some m1 /\ ot_fw1_mod t2 = Some m2 /\ fm_custom_id m1 = fm_custom_id m2.
Proof.
  exists db, (mkTb [sheep 1 "sheep1" "e1" 1; sheep 2 "sheep2" "e2" 65537] true ["var"] 300),
    (mkXp "t" None None None false [cfg [1; 65537] None None] 0), early.
  do 4 eexists. split.
  - split; [repeat constructor|]. split; reflexivity.
  - split; [vm_compute; reflexivity|]. repeat split.
Qed.
Print Assumptions C47_modulo_refuted.

(** If every target of the testbed carries its own id, the ids are distinct. *)
Theorem C47_own_ids_partial :
  forall strftime db tb x clock ts,
    validate_experiment db tb x = Ok tt -> own_ids tb ->
    tasks_from_xp strftime x tb clock = Ok ts ->
    exists mods, map ot_fw1_mod ts = map Some mods /\
      List.length mods = List.length (all_targets x) /\ NoDup (map fm_custom_id mods).
Proof.
  intros strftime db0 tb x clock ts V O T.
  destruct (firmware_ids_distinct strftime db0 tb x clock ts V O T) as [L N].
  exists (present (map ot_fw1_mod ts)). unfold mod_ids in L, N. rewrite map_length in L.
  split; [|split; [exact L | exact N]].
  pose proof (tasks_inv strftime _ _ _ _ _ V T) as F. clear -F.
  induction F as [|id t ids ts H F IH]; [reflexivity|]. simpl.
  destruct H as [o [g [root [m1 [m2 [p1 [p2 [e [p [ta [z H]]]]]]]]]]].
  destruct H as [_ [_ [_ [_ [_ [_ [_ H]]]]]]]. cbn zeta in H. destruct H as [E _].
  rewrite E. simpl. f_equal. exact IH.
Qed.
Print Assumptions C47_own_ids_partial.

(** Ids below 2^16 are kept. *)
Theorem C47_small_ids_partial :
  forall id, (0 <= id < 2 ^ 16)%Z -> testbed_id None id = id.
Proof. intros id H. apply Z.mod_small. exact H. Qed.
Print Assumptions C47_small_ids_partial.

(** * C48 Tasks of an experiment *)

(** The translation succeeds if nothing is refused on the way, ... *)
Theorem C48_translates_partial :
  forall strftime db tb x clock,
    accepted db tb x -> translatable x clock ->
    exists ts, tasks_from_xp strftime x tb clock = Ok ts.
Proof. exact tasks_all. Qed.
Print Assumptions C48_translates_partial.

(** ... and produces one task set per target, for the observer that carries it, in the right
    order. *)
Theorem C48_one_set_per_target_partial :
  forall strftime db tb x clock ts,
    validate_experiment db tb x = Ok tt -> no_twin tb ->
    tasks_from_xp strftime x tb clock = Ok ts ->
    Forall2 (fun id t => exists o g, reaches tb id o /\ only_config x id g /\
               ot_observer t = o_name o /\ proper_tasks o x g id (get_tasks t))
      (all_targets x) ts.
Proof. exact tasks_proper. Qed.
Print Assumptions C48_one_set_per_target_partial.

(** What is programmed is within the limits of the programmer. *)
Theorem C48_programmed_fits :
  forall x tb id p file t, prog_from_xp x tb id p file = Ok (Some t) ->
    exists g f, In g (x_configs x) /\ In id (g_targets g) /\ firmware_for g p = Some f /\ programmable (f_mcu f).
Proof. exact prog_fits. Qed.
Print Assumptions C48_programmed_fits.

(** An accepted experiment that cannot be translated: the controller takes 5 V, the task only
    less; or GPIO actuation is requested. *)
Theorem C48_voltage_refuted :
  exists db tb x, accepted db tb x /\
    forall clock, tasks_from_xp stamp x tb clock = Err ValueError.
Proof.
  set (m := mkMcu 1 "nRF52" 5 500000 "nrf_sleep" 0).
  set (t := mkTarget 11 11 true m None 0).
  exists (mkDb (fun _ => Some t) (fun _ => None)),
    (mkTb [mkObs 1 "sheep1" 1 1 "e1" true (cape_n 1) (Some t) None] true ["var"] 300),
    (mkXp "t" None None None false [mkCfg [11%Z] None true 7 (mkFw m 1 1) None true false 0] 0).
  split; [|reflexivity]. split; [repeat constructor|]. split; reflexivity.
Qed.
Print Assumptions C48_voltage_refuted.

Theorem C48_actuation_refuted :
  exists db tb x, accepted db tb x /\
    forall clock, tasks_from_xp stamp x tb clock = Err ValueError.
Proof.
  exists db, farm,
    (mkXp "t" None None None false [mkCfg [11%Z] None true 7 blink None true true 0] 0).
  split; [|reflexivity]. split; [repeat constructor|]. split; reflexivity.
Qed.
Print Assumptions C48_actuation_refuted.

(** With an inactive target on port A that has the id of the active one on port B (the testbed
    is accepted as the two differ in another field), the tasks address port A. *)
Theorem C48_port_refuted :
  exists db tb x clock t e,
    accepted db tb x /\ tasks_from_xp stamp x tb clock = Ok [t] /\
    ot_emulation t = Some e /\ em_pwr_port e = PortA /\
    forall o, In o (tb_observers tb) -> ~ carries o PortA 11.
Proof.
  exists db,
    (mkTb [mkObs 1 "sheep1" 1 1 "e1" true (cape_n 1)
             (Some (mkTarget 11 11 false nrf None 0)) (Some (tgt 11))] true ["var"] 300),
    (mkXp "t" None None None false [cfg [11] None None] 0), early.
  do 2 eexists. split.
  - split; [repeat constructor|]. split; reflexivity.
  - split; [vm_compute; reflexivity|]. split; [reflexivity|]. split; [reflexivity|].
    intros o [<-|[]] [t [E [_ A]]]. simpl in E. injection E as <-. discriminate.
Qed.
Print Assumptions C48_port_refuted.

Example C48_example :
  exists t1 t2,
    tasks_from_xp stamp xp1 farm early = Ok [t1; t2] /\
    ot_observer t1 = "sheep1" /\ ot_observer t2 = "sheep3" /\
    let root := ["var"; "shepherd"; "experiments"; "test_5000"] in
    get_tasks t2 =
      [ TMod (mkMod 100 1 3 (root ++ ["fw1_sheep3.hex"])%list);
        TMod (mkMod 200 1 3 (root ++ ["fw2_sheep3.hex"])%list);
        TProg (mkProg (root ++ ["fw1_sheep3.hex"])%list PortB Mcu1 "nRF52" 3 500000);
        TProg (mkProg (root ++ ["fw2_sheep3.hex"])%list PortB Mcu2 "MSP430FR" 3 500000);
        TEmu (mkEmu 7 (root ++ ["emu_sheep3.h5"])%list (Some 5000%Z) (Some 60%Z) false true
                PortB PortB 0) ].
Proof. do 2 eexists. split; [vm_compute; reflexivity|]. repeat split. Qed.

(** * C49 Output files *)

(** With distinct observer names no file is written by two tasks, and the dictionary of
    outputs lists one file for each target. *)
Theorem C49_distinct_files_partial :
  forall strftime db tb x clock ts,
    validate_experiment db tb x = Ok tt -> NoDup (map o_name (tb_observers tb)) ->
    tasks_from_xp strftime x tb clock = Ok ts ->
    NoDup (flat_map written (flat_map get_tasks ts)) /\
    List.length ts = List.length (all_targets x) /\
    Forall2 (fun t kv => fst kv = ot_observer t /\
               exists e, ot_emulation t = Some e /\ snd kv = em_output e)
      ts (get_output_paths ts) /\
    (forall t, In t ts -> get_observer_tasks ts (ot_observer t) = Some t).
Proof.
  intros strftime db0 tb x clock ts V N T.
  split; [exact (files_distinct strftime db0 tb x clock ts V N T)|].
  destruct (outputs_dict strftime db0 tb x clock ts V N T) as [E [L F]].
  split; [exact L|]. split; [rewrite E; exact F|].
  intros t I. apply tasks_by_name; [|exact I].
  exact (names_distinct strftime db0 tb x clock ts V N T).
Qed.
Print Assumptions C49_distinct_files_partial.

(** Observer names may repeat in an accepted testbed: both recordings go to one file and the
    dictionary of outputs misses one. *)
Theorem C49_same_name_refuted :
  exists db tb x clock t1 t2 e1 e2,
    accepted db tb x /\ tasks_from_xp stamp x tb clock = Ok [t1; t2] /\
    ot_emulation t1 = Some e1 /\ ot_emulation t2 = Some e2 /\ em_output e1 = em_output e2 /\
    List.length (get_output_paths [t1; t2]) = 1%nat.
Proof.
  exists db, (mkTb [sheep 1 "sheep" "e1" 11; sheep 2 "sheep" "e2" 12] true ["var"] 300),
    (mkXp "t" None None None false [cfg [11; 12] None None] 0), early.
  do 4 eexists. split.
  - split; [repeat constructor|]. split; reflexivity.
  - split; [vm_compute; reflexivity|]. repeat split.
Qed.
Print Assumptions C49_same_name_refuted.

Example C49_example :
  exists ts, tasks_from_xp stamp xp1 farm early = Ok ts /\
    get_output_paths ts =
      [("sheep1", ["var"; "shepherd"; "experiments"; "test_5000"; "emu_sheep1.h5"]);
       ("sheep3", ["var"; "shepherd"; "experiments"; "test_5000"; "emu_sheep3.h5"])].
Proof. eexists. split; vm_compute; reflexivity. Qed.

(** * C59 Validation of testbeds *)

(** A testbed is accepted exactly when the observers differ in id, address, MAC and ethernet
    port, no cape occurs twice and no two targets agree in all their fields. *)
Theorem C59_accepted_iff_partial :
  forall tb,
    validate_testbed tb = Ok tt <->
    NoDup (map o_id (tb_observers tb)) /\ NoDup (map o_ip (tb_observers tb)) /\
    NoDup (map o_mac (tb_observers tb)) /\ NoDup (map o_eth (tb_observers tb)) /\
    NoDup (capes tb) /\ ForallOrdPairs (fun a b => ~ same_target a b) (plugged_targets tb) /\
    (0 <= tb_prep_duration tb)%Z /\ tb_shared_storage tb = true.
Proof. exact testbed_spec. Qed.
Print Assumptions C59_accepted_iff_partial.

(** Targets only sit on observers with a cape. *)
Theorem C59_cape_for_targets_partial :
  forall o, validate_observer o = Ok tt <->
    (o_cape o = None -> o_target_a o = None /\ o_target_b o = None).
Proof.
  intros o. rewrite observer_ok. unfold targets_of.
  destruct (o_cape o), (o_target_a o), (o_target_b o); simpl; split; intros H;
    try discriminate; auto; intros _; specialize (H eq_refl);
    try discriminate; destruct H; discriminate.
Qed.
Print Assumptions C59_cape_for_targets_partial.

(** The same target id on two observers passes if another field differs, for instance the
    time of creation, which defaults to the current time. *)
Theorem C59_target_twice_refuted :
  exists tb o1 o2,
    validate_testbed tb = Ok tt /\ tb_observers tb = [o1; o2] /\
    offers o1 11 /\ offers o2 11.
Proof.
  exists (mkTb [sheep 1 "sheep1" "e1" 11;
     mkObs 2 "sheep2" 2 2 "e2" true (cape_n 2) (Some (mkTarget 11 11 true nrf (Some msp) 1)) None]
     true ["var"] 300).
  do 2 eexists. split; [reflexivity|]. split; [reflexivity|].
  split; (split; [split; [reflexivity|]; eexists; split; reflexivity|]);
    exists PortA; eexists; repeat split.
Qed.
Print Assumptions C59_target_twice_refuted.

Example C59_example :
  validate_testbed farm = Ok tt /\
  validate_testbed (mkTb [sheep 1 "a" "e1" 11; sheep 2 "b" "e2" 11] true [] 0) = Err ValueError /\
  validate_testbed (mkTb [sheep 1 "a" "e1" 11; sheep 2 "b" "e1" 12] true [] 0) = Err ValueError.
Proof. repeat split. Qed.

(** * C60 Firmware fits the controller *)

(** Every programmed firmware was built for the kind of controller the target has. *)
Theorem C60_programmed_fits_partial :
  forall strftime db tb x clock ts,
    validate_experiment db tb x = Ok tt -> tasks_from_xp strftime x tb clock = Ok ts ->
    Forall2 (fun id t => exists g d, only_config x id g /\ db_target db id = Some d /\
      (exists p, ot_fw1_prog t = Some p /\ pr_mcu_type p = m_name (f_mcu (g_fw1 g))) /\
      m_id (f_mcu (g_fw1 g)) = m_id (t_mcu1 d) /\
      (forall p, ot_fw2_prog t = Some p -> exists f, g_fw2 g = Some f /\
         pr_mcu_type p = m_name (f_mcu f) /\
         forall m, t_mcu2 d = Some m -> m_id (f_mcu f) = m_id m)) (all_targets x) ts.
Proof. exact programmed_fits. Qed.
Print Assumptions C60_programmed_fits_partial.

(** A firmware for controller 2 is accepted, modified and programmed although the target has
    no second controller. *)
Theorem C60_no_controller_refuted :
  exists db tb x clock d t p,
    accepted db tb x /\ all_targets x = [11%Z] /\ db_target db 11 = Some d /\ t_mcu2 d = None /\
    tasks_from_xp stamp x tb clock = Ok [t] /\ ot_fw2_prog t = Some p.
Proof.
  set (d := mkTarget 11 11 true nrf None 0).
  exists (mkDb (fun _ => Some d) (fun _ => None)),
    (mkTb [mkObs 1 "sheep1" 1 1 "e1" true (cape_n 1) (Some d) None] true ["var"] 300),
    (mkXp "t" None None None false [cfg [11] None (Some sleep)] 0), early, d.
  do 2 eexists. split.
  - split; [repeat constructor|]. split; reflexivity.
  - split; [reflexivity|]. split; [reflexivity|]. split; [reflexivity|].
    split; [vm_compute; reflexivity|]. reflexivity.
Qed.
Print Assumptions C60_no_controller_refuted.

Example C60_example :
  validate_config db (mkCfg [11%Z] None true 7 sleep None true false 0) = Err ValueError /\
  validate_config db (mkCfg [11%Z] None true 7 blink (Some blink) true false 0) = Err ValueError /\
  validate_config db (mkCfg [11%Z] None true 7 blink (Some sleep) true false 0) = Ok tt.
Proof. repeat split. Qed.

(** A testbed that is not accepted is refused as a wrong value. *)
Theorem C59_refused : forall tb, validate_testbed tb <> Ok tt -> validate_testbed tb = Err ValueError.
Proof. intros tb. unfold validate_testbed. repeat (destruct (if _ then _ else _) || match goal with |- context [if ?c then _ else _] => destruct c end); congruence. Qed.
Print Assumptions C59_refused.

(** What is asked of an observer: a target it has, or there is no such key. *)
Theorem C50_target_or_key : forall o id, (exists t, get_target o id = Ok t /\ t_id t = id) \/ get_target o id = Err KeyError.
Proof.
  intros o id. unfold get_target. destruct (has_target o id); [|now right]. destruct (o_target_a o) as [a|], (o_target_b o) as [b|]; try (now right).
  - destruct (Z.eqb_spec id (t_id a)); [left; eauto|]. destruct (Z.eqb_spec id (t_id b)); [left; eauto|now right].
  - destruct (Z.eqb_spec id (t_id a)); [left; eauto|now right].
  - destruct (Z.eqb_spec id (t_id b)); [left; eauto|now right].
Qed.
Print Assumptions C50_target_or_key.

(** No emulation starts in the past, lasts a negative time or needs actuation: all are wrong values. *)
Theorem C48_times : forall x tb id root now o g p, get_observer tb id = Ok o -> get_target_config x id = Ok g -> get_target_port o id = Ok p ->
  ((exists t, x_time_start x = Some t /\ t < now) \/ (exists d, x_duration x = Some d /\ d < 0) \/ g_actuation g = true) <->
  emu_from_xp x tb id root now = Err ValueError.
Proof.
  intros x tb id root now o g p O G P. unfold emu_from_xp. rewrite O. cbn [bind]. rewrite G. cbn [bind]. rewrite P. cbn [bind].
  destruct (x_time_start x) as [t|]; [destruct (Z.ltb_spec t now)|]; (destruct (x_duration x) as [d|]; [destruct (Z.ltb_spec d 0)|]); destruct (g_actuation g);
    split; intros W; try reflexivity; try discriminate; try (left; eexists; split; [reflexivity|lia]); try (right; left; eexists; split; [reflexivity|lia]); try (now right; right);
    destruct W as [(u & E & L)|[(u & E & L)|E]]; try discriminate; injection E as <-; lia.
Qed.
Print Assumptions C48_times.
