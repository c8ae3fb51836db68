(** The shipped testbed and the experiments it takes (C132).
    Vocabulary: TbSpec.v, BedSpec.v; code: BedModel.v (components from the fixtures), TbModel.v (experiments, tasks). *)
From Coq Require Import String ZArith QArith Bool List Lia.
From Verif Require Import PyBase FixModel FixSpec TbModel TbSpec TbProofs BedData BedModel BedSpec BedProofs BedLimits BedTarget.
Import ListNotations.
Open Scope Z_scope.
Open Scope list_scope.

(** The files are taken without complaint, ... *)
Theorem C132_database : stocked = Ok db.
Proof. exact stocked_db. Qed.
Print Assumptions C132_database.

(** ... every component in them can be made by name and by id, with the same result, ... *)
Theorem C132_components : forall k,
  Forall (loads (make_mcu (10 + k) db) m_id) BedData.mcus /\ Forall (loads (make_target (10 + k) db) t_id) BedData.targets /\
  Forall (loads (make_cape (10 + k) db) c_id) BedData.capes /\ Forall (loads (make_observer (10 + k) db) o_id) BedData.observers.
Proof. intros k. exact (conj (mcus_load k) (conj (targets_load k) (conj (capes_load k) (observers_load k)))). Qed.
Print Assumptions C132_components.

(** ... and Testbed() is the testbed of the group, as is Testbed(id=1337) and Testbed(name="shepherd_tud_nes"). *)
Theorem C132_testbed : forall k,
  make_testbed (10 + k) db [] = Ok bed /\ make_testbed (10 + k) db (numbered 1337) = Ok bed /\
  make_testbed (10 + k) db (named "shepherd_tud_nes") = Ok bed.
Proof. intros k. exact (conj (bed_made k) (conj (bed_by_id k) (bed_by_name k))). Qed.
Print Assumptions C132_testbed.

(** The target with that id is found on that observer, and on no other. *)
Theorem C132_reach : forall id n, (exists o, reaches bed id o /\ o_name o = n) <-> In (id, n) station.
Proof.
  intros id n. split.
  - intros [o [R <-]]. apply get_observer_ok in R. exact (proj2 (holder_known _ _ R)).
  - intros I. destruct (known_holder _ _ I) as [o [H N]]. exists o. split; [now apply get_observer_ok | exact N].
Qed.
Print Assumptions C132_reach.

(** Exactly the fitting experiments are accepted: targets 1 to 11 and 1001, none twice, not 1 together with 1001; a
    firmware for the nRF52, and none or one for the MSP430; enough ids, all different. *)
Theorem C132_experiments : forall k x, accepted (served (10 + k) db) bed x <-> fitting x.
Proof.
  intros k x. rewrite <- (experiments k). unfold accepted. destruct bed_valid as [A B]. tauto.
Qed.
Print Assumptions C132_experiments.

(** Their tasks are made: one set per target for the observer that carries it, in the right order, and no two of the
    firmwares get the same id. *)
Theorem C132_tasks : forall strftime x clock, fitting x -> translatable x clock ->
  exists ts mods, tasks_from_xp strftime x bed clock = Ok ts /\
    Forall2 (fun id t => In (id, ot_observer t) station /\
               exists o g, o_name o = ot_observer t /\ only_config x id g /\ proper_tasks o x g id (get_tasks t)) (all_targets x) ts /\
    map ot_fw1_mod ts = map Some mods /\ NoDup (map fm_custom_id mods).
Proof.
  intros strftime x clock F T. pose proof (proj2 (C132_experiments 0 x) F) as A.
  destruct (tasks_all strftime _ _ _ _ A T) as [ts E]. pose proof (proj2 (experiments 0 x) F) as V.
  destruct (firmware_ids_distinct strftime _ _ _ _ _ V bed_own_ids E) as [_ N].
  exists ts, (present (map ot_fw1_mod ts)). split; [exact E|]. split; [|split; [|exact N]].
  - pose proof (tasks_proper strftime _ _ _ _ _ V bed_no_twin E) as P. clear -P.
    induction P as [|id t ids ts [o [g [R [O [N P]]]]] _ IH]; constructor; [|exact IH].
    apply get_observer_ok in R. split; [rewrite N; exact (proj2 (holder_known _ _ R))|].
    exists o, g. auto.
  - pose proof (tasks_inv strftime _ _ _ _ _ V E) as I. clear -I.
    induction I as [|id t ids ts H _ IH]; [reflexivity|]. simpl.
    destruct H as [o [g [root [m1 [m2 [p1 [p2 [e [p [ta [z H]]]]]]]]]]].
    destruct H as [_ [_ [_ [_ [_ [_ [_ H]]]]]]]. cbn zeta in H. destruct H as [Q _].
    rewrite Q. simpl. f_equal. exact IH.
Qed.
Print Assumptions C132_tasks.

(** Targets in stock, marked as active, that no observer of the testbed has. *)
Theorem C132_in_stock : forall k id, In id [1392381; 1392383; 1392391; 1392397; 1392398; 1392399; 1392400] ->
  (exists t, db_target (served (10 + k) db) id = Some t /\ t_active t = true) /\ get_observer bed id = Err ValueError.
Proof.
  intros k id I. cbn [In] in I.
  repeat (destruct I as [<- | I]; [split; [eexists; split; [vm_compute; reflexivity | reflexivity] | vm_compute; reflexivity]|]). destruct I.
Qed.
Print Assumptions C132_in_stock.

(** Target 1001 exists only on paper, as its comment says, and yet an experiment on it is accepted. *)
Definition on_paper : experiment :=
  mkXp "survey" None None (Some 60) false [mkCfg [1001] None true 0 (mkFw nrf 0 0) None false false 0] 0.
Theorem C132_paper_refuted : forall k,
  (exists w, In w BedData.targets /\ entry_id w = Some (VInt 1001) /\
     dget "comment" (FixModel.w_params w) = Some (VStr "ONLY VIRTUAL - NOT REAL - for unittests")) /\
  accepted (served (10 + k) db) bed on_paper.
Proof.
  intros k. split.
  - exists (last BedData.targets (mkWrap "" [])). split; [|split; reflexivity].
    cbn [BedData.targets last In]. repeat (try (left; reflexivity); right).
  - apply C132_experiments. constructor; cbn [on_paper x_configs In x_duration].
    + now intros g [<-|[]].
    + now intros g [<-|[]].
    + intros g id f [<-|[]] _ _ H. discriminate H.
    + intros g c [<-|[]] H. discriminate H.
    + intros id [<-|[]]. now right.
    + cbn. constructor; [intros []|constructor].
    + cbn. intros [[H|[]] _]. discriminate H.
    + cbn. constructor; [intros []|constructor].
    + intros d H. injection H as <-. lia.
Qed.
Print Assumptions C132_paper_refuted.

(** extra/gen_rf_survey.py:40-41: targets 1 to 11 with the first ids of the list 1 to 31. *)
Definition survey : experiment :=
  mkXp "rf_survey" None None (Some 480) false
    [mkCfg [1; 2; 3; 4; 5; 6; 7; 8; 9; 10; 11] (Some (map Z.of_nat (seq 1 31))) true 0 (mkFw nrf 0 0) (Some (mkFw msp 0 0)) true false 0] 0.
Example C132_ex :
  validate_experiment (served 10 db) bed survey = Ok tt /\
  (* target 1 and the one on paper share an observer *)
  validate_experiment (served 10 db) bed
    (mkXp "t" None None None false [mkCfg [1; 1001] None true 0 (mkFw nrf 0 0) None false false 0] 0) = Err ValueError /\
  (* firmware for the wrong controller, an unknown target *)
  validate_experiment (served 10 db) bed
    (mkXp "t" None None None false [mkCfg [1] None true 0 (mkFw msp 0 0) None false false 0] 0) = Err ValueError /\
  validate_experiment (served 10 db) bed
    (mkXp "t" None None None false [mkCfg [12] None true 0 (mkFw nrf 0 0) None false false 0] 0) = Err ValueError.
Proof. vm_compute. repeat split. Qed.

(** * Components of any origin *)

(** Whatever is in the database and in the values: what is made keeps the limits of its type. *)
Theorem C132_sound : forall depth x values,
  (forall m, make_mcu depth x values = Ok m -> sound_mcu m) /\ (forall t, make_target depth x values = Ok t -> sound_target t) /\
  (forall c, make_cape depth x values = Ok c -> is_id (c_id c)) /\ (forall o, make_observer depth x values = Ok o -> sound_observer o) /\
  (forall tb, make_testbed depth x values = Ok tb -> sound_testbed tb).
Proof.
  intros depth x values. split; [apply mcu_sound|]. split; [apply target_sound|]. split; [apply cape_sound|]. split; [apply observer_sound|apply testbed_sound].
Qed.
Print Assumptions C132_sound.

(** An own controller is made exactly from values in the limits, ... *)
Theorem C132_own_mcu : forall depth values i n m, own_mcu values i n -> make_mcu (S depth) db values = Ok m <-> mcu_given values i n m.
Proof. exact mcu_iff. Qed.
Print Assumptions C132_own_mcu.

(** ... and is refused otherwise. *)
Theorem C132_mcu_refused : forall depth values i n, own_mcu values i n -> (forall m, ~ mcu_given values i n m) ->
  make_mcu (S depth) db values = Err ValueError.
Proof. exact mcu_refused. Qed.
Print Assumptions C132_mcu_refused.

(** The same for own targets with controllers of the database; the short id is the rest of the id, if not given. *)
Theorem C132_own_target : forall k values i n t, own_target values i n -> make_target (10 + k) db values = Ok t <-> target_given values i n t.
Proof. exact target_iff. Qed.
Print Assumptions C132_own_target.
Theorem C132_target_refused : forall k values i n, own_target values i n -> (forall t, ~ target_given values i n t) ->
  make_target (10 + k) db values = Err ValueError.
Proof. exact target_refused. Qed.
Print Assumptions C132_target_refused.

(** The controller of a target can be given by its name alone. *)
Theorem C132_controller : forall depth x n, controller depth x (VStr n) = controller depth x (VOther ("{'name': '" ++ n ++ "'}")).
Proof. exact controller_named. Qed.
Print Assumptions C132_controller.

(** Each shipped firmware is found by its name in any spelling, with its own data and controller; no other name is found. *)
Theorem C132_firmwares : forall n,
  (forall k m j i, nth_error shipped_firmwares j = Some (m, i) -> same_text n m ->
     exists f, db_firmware (served (10 + k) db) n = Some f /\ m_id (f_mcu f) = i /\ f_data f = Z.of_nat j /\ f_type f = Z.of_nat j) /\
  (forall depth x, (forall m i, In (m, i) shipped_firmwares -> ~ same_text n m) -> db_firmware (served depth x) n = None).
Proof. intros n. split; [intros k m j i; exact (firmwares_found k n m j i)|intros depth x; exact (firmwares_unknown depth x n)]. Qed.
Print Assumptions C132_firmwares.

(** An address is four numbers below 256 in plain decimal notation. *)
Theorem C132_addresses : forall s z,
  ip_of (VStr s) = Ok z <-> exists a b c d, octets [a; b; c; d] /\ s = dots [a; b; c; d] /\ z = ((a * 256 + b) * 256 + c) * 256 + d.
Proof. exact ip_of_ok. Qed.
Print Assumptions C132_addresses.

Definition own_values : dict :=
  [("id", VInt 7); ("name", VStr " RP2040 "); ("description", VStr "Dual core"); ("platform", VStr "ARM"); ("core", VStr "M0");
   ("prog_protocol", VStr "SWD"); ("prog_voltage", VOther "3.3"); ("fw_name_default", VStr "blink")]%string.
Example C132_limits_ex :
  make_mcu 3 db own_values = Ok (mkMcu 7 "RP2040" (33 # 10) 500000 "blink" 0) /\
  make_mcu 3 db (("prog_datarate"%string, VInt 1000001) :: own_values) = Err ValueError /\
  make_mcu 3 db (("speed"%string, VInt 1) :: own_values) = Err ValueError /\
  ip_of (VStr "10.0.0.52") = Ok 167772212 /\ ip_of (VStr "10.0.0.256") = Err ValueError /\ ip_of (VStr "10.0.0.052") = Err ValueError.
Proof. vm_compute. repeat split. Qed.

Definition own_node : dict :=
  [("id", VInt 65540); ("name", VStr "desk node"); ("version", VStr "v1"); ("description", VStr "on the desk"); ("mcu1", VStr "NRF52");
   ("mcu2", VOther "{'name': 'msp430fr'}"); ("active", VOther "False")]%string.
Example C132_own_target_ex :
  make_target 10 db own_node = Ok (mkTarget 65540 4 false nrf (Some msp) 0) /\
  make_target 10 db (("testbed_id"%string, VInt 65536) :: own_node) = Err ValueError /\
  make_target 10 db (("mcu1"%string, VStr "RP2040") :: own_node) = Err ValueError.
Proof. vm_compute. repeat split. Qed.
