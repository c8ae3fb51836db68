(** Vocabulary for the statements about testbeds, experiments and tasks. *)
From Coq Require Import QArith String.
From Verif Require Import PyBase FixModel TbModel.
Open Scope nat_scope.
Open Scope list_scope.

(** * Testbed *)

(** An observer in service: active and with an active cape. *)
Definition usable (o : observer) : Prop :=
  o_active o = true /\ exists c, o_cape o = Some c /\ c_active c = true.

(** Target [t] is plugged into port [p]. *)
Definition plugged (o : observer) (p : port) (t : target) : Prop :=
  match p with PortA => o_target_a o = Some t | PortB => o_target_b o = Some t end.

(** An active target with that id sits on the port. *)
Definition carries (o : observer) (p : port) (id : Z) : Prop :=
  exists t, plugged o p t /\ t_id t = id /\ t_active t = true.

Definition offers (o : observer) (id : Z) : Prop := usable o /\ exists p, carries o p id.

Definition capeless (o : observer) : Prop := o_active o = true /\ o_cape o = None.

(** [o] is the first observer that offers the target, no active observer before it lacks a
    cape. *)
Definition reaches (tb : testbed) (id : Z) (o : observer) : Prop :=
  exists pre post, tb_observers tb = pre ++ o :: post /\ offers o id /\
    Forall (fun q => ~ offers q id /\ ~ capeless q) pre.

(** Every active observer has a cape. *)
Definition all_capes (tb : testbed) : Prop :=
  Forall (fun o => ~ capeless o) (tb_observers tb).

(** No observer has an inactive target on port A whose id is also that of its target on B. *)
Definition no_twin (tb : testbed) : Prop :=
  forall o a b, In o (tb_observers tb) -> o_target_a o = Some a -> o_target_b o = Some b ->
    t_active a = false -> t_id a <> t_id b.

(** Every target of the testbed kept its own id. *)
Definition own_ids (tb : testbed) : Prop :=
  forall o p t, In o (tb_observers tb) -> plugged o p t -> t_testbed_id t = t_id t.

(** * Experiment *)

(** All target ids of an experiment, in order. *)
Definition all_targets (x : experiment) : list Z := concat (map g_targets (x_configs x)).

(** The ids a configuration requests for its targets. *)
Definition requested (g : config) : list Z :=
  match g_customs g with
  | Some c => firstn (List.length (g_targets g)) c
  | None => g_targets g
  end.

(** Controller [m], if there is one, gets a firmware for this controller: the given one, or
    the default one. *)
Definition supplied (db : database) (fw : option firmware) (m : option mcu) : Prop :=
  forall m', m = Some m' ->
  exists f, (fw = Some f \/ fw = None /\ db_firmware db (m_fw_default m') = Some f) /\
    m_id (f_mcu f) = m_id m'.

(** What is required of one configuration. *)
Definition sound_config (db : database) (g : config) : Prop :=
  g_env_valid g = true /\
  (forall id, In id (g_targets g) ->
     exists t, db_target db id = Some t /\
       supplied db (Some (g_fw1 g)) (Some (t_mcu1 t)) /\ supplied db (g_fw2 g) (t_mcu2 t)) /\
  (forall c, g_customs g = Some c -> List.length (g_targets g) <= List.length c).

(** [g] is the only configuration that lists the target. *)
Definition only_config (x : experiment) (id : Z) (g : config) : Prop :=
  exists pre post, x_configs x = pre ++ g :: post /\ In id (g_targets g) /\
    forall g', In g' (pre ++ post) -> ~ In id (g_targets g').

(** Neither the testbed nor the experiment was rejected. *)
Definition accepted (db : database) (tb : testbed) (x : experiment) : Prop :=
  Forall (fun o => validate_observer o = Ok tt) (tb_observers tb) /\
  validate_testbed tb = Ok tt /\ validate_experiment db tb x = Ok tt.

(** * Tasks *)

(** Firmwares of a configuration, for controller 1 and 2. *)
Definition firmwares (g : config) : list (mcu_port * firmware) :=
  (Mcu1, g_fw1 g) :: match g_fw2 g with Some f => [(Mcu2, f)] | None => [] end.

(** The programmer can handle the controller: its limits are narrower. *)
Definition plain_text (s : string) : Prop :=
  forall n c, String.get n s = Some c -> 32 <= Ascii.nat_of_ascii c <= 126.
Definition programmable (m : mcu) : Prop :=
  plain_text (m_name m) /\ (1 <= m_voltage m)%Q /\ (m_voltage m < 5)%Q.

(** Nothing in the experiment is refused when it is translated. *)
Definition translatable (x : experiment) (clock : nat -> Z) : Prop :=
  (forall g p f, In g (x_configs x) -> In (p, f) (firmwares g) -> programmable (f_mcu f)) /\
  (forall g, In g (x_configs x) -> g_actuation g = false) /\
  (forall t n, x_time_start x = Some t -> (clock n <= t)%Z).

(** The id that goes into the firmware of a target. *)
Definition firmware_id (o : observer) (g : config) (id z : Z) : Prop :=
  match g_customs g with
  | Some c => exists k, nth_error (g_targets g) k = Some id /\ nth_error c k = Some z
  | None => exists p t, carries o p id /\ plugged o p t /\ z = t_testbed_id t
  end.

(** Task list of one target: first modify, then program, then emulate; each firmware is
    modified and programmed once, from the same file, on the port of the target. *)
Definition proper_tasks (o : observer) (x : experiment) (g : config) (id : Z) (l : list task)
  : Prop :=
  exists mods progs e p,
    l = map TMod mods ++ map TProg progs ++ [TEmu e] /\ carries o p id /\
    Forall2 (fun f m => fm_data m = f_data (snd f) /\ fm_type m = f_type (snd f) /\
                        firmware_id o g id (fm_custom_id m)) (firmwares g) mods /\
    Forall2 (fun f t => pr_mcu_port t = fst f /\ pr_mcu_type t = m_name (f_mcu (snd f)) /\
                        pr_voltage t = m_voltage (f_mcu (snd f)) /\
                        pr_datarate t = m_datarate (f_mcu (snd f)) /\ pr_port t = p)
      (firmwares g) progs /\
    map fm_file mods = map pr_file progs /\ NoDup (map fm_file mods) /\
    em_input e = g_env_path g /\ em_time_start e = x_time_start x /\
    em_duration e = x_duration x /\ em_io_port e = p /\ em_pwr_port e = p /\
    (em_enable_io e = true <-> g_tracing g = true \/ g_actuation g = true).

(** The files a task list writes. *)
Definition written (t : task) : list path :=
  match t with TMod m => [fm_file m] | TProg _ => [] | TEmu e => [em_output e] end.

(** Two objects agree in every field; voltages are compared as numbers. *)
Definition same_mcu (a b : mcu) : Prop :=
  m_id a = m_id b /\ m_name a = m_name b /\ (m_voltage a == m_voltage b)%Q /\
  m_datarate a = m_datarate b /\ m_fw_default a = m_fw_default b /\ m_rest a = m_rest b.
Definition same_target (a b : target) : Prop :=
  t_id a = t_id b /\ t_testbed_id a = t_testbed_id b /\ t_active a = t_active b /\
  same_mcu (t_mcu1 a) (t_mcu1 b) /\
  match t_mcu2 a, t_mcu2 b with
  | Some m, Some n => same_mcu m n
  | None, None => True
  | _, _ => False
  end /\ t_rest a = t_rest b.

(** All capes and all targets of a testbed, in order. *)
Definition capes (tb : testbed) : list cape :=
  flat_map (fun o => match o_cape o with Some c => [c] | None => [] end) (tb_observers tb).
Definition plugged_targets (tb : testbed) : list target :=
  flat_map (fun o => match o_target_a o with Some t => [t] | None => [] end ++
                     match o_target_b o with Some t => [t] | None => [] end) (tb_observers tb).
