(** Model of testbeds, experiments and the tasks derived from them.

    Code (below shepherd_core/shepherd_core/data_models): testbed/testbed.py (TB),
    testbed/observer.py (OB), testbed/target.py (TG), testbed/mcu.py (MC),
    experiment/target_config.py (TC), experiment/experiment.py (XP),
    task/firmware_mod.py (FM), task/programming.py (PR), task/emulation.py (EM),
    task/observer_tasks.py (OT), task/testbed_tasks.py (TT).

    Simplifications: fields that are only copied or never looked at are gathered in one opaque
    integer per class; points in time are integers (seconds), strftime is an arbitrary function
    of them; a path is the list of its components; the database behind [Target(id=..)] and
    [Firmware(name=..)] is a function; pydantic's ValidationError is the ValueError it derives
    from; range checks of pydantic fields are only modelled where a value passes from one class
    to a class with other limits (PR:31-34). *)
From Coq Require Import QArith String Ascii.
From Verif Require Import PyBase FixModel.
Open Scope nat_scope.
Open Scope list_scope.
Open Scope string_scope.

(** * Data *)

(** MC:24-41 *)
Record mcu := mkMcu {
  m_id : Z; m_name : string; m_voltage : Q; m_datarate : Z; m_fw_default : string; m_rest : Z }.

(** TG:23-39 *)
Record target := mkTarget {
  t_id : Z; t_testbed_id : Z; t_active : bool; t_mcu1 : mcu; t_mcu2 : option mcu; t_rest : Z }.

(** testbed/cape.py:26-39 *)
Record cape := mkCape { c_id : Z; c_active : bool; c_rest : Z }.

(** OB:28-52 *)
Record observer := mkObs {
  o_id : Z; o_name : string; o_ip : Z; o_mac : Z; o_eth : string; o_active : bool;
  o_cape : option cape; o_target_a : option target; o_target_b : option target }.

(** TB:23-41 *)
Record testbed := mkTb {
  tb_observers : list observer; tb_shared_storage : bool; tb_data_on_observer : list string;
  tb_prep_duration : Z }.

(** content/firmware.py:52-63 *)
Record firmware := mkFw { f_mcu : mcu; f_data : Z; f_type : Z }.

(** TC:23-44; [g_tracing] and [g_actuation] say whether the field is not None. *)
Record config := mkCfg {
  g_targets : list Z; g_customs : option (list Z); g_env_valid : bool; g_env_path : Z;
  g_fw1 : firmware; g_fw2 : option firmware; g_tracing : bool; g_actuation : bool; g_rest : Z }.

(** XP:28-57 *)
Record experiment := mkXp {
  x_name : string; x_owner : option Z; x_time_start : option Z; x_duration : option Z;
  x_abort : bool; x_configs : list config; x_rest : Z }.

(** The database of the testbed client. *)
Record database := mkDb { db_target : Z -> option target; db_firmware : string -> option firmware }.

(** * Sets *)

(** set(l): elements without repetition. *)
Fixpoint pyset {A : Type} (eqb : A -> A -> bool) (l : list A) : list A :=
  match l with
  | [] => []
  | a :: l' => let s := pyset eqb l' in if existsb (eqb a) s then s else a :: s
  end.

(** len(l) > len(set(l)) *)
Definition repeats {A : Type} (eqb : A -> A -> bool) (l : list A) : bool :=
  Nat.ltb (List.length (pyset eqb l)) (List.length l).

(** Models are equal when all their fields are (pydantic's BaseModel.__eq__). *)
Definition opt_eqb {A : Type} (eqb : A -> A -> bool) (a b : option A) : bool :=
  match a, b with
  | Some x, Some y => eqb x y
  | None, None => true
  | _, _ => false
  end.

Definition mcu_eqb (a b : mcu) : bool :=
  Z.eqb (m_id a) (m_id b) && String.eqb (m_name a) (m_name b) &&
  Qeq_bool (m_voltage a) (m_voltage b) && Z.eqb (m_datarate a) (m_datarate b) &&
  String.eqb (m_fw_default a) (m_fw_default b) && Z.eqb (m_rest a) (m_rest b).

Definition target_eqb (a b : target) : bool :=
  Z.eqb (t_id a) (t_id b) && Z.eqb (t_testbed_id a) (t_testbed_id b) &&
  Bool.eqb (t_active a) (t_active b) && mcu_eqb (t_mcu1 a) (t_mcu1 b) &&
  opt_eqb mcu_eqb (t_mcu2 a) (t_mcu2 b) && Z.eqb (t_rest a) (t_rest b).

Definition cape_eqb (a b : cape) : bool :=
  Z.eqb (c_id a) (c_id b) && Bool.eqb (c_active a) (c_active b) && Z.eqb (c_rest a) (c_rest b).

(** The elements of a list that are not None. *)
Fixpoint present {A : Type} (l : list (option A)) : list A :=
  match l with
  | [] => []
  | Some a :: l' => a :: present l'
  | None :: l' => present l'
  end.

(** * Targets, observers, testbeds *)

(** TG:58-59: the default of testbed_id; [given] is the value from the user or database. *)
Definition testbed_id (given : option Z) (id : Z) : Z :=
  match given with Some z => z | None => (id mod 2 ^ 16)%Z end.

(** Observer.post_validation, OB:63-70 *)
Definition validate_observer (o : observer) : res unit :=
  match o_cape o, o_target_a o, o_target_b o with
  | None, Some _, _ => Err ValueError
  | None, _, Some _ => Err ValueError
  | _, _, _ => Ok tt
  end.

(** Is the target present, has it that id? *)
Definition id_is (id : Z) (t : option target) : bool :=
  match t with Some t => Z.eqb id (t_id t) | None => false end.
Definition active_with (id : Z) (t : option target) : bool :=
  match t with Some t => Z.eqb id (t_id t) && t_active t | None => false end.

(** Observer.has_target, OB:72-79 *)
Definition has_target (o : observer) (id : Z) : bool :=
  active_with id (o_target_a o) || active_with id (o_target_b o).

Inductive port := PortA | PortB.

(** Observer.get_target_port, OB:81-88 *)
Definition get_target_port (o : observer) (id : Z) : res port :=
  if has_target o id then
    if id_is id (o_target_a o) then Ok PortA
    else if id_is id (o_target_b o) then Ok PortB
    else Err KeyError
  else Err KeyError.

(** Observer.get_target, OB:90-97 *)
Definition get_target (o : observer) (id : Z) : res target :=
  if has_target o id then
    match o_target_a o, o_target_b o with
    | Some a, b =>
        if Z.eqb id (t_id a) then Ok a
        else match b with
             | Some b => if Z.eqb id (t_id b) then Ok b else Err KeyError
             | None => Err KeyError
             end
    | None, Some b => if Z.eqb id (t_id b) then Ok b else Err KeyError
    | None, None => Err KeyError
    end
  else Err KeyError.

(** The targets of an observer, port A first (TB:71-74). *)
Definition targets_of (o : observer) : list target := present [o_target_a o; o_target_b o].

(** Testbed.post_validation, TB:57-92 (after each of its observers was accepted) *)
Definition validate_testbed (tb : testbed) : res unit :=
  let obs := tb_observers tb in
  if repeats Z.eqb (map o_id obs) then Err ValueError
  else if repeats Z.eqb (map o_ip obs) then Err ValueError
  else if repeats Z.eqb (map o_mac obs) then Err ValueError
  else if repeats cape_eqb (present (map o_cape obs)) then Err ValueError
  else if repeats target_eqb (flat_map targets_of obs) then Err ValueError
  else if repeats String.eqb (map o_eth obs) then Err ValueError
  else if Z.ltb (tb_prep_duration tb) 0 then Err ValueError
  else if negb (tb_shared_storage tb) then Err ValueError
  else Ok tt.

(** Testbed.get_observer, TB:94-102: the loop over the observers. The cape of an active
    observer is dereferenced without check. *)
Fixpoint find_observer (obs : list observer) (id : Z) : res observer :=
  match obs with
  | [] => Err ValueError
  | o :: obs' =>
      if negb (o_active o) then find_observer obs' id
      else match o_cape o with
           | None => Err AttributeError
           | Some c =>
               if negb (c_active c) then find_observer obs' id
               else if has_target o id then Ok o
               else find_observer obs' id
           end
  end.

Definition get_observer (tb : testbed) (id : Z) : res observer :=
  find_observer (tb_observers tb) id.

(** * Experiments *)

(** [f] on every element, until one raises. *)
Fixpoint each {A B : Type} (f : A -> res B) (l : list A) : res (list B) :=
  match l with
  | [] => Ok []
  | a :: l' => let* b := f a in let* bs := each f l' in Ok (b :: bs)
  end.

(** Target(id=id): raises if the database has no such target (TG:46-61). *)
Definition load_target (db : database) (id : Z) : res target :=
  match db_target db id with Some t => Ok t | None => Err ValueError end.

(** Body of the loop over mcu1 and mcu2, TC:53-74. *)
Definition check_mcu (db : database) (fw : option firmware) (m : option mcu) : res unit :=
  match fw, m with
  | None, Some m =>
      match db_firmware db (m_fw_default m) with
      | None => Err ValueError
      | Some d => if negb (Z.eqb (m_id m) (m_id (f_mcu d))) then Err ValueError else Ok tt
      end
  | Some f, Some m => if negb (Z.eqb (m_id (f_mcu f)) (m_id m)) then Err ValueError else Ok tt
  | _, None => Ok tt
  end.

(** TargetConfig.post_validation, TC:46-82 *)
Definition validate_config (db : database) (g : config) : res unit :=
  if negb (g_env_valid g) then Err ValueError
  else
    let* _ := each (fun id =>
                 let* t := load_target db id in
                 let* _ := check_mcu db (Some (g_fw1 g)) (Some (t_mcu1 t)) in
                 check_mcu db (g_fw2 g) (t_mcu2 t)) (g_targets g) in
    match g_customs g with
    | Some c =>
        if Nat.ltb (List.length (pyset Z.eqb c)) (List.length (pyset Z.eqb (g_targets g)))
        then Err ValueError else Ok tt
    | None => Ok tt
    end.

(** list.index; the argument is known to be in the list. *)
Fixpoint index (id : Z) (l : list Z) : nat :=
  match l with
  | [] => 0
  | a :: l' => if Z.eqb id a then 0 else S (index id l')
  end.

(** TargetConfig.get_custom_id, TC:84-87 *)
Definition get_custom_id (g : config) (id : Z) : res (option Z) :=
  match g_customs g with
  | Some c =>
      if existsb (Z.eqb id) (g_targets g) then
        match nth_error c (index id (g_targets g)) with
        | Some z => Ok (Some z)
        | None => Err IndexError
        end
      else Ok None
  | None => Ok None
  end.

(** Experiment.get_target_ids, XP:98-99 *)
Definition get_target_ids (x : experiment) : list Z := flat_map g_targets (x_configs x).

(** The list custom_ids in XP:80-83. *)
Definition custom_ids (x : experiment) : list Z :=
  flat_map (fun g => match g_customs g with
                     | Some c => firstn (List.length (g_targets g)) c
                     | None => g_targets g
                     end) (x_configs x).

(** Experiment._validate_targets, XP:71-87 *)
Definition validate_targets (db : database) (x : experiment) : res unit :=
  let ids := get_target_ids x in
  let* _ := each (load_target db) ids in
  if Nat.ltb (List.length (pyset Z.eqb ids)) (List.length ids) then Err ValueError
  else if Nat.ltb (List.length (pyset Z.eqb (custom_ids x))) (List.length ids)
       then Err ValueError
  else Ok tt.

(** Experiment._validate_observers, XP:89-96 *)
Definition validate_observers (tb : testbed) (x : experiment) : res unit :=
  let ids := get_target_ids x in
  let* obs := each (get_observer tb) ids in
  if Nat.ltb (List.length (pyset Z.eqb (map o_id obs))) (List.length ids) then Err ValueError
  else Ok tt.

(** Constructing an experiment: each configuration and then Experiment.post_validation,
    XP:62-69. [tb] is the accepted testbed that Testbed() returns. *)
Definition validate_experiment (db : database) (tb : testbed) (x : experiment) : res unit :=
  let* _ := each (validate_config db) (x_configs x) in
  let* _ := validate_targets db x in
  let* _ := validate_observers tb x in
  match x_duration x with
  | Some d => if Z.ltb d 0 then Err ValueError else Ok tt
  | None => Ok tt
  end.

(** Experiment.get_target_config, XP:101-107 *)
Fixpoint find_config (gs : list config) (id : Z) : res config :=
  match gs with
  | [] => Err ValueError
  | g :: gs' => if existsb (Z.eqb id) (g_targets g) then Ok g else find_config gs' id
  end.
Definition get_target_config (x : experiment) (id : Z) : res config :=
  find_config (x_configs x) id.

(** * Tasks *)

Definition path := list string.

(** f"{prefix}{obs.name}{suffix}" *)
Definition file_name (prefix : string) (o : observer) (suffix : string) : string :=
  prefix ++ o_name o ++ suffix.

Inductive mcu_port := Mcu1 | Mcu2.

(** FM:28-37 *)
Record mod_task := mkMod {
  fm_data : Z; fm_type : Z; fm_custom_id : Z; fm_file : path }.

(** PR:25-42 *)
Record prog_task := mkProg {
  pr_file : path; pr_port : port; pr_mcu_port : mcu_port; pr_mcu_type : string;
  pr_voltage : Q; pr_datarate : Z }.

(** EM:44-96 *)
Record emu_task := mkEmu {
  em_input : Z; em_output : path; em_time_start : option Z; em_duration : option Z;
  em_abort : bool; em_enable_io : bool; em_io_port : port; em_pwr_port : port; em_rest : Z }.

(** OT:22-40 *)
Record observer_tasks := mkOt {
  ot_observer : string; ot_owner : option Z; ot_time_prep : Z; ot_root : path; ot_abort : bool;
  ot_fw1_mod : option mod_task; ot_fw2_mod : option mod_task;
  ot_fw1_prog : option prog_task; ot_fw2_prog : option prog_task;
  ot_emulation : option emu_task }.

(** The firmware for one of the two controllers (FM:59, PR:60). *)
Definition firmware_for (g : config) (p : mcu_port) : option firmware :=
  match p with Mcu1 => Some (g_fw1 g) | Mcu2 => g_fw2 g end.

(** FirmwareModTask.from_xp, FM:48-75 *)
Definition mod_from_xp (x : experiment) (tb : testbed) (id : Z) (p : mcu_port) (fw_path : path)
  : res (option mod_task) :=
  let* g := get_target_config x id in
  match firmware_for g p with
  | None => Ok None
  | Some fw =>
      let* c := get_custom_id g id in
      let* fw_id :=
        match c with
        | Some z => Ok z
        | None => let* o := get_observer tb id in
                  let* t := get_target o id in Ok (t_testbed_id t)
        end in
      Ok (Some (mkMod (f_data fw) (f_type fw) fw_id fw_path))
  end.

(** SafeStr: printable ASCII (base/content.py:25). *)
Fixpoint printable (s : string) : bool :=
  match s with
  | EmptyString => true
  | String c s' => let n := nat_of_ascii c in
      Nat.leb 32 n && Nat.leb n 126 && printable s'
  end.

(** ProgrammingTask.from_xp, PR:49-74, with the limits of its fields (PR:31-34), which are
    narrower than those of the controller; the file name always ends in ".hex" (PR:43-47). *)
Definition prog_from_xp (x : experiment) (tb : testbed) (id : Z) (p : mcu_port) (fw_path : path)
  : res (option prog_task) :=
  let* o := get_observer tb id in
  let* g := get_target_config x id in
  match firmware_for g p with
  | None => Ok None
  | Some fw =>
      let* tp := get_target_port o id in
      let m := f_mcu fw in
      if negb (printable (m_name m)) then Err ValueError
      else if negb (Qle_bool 1 (m_voltage m) && negb (Qle_bool 5 (m_voltage m)))
           then Err ValueError
      else Ok (Some (mkProg fw_path tp p (m_name m) (m_voltage m) (m_datarate m)))
  end.

(** EmulationTask.from_xp with its post_validation, EM:111-153; [now] is the time at which the
    task is validated. *)
Definition emu_from_xp (x : experiment) (tb : testbed) (id : Z) (root : path) (now : Z)
  : res emu_task :=
  let* o := get_observer tb id in
  let* g := get_target_config x id in
  let* tp := get_target_port o id in
  let past := match x_time_start x with Some t => Z.ltb t now | None => false end in
  let negative := match x_duration x with Some d => Z.ltb d 0 | None => false end in
  if past then Err ValueError
  else if negative then Err ValueError
  else if g_actuation g then Err ValueError
  else Ok (mkEmu (g_env_path g) (root ++ [file_name "emu_" o ".h5"])%list (x_time_start x)
             (x_duration x) (x_abort x) (g_tracing g || g_actuation g) tp tp (g_rest g)).

Section Translate.
  (** datetime.strftime("%Y-%m-%d_%H-%M-%S") *)
  Context (strftime : Z -> string).

  (** ObserverTasks.from_xp, OT:48-79; [now1] and [now2] are the two readings of the clock. *)
  Definition observer_from_xp (x : experiment) (tb : testbed) (id : Z) (now1 now2 : Z)
    : res observer_tasks :=
    if negb (tb_shared_storage tb) then Err ValueError
    else
      let t_start := match x_time_start x with Some t => t | None => (now1 + 180)%Z end in
      let* o := get_observer tb id in
      let xp_dir := ["experiments"; x_name x ++ "_" ++ strftime t_start] in
      let root := (tb_data_on_observer tb ++ xp_dir)%list in
      let fw1 := (root ++ [file_name "fw1_" o ".hex"])%list in
      let fw2 := (root ++ [file_name "fw2_" o ".hex"])%list in
      let* m1 := mod_from_xp x tb id Mcu1 fw1 in
      let* m2 := mod_from_xp x tb id Mcu2 fw2 in
      let* p1 := prog_from_xp x tb id Mcu1 fw1 in
      let* p2 := prog_from_xp x tb id Mcu2 fw2 in
      let* e := emu_from_xp x tb id root now2 in
      Ok (mkOt (o_name o) (x_owner x) (t_start - tb_prep_duration tb) root (x_abort x)
            m1 m2 p1 p2 (Some e)).

  (** The list comprehension of TestbedTasks.from_xp, TT:38-39; [clock] are the readings of the
      system clock in the order in which they are taken, two per target. *)
  Fixpoint tasks_for (x : experiment) (tb : testbed) (clock : nat -> Z) (ids : list Z)
    : res (list observer_tasks) :=
    match ids with
    | [] => Ok []
    | id :: ids' =>
        let* t := observer_from_xp x tb id (clock 0) (clock 1) in
        let* ts := tasks_for x tb (fun n => clock (S (S n))) ids' in
        Ok (t :: ts)
    end.

  (** TestbedTasks.from_xp, TT:31-45 *)
  Definition tasks_from_xp (x : experiment) (tb : testbed) (clock : nat -> Z)
    : res (list observer_tasks) :=
    tasks_for x tb clock (get_target_ids x).
End Translate.

(** TestbedTasks.get_observer_tasks, TT:47-51 *)
Fixpoint get_observer_tasks (ts : list observer_tasks) (name : string) : option observer_tasks :=
  match ts with
  | [] => None
  | t :: ts' => if String.eqb name (ot_observer t) then Some t else get_observer_tasks ts' name
  end.

Inductive task :=
| TMod (t : mod_task)
| TProg (t : prog_task)
| TEmu (t : emu_task).

(** ObserverTasks.get_tasks, OT:81-92 *)
Definition get_tasks (t : observer_tasks) : list task :=
  present [option_map TMod (ot_fw1_mod t); option_map TMod (ot_fw2_mod t);
           option_map TProg (ot_fw1_prog t); option_map TProg (ot_fw2_prog t);
           option_map TEmu (ot_emulation t)].

(** ObserverTasks.get_output_paths, OT:94-100 *)
Definition observer_outputs (t : observer_tasks) : assoc string path :=
  match ot_emulation t with
  | Some e => [(ot_observer t, em_output e)]
  | None => []
  end.

(** TestbedTasks.get_output_paths, TT:53-60 *)
Definition get_output_paths (ts : list observer_tasks) : assoc string path :=
  fold_left (fun values t =>
               fold_left (fun v kv => put String.eqb (fst kv) (snd kv) v)
                 (observer_outputs t) values) ts [].
