(** Vocabulary for the statements about the shipped testbed: what stands where, and which experiments fit on it. *)
From Coq Require Import String ZArith QArith List.
From Verif Require Import PyBase FixModel FixSpec TbModel TbSpec.
From Verif Require StoModel ProgSpec BedData BedModel.
Import ListNotations.
Open Scope Z_scope.
Open Scope list_scope.

(** The two controllers, the node that carries both, and the one that exists only on paper. *)
Definition nrf : mcu := mkMcu 1001 "nRF52" 3 500000 "nrf52_demo_rf" 0.
Definition msp : mcu := mkMcu 1002 "MSP430FR" 3 500000 "msp430_deep_sleep" 0.
Definition node (id : Z) : target := mkTarget id id true nrf (Some msp) 0.
Definition paper_node : target := mkTarget 1001 1001 true nrf None 0.

(** An observer of the group: number, MAC address, socket, cape, targets. *)
Definition spot (n mac : Z) (name eth : string) (c a : Z) (b : option target) : observer :=
  mkObs n name (((192 * 256 + 168) * 256 + 165) * 256 + 200 + n) mac eth true (Some (mkCape c true 0)) (Some (node a)) b.

Definition bed : testbed :=
  mkTb
    [spot 1 0x1862E4E4418D "sheep01" "B14" 1270051 6 None;
     spot 2 0x1862E4D0DE3F "sheep02" "A18" 1270052 8 None;
     spot 4 0x1862E4D0614D "sheep04" "C6" 1270054 3 None;
     spot 5 0x1862E4E36E13 "sheep05" "D10" 1270055 1 (Some paper_node);
     spot 6 0x1862E4D0AF0B "sheep06" "L14" 1270056 11 None;
     spot 7 0x1862E4E439D7 "sheep07" "A20" 1270057 7 None;
     spot 9 0x1862E4D0D4A9 "sheep09" "C4" 1270065 5 None;
     spot 10 0x1862E4E424C5 "sheep10" "C20" 1270059 2 None;
     spot 12 0x1862E4D0AAF7 "sheep12" "B24" 1270062 4 None;
     spot 13 0x1862E4D0D770 "sheep13" "A4" 1270060 9 None;
     spot 14 0x1862E4E38943 "sheep14" "L24" 1270064 10 None]
    true ["var"; "shepherd"]%string 300.

(** Which target is found on which observer. *)
Definition station : list (Z * string) :=
  [(1, "sheep05"); (2, "sheep10"); (3, "sheep04"); (4, "sheep12"); (5, "sheep09"); (6, "sheep01"); (7, "sheep07");
   (8, "sheep02"); (9, "sheep13"); (10, "sheep14"); (11, "sheep06"); (1001, "sheep05")]%string.

(** What an experiment has to obey. *)
Record fitting (x : experiment) : Prop := {
  fit_environment : forall g, In g (x_configs x) -> g_env_valid g = true;
  fit_firmware : forall g, In g (x_configs x) -> g_targets g <> [] -> m_id (f_mcu (g_fw1 g)) = 1001;
  fit_second : forall g id f, In g (x_configs x) -> In id (g_targets g) -> id <> 1001 -> g_fw2 g = Some f -> m_id (f_mcu f) = 1002;
  fit_customs : forall g c, In g (x_configs x) -> g_customs g = Some c -> (List.length (g_targets g) <= List.length c)%nat;
  fit_known : forall id, In id (all_targets x) -> 1 <= id <= 11 \/ id = 1001;
  fit_once : NoDup (all_targets x);
  fit_one_each : ~ (In 1 (all_targets x) /\ In 1001 (all_targets x));
  fit_ids : NoDup (flat_map requested (x_configs x));
  fit_duration : forall d, x_duration x = Some d -> 0 <= d }.

(** Id and name of an entry. *)
Definition entry_id (w : FixModel.wrapper) : option value := dget "id" (FixModel.w_params w).
Definition entry_name (w : FixModel.wrapper) : option value := dget "name" (FixModel.w_params w).

(** * What any component is like *)

Definition is_id (z : Z) : Prop := 0 <= z < 2 ^ 128.
Definition printable (s : string) : Prop := ProgSpec.readable s /\ (String.length s <= 512)%nat.
Definition sound_mcu (m : mcu) : Prop :=
  is_id (m_id m) /\ ProgSpec.good_name (m_name m) /\ (1 <= m_voltage m <= 5)%Q /\ 1 <= m_datarate m <= 1000000 /\
  (1 <= String.length (m_fw_default m) <= 512)%nat.
Definition sound_target (t : target) : Prop :=
  is_id (t_id t) /\ 0 <= t_testbed_id t < 2 ^ 16 /\ sound_mcu (t_mcu1 t) /\ (forall m, t_mcu2 t = Some m -> sound_mcu m).
Definition sound_observer (o : observer) : Prop :=
  is_id (o_id o) /\ ProgSpec.good_name (o_name o) /\ 0 <= o_ip o < 2 ^ 32 /\ 0 <= o_mac o < 2 ^ 48 /\ ProgSpec.good_name (o_eth o) /\
  (forall c, o_cape o = Some c -> is_id (c_id c)) /\
  (forall t, o_target_a o = Some t \/ o_target_b o = Some t -> sound_target t) /\
  (o_cape o = None -> o_target_a o = None /\ o_target_b o = None).
Definition sound_testbed (tb : testbed) : Prop :=
  (1 <= List.length (tb_observers tb) <= 128)%nat /\ Forall sound_observer (tb_observers tb) /\
  NoDup (map o_id (tb_observers tb)) /\ NoDup (map o_ip (tb_observers tb)) /\ NoDup (map o_mac (tb_observers tb)) /\
  NoDup (map o_eth (tb_observers tb)) /\ NoDup (capes tb) /\
  ForallOrdPairs (fun a b => ~ same_target a b) (plugged_targets tb) /\ 0 <= tb_prep_duration tb /\ tb_shared_storage tb = true.

(** * An own controller: id and name are new, nothing is inherited *)

Definition own_mcu (values : dict) (i : Z) (n : string) : Prop :=
  entry "inherit_from" values = None /\ entry "id" values = Some (VInt i) /\ entry "name" values = Some (VStr n) /\
  i <> 1001 /\ i <> 1002 /\ ~ same_text n "nRF52" /\ ~ same_text n "MSP430FR".
Definition text_at (k : string) (values : dict) (good : string -> Prop) : Prop :=
  exists t, entry k values = Some (VStr t) /\ good (StoModel.strip t).
(** The voltage is an integer or the text of a decimal number. *)
Definition mcu_given (values : dict) (i : Z) (n : string) (m : mcu) : Prop :=
  (forall k, entry k values <> None ->
     In k ["id"; "name"; "description"; "comment"; "platform"; "core"; "prog_protocol"; "prog_voltage"; "prog_datarate"; "fw_name_default"]%string) /\
  m_id m = i /\ m_name m = StoModel.strip n /\ m_rest m = 0 /\ sound_mcu m /\
  text_at "description" values printable /\
  (entry "comment" values = None \/ entry "comment" values = Some none_ \/ text_at "comment" values printable) /\
  text_at "platform" values ProgSpec.good_name /\ text_at "core" values ProgSpec.good_name /\
  (exists p, entry "prog_protocol" values = Some (VStr p) /\ In p ["SWD"; "SBW"; "JTAG"; "UART"]%string) /\
  match entry "prog_voltage" values with None => m_voltage m = 3%Q | Some v => BedModel.number_of v = Ok (m_voltage m) end /\
  match entry "prog_datarate" values with None => m_datarate m = 500000 | Some v => v = VInt (m_datarate m) end /\
  text_at "fw_name_default" values (fun s => m_fw_default m = s).

(** An address in dotted notation. *)
Definition octets (l : list Z) : Prop := Forall (fun z => 0 <= z < 256) l.
Definition dots (l : list Z) : string := String.concat "." (map (fun z => str (VInt z)) l).

(** The shipped firmwares and the ids of their controllers. *)
Definition shipped_firmwares : list (string * Z) :=
  [("msp430_deep_sleep", 1002); ("msp430_spi_fram", 1002); ("msp430_testable", 1002); ("nrf52_deep_sleep", 1001); ("nrf52_demo_rf", 1001);
   ("nrf52_rf_survey", 1001); ("nrf52_rf_test", 1001); ("nrf52_testable", 1001)]%string.

(** * An own target: id and name are new, nothing is inherited *)

Definition own_target (values : dict) (i : Z) (n : string) : Prop :=
  entry "inherit_from" values = None /\ entry "id" values = Some (VInt i) /\ entry "name" values = Some (VStr n) /\
  forall w, In w BedData.targets -> entry_id w <> Some (VInt i) /\ forall m, entry_name w = Some (VStr m) -> ~ same_text n m.
(** A controller of the database, by its name in any spelling or by a dictionary with that name. *)
Definition chosen_mcu (v : value) (m : mcu) : Prop :=
  exists c, (v = VStr c \/ v = VOther ("{'name': '" ++ c ++ "'}")) /\ (same_text c "nRF52" /\ m = nrf \/ same_text c "MSP430FR" /\ m = msp).
Definition absent (k : string) (values : dict) : Prop := entry k values = None \/ entry k values = Some none_.
Definition target_given (values : dict) (i : Z) (n : string) (t : target) : Prop :=
  (forall k, entry k values <> None ->
     In k ["id"; "name"; "version"; "description"; "comment"; "active"; "created"; "testbed_id"; "mcu1"; "mcu2"]%string) /\
  t_id t = i /\ is_id i /\ t_rest t = 0 /\ ProgSpec.good_name (StoModel.strip n) /\
  text_at "version" values ProgSpec.good_name /\ text_at "description" values printable /\ (absent "comment" values \/ text_at "comment" values printable) /\
  match entry "active" values with None => t_active t = true | Some v => v = VOther (if t_active t then "True" else "False") end /\
  (absent "testbed_id" values /\ t_testbed_id t = i mod 2 ^ 16 \/ entry "testbed_id" values = Some (VInt (t_testbed_id t)) /\ 0 <= t_testbed_id t < 2 ^ 16) /\
  (exists v, entry "mcu1" values = Some v /\ chosen_mcu v (t_mcu1 t)) /\
  (absent "mcu2" values /\ t_mcu2 t = None \/ exists v m, entry "mcu2" values = Some v /\ chosen_mcu v m /\ t_mcu2 t = Some m).
