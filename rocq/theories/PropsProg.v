(** C128: tasks for programming and sets of tasks stay within the limits of the testbed. *)
From Coq Require Import String Ascii QArith.
From Verif Require Import PyBase FileModel FwModel StoModel ProgSpec ProgProofs.
Open Scope Z_scope.
Open Scope list_scope.

(** An accepted task for programming names a hex file and is within the limits of the programmer. *)
Theorem C128_programming : forall fresh now y p, validate fresh now programming_task y = Ok p -> fits_programmer p.
Proof. exact programming_limits. Qed.
Print Assumptions C128_programming.

(** Everything within the limits is accepted as it is. *)
Theorem C128_accepts : forall fresh now file tp mp mt q dr pr sim vb,
  hex_file file -> In tp ["A"; "B"]%string -> In mp [1; 2] -> readable (strip mt) -> (1 <= q)%Q -> (q < 5)%Q -> 1 <= dr <= 1000000 ->
  In pr ["SWD"; "SBW"; "JTAG"; "UART"]%string -> 0 <= vb <= 4 ->
  validate fresh now programming_task (YMap [("firmware_file", YStr file); ("target_port", YStr tp); ("mcu_port", YInt mp); ("mcu_type", YStr mt);
    ("voltage", YFloat q); ("datarate", YInt dr); ("protocol", YStr pr); ("simulate", YBool sim); ("verbose", YInt vb)]%string) =
  Ok (PObj [("firmware_file", (true, PPath file)); ("target_port", (true, PStr tp)); ("mcu_port", (true, PInt mp)); ("mcu_type", (true, PStr (strip mt)));
    ("voltage", (true, PFloat q)); ("datarate", (true, PInt dr)); ("protocol", (true, PStr pr)); ("simulate", (true, PBool sim)); ("verbose", (true, PInt vb))]%string).
Proof. exact programming_accepts. Qed.
Print Assumptions C128_accepts.

(** The sets of tasks of an observer and of a testbed. *)
Theorem C128_observer : forall fw_mod emulation fresh now y p,
  validate fresh now (observer_tasks fw_mod emulation) y = Ok p -> fits_observer p.
Proof. exact observer_limits. Qed.
Print Assumptions C128_observer.

Theorem C128_testbed : forall fw_mod emulation fresh now y p,
  validate fresh now (testbed_tasks fw_mod emulation) y = Ok p -> fits_testbed p.
Proof. exact testbed_limits. Qed.
Print Assumptions C128_testbed.

Theorem C128_testbed_accepts : forall fw_mod emulation fresh now name l r oid,
  good_name (strip name) -> (1 <= List.length l <= 128)%nat ->
  Forall2 (fun y p => validate fresh now (observer_tasks fw_mod emulation) y = Ok p) l r -> (forall z, oid = Some z -> 0 <= z < 2 ^ 128) ->
  validate fresh now (testbed_tasks fw_mod emulation)
    (YMap [("name", YStr name); ("observer_tasks", YList l); ("owner_id", match oid with Some z => YInt z | None => YNull end)]%string) =
  Ok (PObj [("name", (true, PStr (strip name))); ("observer_tasks", (true, PList r)); ("email_results", (false, PBool false));
    ("owner_id", (true, match oid with Some z => PInt z | None => PNone end))]%string).
Proof. exact testbed_accepts. Qed.
Print Assumptions C128_testbed_accepts.

Theorem C128_observer_accepts : forall fw_mod emulation fresh now name oid us off root ab y p,
  good_name (strip name) -> (forall z, oid = Some z -> 0 <= z < 2 ^ 128) -> validate fresh now programming_task y = Ok p ->
  validate fresh now (observer_tasks fw_mod emulation)
    (YMap [("observer", YStr name); ("owner_id", match oid with Some z => YInt z | None => YNull end); ("time_prep", YDate us off);
      ("root_path", YStr root); ("abort_on_error", YBool ab); ("fw2_prog", y)]%string) =
  Ok (PObj [("observer", (true, PStr (strip name))); ("owner_id", (true, match oid with Some z => PInt z | None => PNone end));
    ("time_prep", (true, PDate us off)); ("root_path", (true, PPath root)); ("abort_on_error", (true, PBool ab));
    ("fw1_mod", (false, PNone)); ("fw2_mod", (false, PNone)); ("fw1_prog", (false, PNone)); ("fw2_prog", (true, p)); ("emulation", (false, PNone))]%string).
Proof. exact observer_accepts. Qed.
Print Assumptions C128_observer_accepts.

(** What has to be given, even where none is a possible value. *)
Theorem C128_needed : forall fw_mod emulation fresh now m p,
  (validate fresh now programming_task (YMap m) = Ok p -> incl ["firmware_file"; "mcu_type"; "protocol"]%string (map fst m)) /\
  (validate fresh now (observer_tasks fw_mod emulation) (YMap m) = Ok p ->
    incl ["observer"; "owner_id"; "time_prep"; "root_path"; "abort_on_error"]%string (map fst m)) /\
  (validate fresh now (testbed_tasks fw_mod emulation) (YMap m) = Ok p -> incl ["name"; "observer_tasks"; "owner_id"]%string (map fst m)).
Proof. exact needed. Qed.
Print Assumptions C128_needed.

(** The properties of an experiment: the same limits for names, texts, owners; no negative duration. *)
Theorem C128_experiment : forall version fresh now y p, validate fresh now (experiment version) y = Ok p -> fits_experiment p.
Proof. exact experiment_limits. Qed.
Print Assumptions C128_experiment.

Theorem C128_experiment_accepts : forall version fresh now id name d c us off oid em l1 l2 l3 us' off' dur ab,
  good_name (strip name) -> readable (strip d) -> readable (strip c) -> (forall z, oid = Some z -> 0 <= z < 2 ^ 128) -> 0 <= dur ->
  validate fresh now (experiment version) (YMap [("id", YStr id); ("name", YStr name); ("description", YStr d); ("comment", YStr c); ("created", YDate us off);
    ("owner_id", match oid with Some z => YInt z | None => YNull end); ("email_results", YBool em);
    ("sys_logging", YMap [("dmesg", YBool l1); ("ptp", YBool l2); ("shepherd", YBool l3)]); ("time_start", YDate us' off'); ("duration", YTime dur);
    ("abort_on_error", YBool ab)]%string) =
  Ok (PObj [("id", (true, PUuid id)); ("name", (true, PStr (strip name))); ("description", (true, PStr (strip d))); ("comment", (true, PStr (strip c)));
    ("created", (true, PDate us off)); ("owner_id", (true, match oid with Some z => PInt z | None => PNone end)); ("email_results", (true, PBool em));
    ("sys_logging", (true, PObj [("dmesg", (true, PBool l1)); ("ptp", (true, PBool l2)); ("shepherd", (true, PBool l3))]));
    ("time_start", (true, PDate us' off')); ("duration", (true, PTime dur)); ("abort_on_error", (true, PBool ab)); ("lib_ver", (false, PStr version))]%string).
Proof. exact experiment_accepts. Qed.
Print Assumptions C128_experiment_accepts.

Definition none (_ : string) : pval := PNone.
Definition prog (file mcu : string) : yval :=
  YMap [("firmware_file", YStr file); ("mcu_type", YStr mcu); ("protocol", YStr "SWD")]%string.

(** REFUTED: a controller that no programmer knows is accepted, with a protocol it does not have. *)
Theorem C128_controller_refuted : exists p,
  validate none 0 programming_task (prog "/a/b.hex" "abacus") = Ok p /\ attr "mcu_type" p = Some (PStr "abacus") /\ attr "protocol" p = Some (PStr "SWD").
Proof. eexists. split; [vm_compute; reflexivity|]. split; reflexivity. Qed.
Print Assumptions C128_controller_refuted.

Definition sheep (name root : string) : yval :=
  YMap [("observer", YStr name); ("owner_id", YNull); ("time_prep", YDate 0 None); ("root_path", YStr root); ("abort_on_error", YBool false)]%string.

(** REFUTED: an observer may occur twice in a set; its second set of tasks is never found. *)
Theorem C128_twice_refuted : exists fw_mod emulation p o1 o2,
  validate none 0 (testbed_tasks fw_mod emulation)
    (YMap [("name", YStr "night"); ("observer_tasks", YList [sheep "sheep0" "/first"; sheep "sheep0" "/second"]); ("owner_id", YNull)]%string) = Ok p /\
  attr "observer_tasks" p = Some (PList [o1; o2]) /\ o1 <> o2 /\
  get_observer_tasks p "sheep0" = Some o1.
Proof.
  exists sys_logging, sys_logging. do 3 eexists. split; [vm_compute; reflexivity|]. split; [reflexivity|]. split; [discriminate|reflexivity].
Qed.
Print Assumptions C128_twice_refuted.

Example C128_example :
  validate none 0 programming_task (prog "/data/fw.1/node_3.IHex" "nrf52") =
    Ok (PObj [("firmware_file", (true, PPath "/data/fw.1/node_3.IHex")); ("target_port", (false, PStr "A")); ("mcu_port", (false, PInt 1));
      ("mcu_type", (true, PStr "nrf52")); ("voltage", (false, PFloat 3)); ("datarate", (false, PInt 200000)); ("protocol", (true, PStr "SWD"));
      ("simulate", (false, PBool false)); ("verbose", (false, PInt 2))]%string) /\
  validate none 0 programming_task (prog "/data/fw.hex/node" "nrf52") = Err ValueError /\
  validate none 0 programming_task (prog "/data/.hex" "nrf52") = Err ValueError /\
  validate none 0 programming_task (prog "/data/node.elf" "nrf52") = Err ValueError /\
  hex_file "/data/fw.1/node_3.IHex".
Proof.
  split; [vm_compute; reflexivity|]. split; [vm_compute; reflexivity|]. split; [vm_compute; reflexivity|]. split; [vm_compute; reflexivity|].
  apply file_test. vm_compute. reflexivity.
Qed.

(** Sets are written with the names of their classes. *)
Example C128_class_names : exists doc1 doc2,
  to_file "1.0" 5 [] (testbed_tasks sys_logging sys_logging) (PObj []) ("/t", "set")%string None true = Ok ([(("/t", "set.yaml")%string, doc1)], ("/t", "set.yaml")%string) /\
  read_wrap "1.0" doc1 = Ok (mkWrap "TestbedTasks" None (Some (5, Some 0)) (Some "1.0"%string) []) /\
  to_file "1.0" 5 [] (observer_tasks sys_logging sys_logging) (PObj []) ("/t", "set")%string None true = Ok ([(("/t", "set.yaml")%string, doc2)], ("/t", "set.yaml")%string) /\
  read_wrap "1.0" doc2 = Ok (mkWrap "ObserverTasks" None (Some (5, Some 0)) (Some "1.0"%string) []).
Proof. do 2 eexists. split; [vm_compute; reflexivity|]. split; [vm_compute; reflexivity|]. split; vm_compute; reflexivity. Qed.
