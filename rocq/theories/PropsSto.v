(** Properties of storing and loading data models and tasks: C89 - C92. *)
From Coq Require Import String Ascii.
From Verif Require Import PyBase FileModel FileSpec FileSysProofs UartModel FwModel StoModel StoSpec StoProofs.
From Coq Require Import QArith.
Open Scope Z_scope.

(** The form of an instance in a file. *)
Notation stored minimal := (fun q => represent (model_dump minimal q)).

Definition fresh0 (_ : string) : pval := PNone.
Definition no_iso (_ : string) : option (Z * option Z) := None.
Definition harvest : ty := harvest_task 60 no_iso.
Definition soon : Z := 1700000000000000.

(** A harvest of 30 s that starts at a given time. *)
Definition harvest_in : yval :=
  YMap [("output_path", YStr "/data/rec.h5"); ("time_start", YDate (soon + 3600000000)%Z (Some 60%Z));
        ("duration", YInt 30%Z); ("power_tracing", YMap [("samplerate", YInt 1000%Z)]); ("sys_logging", YNull)]%string.
Definition tracing_fields (duration rate : bool * pval) : list (string * (bool * pval)) :=
  [("intermediate_voltage", (false, PBool false)); ("delay", (false, PTime 0%Z)); ("duration", duration);
   ("calculate_power", (false, PBool false)); ("samplerate", rate);
   ("discard_current", (false, PBool false)); ("discard_voltage", (false, PBool false))]%string.
Definition harvest_p : pval := PObj
  [("output_path", (true, PPath "/data/rec.h5")); ("force_overwrite", (false, PBool false));
   ("output_compression", (false, PStr "lzf"));
   ("time_start", (true, PDate (soon + 3600000000)%Z (Some 60%Z))); ("duration", (true, PTime 30000000%Z));
   ("abort_on_error", (false, PBool false)); ("use_cal_default", (false, PBool false));
   ("power_tracing", (true, PObj (tracing_fields (false, PNone) (true, PInt 1000%Z))));
   ("sys_logging", (true, PNone)); ("verbose", (false, PInt 2%Z))]%string.

(** Power tracing for some time. *)
Definition tracing (us : Z) : pval := PObj (tracing_fields (true, PTime us) (false, PInt 100000)).

(** ** C89: a stored model is read back unchanged *)

(** A minimal file (the default) gives back the instance, also in what was given explicitly. *)
Theorem C89_minimal version now d t p file comment d' out fresh version' now' :
  to_file version now d t p file comment true = Ok (d', out) ->
  distinct t -> has now' t p -> whole p -> calm (stored true) t p -> known t p ->
  from_file fresh version' now' d' t out = Ok p.
Proof. intros T D H W C K. exact (read_back _ _ _ _ _ _ _ true _ _ _ _ _ T D H W C (fun _ => K)). Qed.
Print Assumptions C89_minimal.

(** A complete one gives back the values, whatever factories and defaults say. *)
Theorem C89_full version now d t p file comment d' out fresh version' now' :
  to_file version now d t p file comment false = Ok (d', out) ->
  distinct t -> has now' t p -> whole p -> calm (stored false) t p ->
  exists q, from_file fresh version' now' d' t out = Ok q /\ same q p.
Proof.
  intros T D H W C. exists (plain p). split; [| apply plain_plain].
  apply (read_back _ _ _ _ _ _ _ false _ _ _ _ _ T D H W C). intro E; discriminate E.
Qed.
Print Assumptions C89_full.

(** In particular what was built from a configuration. *)
Theorem C89_built version now d t y p file comment d' out fresh fresh' version' :
  validate fresh now t y = Ok p -> sound fresh now t -> distinct t -> unaltered t -> lasting t -> whole p ->
  to_file version now d t p file comment true = Ok (d', out) ->
  from_file fresh' version' now d' t out = Ok p.
Proof.
  intros V S D U L W T. eapply C89_minimal; try eassumption.
  - exact (built fresh now t y p S V).
  - now apply unaltered_calm.
  - now apply lasting_known.
Qed.
Print Assumptions C89_built.

(** A harvest task, read at any time before its start. *)
Theorem C89_harvest tz iso fresh now y p version now1 d file comment d' out fresh' version' now' :
  validate fresh now (harvest_task tz iso) y = Ok p -> whole p ->
  (forall us off, attr "time_start" p = Some (PDate us (Some off)) -> now' <= us - off * 60000000) ->
  to_file version now1 d (harvest_task tz iso) p file comment true = Ok (d', out) ->
  from_file fresh' version' now' d' (harvest_task tz iso) out = Ok p.
Proof. intros V W L T. exact (harvest_back _ _ _ _ _ _ _ _ _ _ _ true _ _ _ _ _ V T W L). Qed.
Print Assumptions C89_harvest.

(** Of durations that are not whole seconds the fraction is lost, and nothing else. *)
Theorem C89_seconds version now d t p file comment d' out fresh version' now' :
  to_file version now d t p file comment true = Ok (d', out) ->
  distinct t -> has now' t (cut p) -> calm (stored true) t (cut p) -> known t (cut p) ->
  from_file fresh version' now' d' t out = Ok (cut p).
Proof. intros T D H C K. exact (cut_back _ _ _ _ _ _ _ true _ _ _ _ _ T D H C (fun _ => K)). Qed.
Print Assumptions C89_seconds.

(** The file is plain YAML: every part of it can be read without Python's objects. *)
Theorem C89_document version now d t p file comment minimal d' out :
  to_file version now d t p file comment minimal = Ok (d', out) ->
  exists doc, find_doc d' out = Some doc /\ portable doc.
Proof. apply document_portable. Qed.
Print Assumptions C89_document.

(** A start given as a number of seconds is that instant, in whatever zone. *)
Theorem C89_instant tz iso fresh now m p y us :
  validate fresh now (harvest_task tz iso) (YMap m) = Ok p -> assoc "time_start" m = Some y ->
  (exists z, y = YInt z /\ us = z * 1000000) \/ (exists q, y = YFloat q /\ us = qround (q * 1000000)) ->
  exists wall, attr "time_start" p = Some (PDate wall (Some tz)) /\ wall - tz * 60000000 = us.
Proof. apply harvest_instant. Qed.
Print Assumptions C89_instant.

(** No power is traced for a negative time, and not without both quantities. *)
Theorem C89_sensible fresh now y p : validate fresh now power_tracing y = Ok p ->
  (forall us, attr "delay" p = Some (PTime us) -> 0 <= us) /\
  (forall us, attr "duration" p = Some (PTime us) -> 0 <= us) /\
  (attr "discard_current" p = Some (PBool true) -> attr "discard_voltage" p = Some (PBool true) -> False) /\
  attr "calculate_power" p <> Some (PBool true).
Proof. apply tracing_sensible. Qed.
Print Assumptions C89_sensible.

(** Half a second of power tracing becomes none. *)
Theorem C89_fraction_refuted : exists p d out,
  has 0 power_tracing p /\ to_file "1.0" 0 [] power_tracing p ("/t", "pt")%string None true = Ok (d, out) /\
  from_file fresh0 "1.0" 0 d power_tracing out = Ok (tracing 0) /\ p = tracing 500000.
Proof.
  eexists (tracing 500000), _, _. split; [| split; [reflexivity | split; reflexivity]].
  cbn. repeat split; intro E; discriminate E.
Qed.
Print Assumptions C89_fraction_refuted.

(** An experiment gets another identifier each time its minimal file is read. *)
Definition fresh1 (n : string) : pval :=
  if (n =? "id")%string then PUuid "11111111-1111-4111-8111-111111111111" else PDate 1 None.
Definition fresh2 (n : string) : pval :=
  if (n =? "id")%string then PUuid "22222222-2222-4222-8222-222222222222" else PDate 2 None.
Theorem C89_identifier_refuted : exists p q d out,
  validate fresh1 1 (experiment "1.0") (YMap [("name"%string, YStr "first")]) = Ok p /\
  to_file "1.0" 1 [] (experiment "1.0") p ("/t", "xp")%string None true = Ok (d, out) /\
  from_file fresh2 "1.0" 2 d (experiment "1.0") out = Ok q /\
  attr "id" q <> attr "id" p /\ attr "created" q <> attr "created" p /\ attr "name" q = attr "name" p.
Proof.
  do 4 eexists. split; [reflexivity |]. split; [reflexivity |]. split; [reflexivity |].
  repeat split; discriminate.
Qed.
Print Assumptions C89_identifier_refuted.

(** A task cannot be read any more once its start has passed. *)
Theorem C89_expired_refuted : exists p d out,
  validate fresh0 soon harvest harvest_in = Ok p /\
  to_file "1.0" soon [] harvest p ("/t", "task")%string None true = Ok (d, out) /\
  from_file fresh0 "1.0" soon d harvest out = Ok p /\
  from_file fresh0 "1.0" (soon + 1) d harvest out = Err ValueError.
Proof. do 3 eexists. repeat split; vm_compute; reflexivity. Qed.
Print Assumptions C89_expired_refuted.

Example C89_harvest_p : validate fresh0 soon harvest harvest_in = Ok harvest_p /\ whole harvest_p.
Proof. split; [vm_compute; reflexivity |]. cbn. repeat split. - now exists 30. - now exists 0. Qed.

Example C89_file : exists d, to_file "1.0" soon [] harvest harvest_p ("/t", "task")%string (Some "for you"%string) true
    = Ok (d, ("/t", "task.yaml")%string) /\
  find_doc d ("/t", "task.yaml")%string = Some (YMap
    [("datatype", YStr "HarvestTask"); ("comment", YStr "for you"); ("created", YDate soon (Some 0%Z));
     ("parameters", YMap [("output_path", YStr "/data/rec.h5");
        ("time_start", YDate (soon + 3600000000)%Z (Some 60%Z)); ("duration", YInt 30%Z);
        ("power_tracing", YMap [("samplerate", YInt 1000%Z)]); ("sys_logging", YNull)])])%string.
Proof. eexists. split; reflexivity. Qed.

Example C89_sound : sound fresh0 0 power_tracing /\ distinct power_tracing /\ unaltered power_tracing /\ lasting power_tracing.
Proof. cbn. repeat split; try (intro E; discriminate E); repeat constructor; cbn; intuition discriminate. Qed.

Example C89_tracing : has 0 power_tracing (tracing 5000000) /\ whole (tracing 5000000) /\
  cut (tracing 5900000) = tracing 5000000.
Proof. cbn. repeat split; try (intro E; discriminate E). - now exists 0. - now exists 5. Qed.

(** ** C90: a file is read as what it was stored as *)

(** Reading another class fails, whatever the parameters look like. *)
Theorem C90_class version now d t p file comment minimal d' out fresh version' now' t' :
  to_file version now d t p file comment minimal = Ok (d', out) -> cls_name t' <> cls_name t ->
  from_file fresh version' now' d' t' out = Err ValueError.
Proof. exact (other_class version now d t p file comment minimal d' out fresh version' now' t'). Qed.
Print Assumptions C90_class.

Theorem C90_reads_own fresh version now d t file p :
  from_file fresh version now d t file = Ok p ->
  exists m, find_doc d file = Some (YMap m) /\ assoc "datatype" m = Some (YStr (cls_name t)) /\
  exists ps, assoc "parameters" m = Some (YMap ps) /\ validate fresh now t (YMap ps) = Ok p.
Proof.
  unfold from_file. destruct (find_doc d file) as [y |]; [| intro E; discriminate E].
  destruct y as [| | | | | | | m | | | |]; try (intro E; discriminate E). intro H. exists m.
  split; [reflexivity |]. cbn [read_wrap] in H.
  destruct (assoc "datatype" m) as [[| | | | s | | | | | | |] |]; try discriminate H. cbn [bind] in H.
  destruct (match assoc "comment" m with None | Some YNull => Ok None | _ => _ end); [| discriminate H]. cbn [bind] in H.
  destruct (match assoc "created" m with None | Some YNull => Ok None | _ => _ end); [| discriminate H]. cbn [bind] in H.
  destruct (match assoc "lib_ver" m with None => _ | _ => _ end); [| discriminate H]. cbn [bind] in H.
  destruct (assoc "parameters" m) as [[| | | | | | | ps | | | |] |]; try discriminate H. cbn [bind w_datatype w_parameters] in H.
  destruct (String.eqb_spec s (cls_name t)) as [-> |]; [| discriminate H]. cbn [bind] in H.
  split; [reflexivity |]. exists ps. split; [reflexivity | exact H].
Qed.
Print Assumptions C90_reads_own.

(** Comment and time of creation are kept, and in complete files the version that wrote it. *)
Theorem C90_header version now d t p file comment minimal d' out version' :
  to_file version now d t p file comment minimal = Ok (d', out) ->
  exists y w, find_doc d' out = Some y /\ read_wrap version' y = Ok w /\
    w_datatype w = cls_name t /\ w_comment w = comment /\ w_created w = Some (now, Some 0) /\
    (minimal = false -> w_lib_ver w = Some version).
Proof.
  intro H. destruct (stored_header _ _ _ _ _ _ _ _ _ _ version' H) as (y & w & H1 & H2 & H3 & H4 & H5 & _ & H6).
  exists y, w. tauto.
Qed.
Print Assumptions C90_header.

(** In minimal files it is not there: every reader finds its own version. *)
Theorem C90_version_refuted : exists p d out y w,
  to_file "1.0" 0 [] sys_logging p ("/t", "x")%string None true = Ok (d, out) /\
  find_doc d out = Some y /\ read_wrap "2.0" y = Ok w /\ w_lib_ver w = Some "2.0"%string.
Proof. exists (PObj []). do 4 eexists. repeat split. Qed.
Print Assumptions C90_version_refuted.

(** The same for the version an experiment carries itself. *)
Theorem C90_experiment_refuted : exists p q d out,
  validate fresh1 1 (experiment "1.0") (YMap [("name"%string, YStr "first")]) = Ok p /\
  to_file "1.0" 1 [] (experiment "1.0") p ("/t", "xp")%string None true = Ok (d, out) /\
  from_file fresh1 "2.0" 2 d (experiment "2.0") out = Ok q /\
  attr "lib_ver" p = Some (PStr "1.0") /\ attr "lib_ver" q = Some (PStr "2.0").
Proof. do 4 eexists. repeat split; reflexivity. Qed.
Print Assumptions C90_experiment_refuted.

(** A comment that is not printable is refused. *)
Theorem C90_comment version now d t fs file c minimal :
  (exists a, In a (list_ascii_of_string c) /\ ((nat_of_ascii a < 32)%nat \/ (126 < nat_of_ascii a)%nat)) \/ c = EmptyString ->
  to_file version now d t (PObj fs) file (Some c) minimal = Err ValueError.
Proof.
  intro H. unfold to_file. cbn [model_dump].
  assert (E : safe_str c = false).
  { destruct H as [(a & Ha & Hn) | ->]; [| reflexivity]. unfold safe_str. destruct c as [| c0 c]; [reflexivity |].
    destruct (forallb _ _) eqn:F; [exfalso | reflexivity]. rewrite forallb_forall in F. specialize (F a Ha).
    cbv beta zeta in F. apply andb_true_iff in F as [F1 F2]. apply Nat.leb_le in F1, F2. destruct Hn; lia. }
  now rewrite E.
Qed.
Print Assumptions C90_comment.

Example C90_ex : exists d out, to_file "1.0" soon [] harvest harvest_p ("/t", "task")%string None false = Ok (d, out) /\
  from_file fresh0 "1.0" soon d power_tracing out = Err ValueError /\
  exists q, from_file fresh0 "1.0" soon d harvest out = Ok q /\ same q harvest_p /\ q <> harvest_p.
Proof.
  do 2 eexists. split; [reflexivity |]. split; [reflexivity |]. eexists. split; [vm_compute; reflexivity |].
  split; [reflexivity | discriminate].
Qed.

(** ** C91: files of models *)

(** The suffix is replaced, and only this file is written. *)
Theorem C91_path version now d t p dir name comment minimal d' out :
  to_file version now d t p (dir, name) comment minimal = Ok (d', out) ->
  out = (dir, (stem name ++ ".yaml")%string).
Proof. intro H. apply to_file_obj in H as (fs & m & _ & _ & _ & -> & _). reflexivity. Qed.
Print Assumptions C91_path.

Theorem C91_others version now d t p file comment minimal d' out q :
  to_file version now d t p file comment minimal = Ok (d', out) -> q <> out -> find_doc d' q = find_doc d q.
Proof. exact (other_files version now d t p file comment minimal d' out q). Qed.
Print Assumptions C91_others.

(** Names without a dot stay different. *)
Theorem C91_both version now d t p dir name comment minimal d1 out1
    version' now' t' p' name' comment' minimal' d2 out2 :
  to_file version now d t p (dir, name) comment minimal = Ok (d1, out1) ->
  to_file version' now' d1 t' p' (dir, name') comment' minimal' = Ok (d2, out2) ->
  no_dot name -> no_dot name' -> name <> name' ->
  find_doc d2 out1 = find_doc d1 out1 /\ find_doc d2 out2 <> None.
Proof.
  intros H1 H2 N1 N2 Hn. pose proof (C91_path _ _ _ _ _ _ _ _ _ _ _ H1) as E1.
  pose proof (C91_path _ _ _ _ _ _ _ _ _ _ _ H2) as E2.
  rewrite !stem_nodot in * by assumption. split.
  - eapply C91_others; [exact H2 |]. rewrite E1, E2. intro K. injection K as K. apply append_inj_r in K. contradiction.
  - apply to_file_obj in H2 as (fs & m & _ & _ & _ & _ & ->). cbn [find_doc]. rewrite path_refl. discriminate.
Qed.
Print Assumptions C91_both.

(** With a dot the last part of the name is taken for a suffix: two versions of a file end up in
    the same one, and the second replaces the first. *)
Theorem C91_collide_refuted : exists d1 d2 out,
  to_file "1.0" 0 [] power_tracing (tracing 1000000) ("/t", "tasks_v1.0")%string None true = Ok (d1, out) /\
  to_file "1.0" 0 d1 power_tracing (tracing 2000000) ("/t", "tasks_v1.1")%string None true = Ok (d2, out) /\
  from_file fresh0 "1.0" 0 d1 power_tracing out = Ok (tracing 1000000) /\
  from_file fresh0 "1.0" 0 d2 power_tracing out = Ok (tracing 2000000).
Proof. do 3 eexists. repeat split; reflexivity. Qed.
Print Assumptions C91_collide_refuted.

(** A name can only be read again if it ended in .yaml. *)
Theorem C91_requested version now t p dir name comment minimal d' out fresh version' now' t' :
  to_file version now [] t p (dir, name) comment minimal = Ok (d', out) ->
  (stem name ++ ".yaml" <> name)%string ->
  from_file fresh version' now' d' t' (dir, name) = Err FileNotFoundError.
Proof.
  intros H Hn. unfold from_file. rewrite (C91_others _ _ _ _ _ _ _ _ _ _ _ H); [reflexivity |].
  rewrite (C91_path _ _ _ _ _ _ _ _ _ _ _ H). intro K. injection K as K. now apply Hn.
Qed.
Print Assumptions C91_requested.

Example C91_stem : (stem "task.json" ++ ".yaml" = "task.yaml")%string /\ (stem "task.yaml" ++ ".yaml" = "task.yaml")%string
  /\ (stem "task" ++ ".yaml" = "task.yaml")%string.
Proof. repeat split. Qed.

(** ** C92: an observer gets its tasks *)

Section Classes.
Variables emulation harv fw_mod programming obs_tasks tb_tasks : ty.
Hypothesis N1 : cls_name emulation = "EmulationTask"%string.
Hypothesis N2 : cls_name harv = "HarvestTask"%string.
Hypothesis N3 : cls_name fw_mod = "FirmwareModTask"%string.
Hypothesis N4 : cls_name programming = "ProgrammingTask"%string.
Hypothesis N5 : cls_name obs_tasks = "ObserverTasks"%string.
Hypothesis N6 : cls_name tb_tasks = "TestbedTasks"%string.
Variables (fresh : string -> pval) (version : string) (now : Z).
Notation prepare := (prepare_task obs_tasks tb_tasks fresh version now).
Notation extract := (extract_tasks emulation harv fw_mod programming obs_tasks tb_tasks fresh now).

(** A single task comes out as it went in, given directly or as its file, for any observer. *)
Theorem C92_single d t p o b : In t [emulation; harv; fw_mod; programming] ->
  distinct t -> has now t p -> calm (model_dump false) t p ->
  exists w q, prepare d (CModel t p) o = Ok w /\ extract w b = Ok [q] /\ same q p.
Proof.
  intros Ht D H C.
  pose proof (model_tasks _ _ _ _ _ _ N1 N2 N3 N4 N5 N6 fresh version now d t p o b
    (in_or_app [emulation; harv; fw_mod; programming] [obs_tasks] t (or_introl Ht)) D H C) as M.
  destruct (prepare d (CModel t p) o) as [w |]; [| discriminate M]. cbn [bind] in M.
  exists w, (plain p). split; [reflexivity |]. split; [| apply plain_plain]. rewrite M. unfold tasks.
  destruct Ht as [<- | [<- | [<- | [<- | []]]]]; rewrite ?N1, ?N2, ?N3, ?N4; reflexivity.
Qed.

Theorem C92_file d t p o b version' now' file comment minimal d' out : In t [emulation; harv; fw_mod; programming] ->
  to_file version' now' d t p file comment minimal = Ok (d', out) ->
  distinct t -> has now t p -> whole p -> calm (stored minimal) t p -> (minimal = true -> known t p) ->
  exists w q, prepare d' (CFile out) o = Ok w /\ extract w b = Ok [q] /\ same q p.
Proof.
  intros Ht T D H W C K.
  pose proof (file_tasks _ _ _ _ _ _ N1 N2 N3 N4 N5 N6 fresh version now d t p o b version' now' file comment minimal d' out
    (in_or_app [emulation; harv; fw_mod; programming] [obs_tasks] t (or_introl Ht)) T D H W C K) as M.
  destruct (prepare d' (CFile out) o) as [w |]; [| discriminate M]. cbn [bind] in M.
  exists w, (back minimal p). split; [reflexivity |].
  split; [| destruct minimal; [reflexivity | apply plain_plain]]. rewrite M. unfold tasks.
  destruct Ht as [<- | [<- | [<- | [<- | []]]]]; rewrite ?N1, ?N2, ?N3, ?N4; reflexivity.
Qed.

(** Out of the tasks of the testbed each observer gets its own, firmware first. *)
Theorem C92_observer p l name d b obt :
  distinct tb_tasks -> has now tb_tasks p -> calm (model_dump false) tb_tasks p ->
  attr "observer_tasks" p = Some (PList l) ->
  (forall t, In t l -> exists s, attr "observer" t = Some (PStr s)) ->
  In obt l -> attr "observer" obt = Some (PStr name) ->
  (forall t, In t l -> attr "observer" t = Some (PStr name) -> t = obt) ->
  distinct obs_tasks -> has now obs_tasks obt -> calm (model_dump false) obs_tasks obt ->
  exists w ts, prepare d (CModel tb_tasks p) (Some name) = Ok w /\ extract w b = Ok ts /\
    Forall2 same ts (flat_map (fun n => match attr n obt with
                                        | Some PNone | None => [] | Some t => [t] end)
                     ["fw1_mod"; "fw2_mod"; "fw1_prog"; "fw2_prog"; "emulation"]%string).
Proof.
  intros Dp Hp Cp Al Ol Hi Ho Hu Do Hh Co.
  pose proof (known_observer _ _ _ _ _ _ N1 N2 N3 N4 N5 N6 fresh version now p l name d b Dp Hp Cp Al Ol obt
    Hi Ho Hu Do Hh Co) as M.
  destruct (prepare d (CModel tb_tasks p) (Some name)) as [w |]; [| discriminate M]. cbn [bind] in M.
  eexists w, _. split; [reflexivity |]. split; [exact M |].
  unfold get_tasks. induction (flat_map _ _) as [| q qs IH]; constructor; [apply plain_plain | exact IH].
Qed.

(** One that has none gets an error. *)
Theorem C92_unknown p l name d :
  distinct tb_tasks -> has now tb_tasks p -> calm (model_dump false) tb_tasks p ->
  attr "observer_tasks" p = Some (PList l) ->
  (forall t, In t l -> exists s, attr "observer" t = Some (PStr s) /\ s <> name) ->
  prepare d (CModel tb_tasks p) (Some name) = Err ValueError.
Proof.
  intros Dp Hp Cp Al Ol.
  apply (unknown_observer _ _ _ _ _ _ N1 N2 N3 N4 N5 N6 fresh version now p l name d Dp Hp Cp Al).
  - intros t Ht. destruct (Ol t Ht) as (s & E & _). now exists s.
  - intros t Ht K. destruct (Ol t Ht) as (s & E & Hs). congruence.
Qed.

(** Without an observer the set stays together, and is only handed out when sets are asked for. *)
Theorem C92_set p d :
  distinct tb_tasks -> has now tb_tasks p -> calm (model_dump false) tb_tasks p ->
  exists w q, prepare d (CModel tb_tasks p) None = Ok w /\ extract w true = Err ValueError /\
    extract w false = Ok [q] /\ same q p.
Proof.
  intros Dp Hp Cp.
  destruct (whole_set _ _ _ _ _ _ N1 N2 N3 N4 N5 N6 fresh version now p d Dp Hp Cp) as (W1 & W2 & W3).
  eexists _, _. split; [exact W1 |]. split; [exact W2 |]. split; [exact W3 | apply plain_plain].
Qed.

(** Anything else is no task. *)
Theorem C92_other w b :
  ~ In (w_datatype w) ["EmulationTask"; "HarvestTask"; "FirmwareModTask"; "ProgrammingTask"; "ObserverTasks";
                       "TestbedTasks"]%string ->
  extract w b = Err ValueError.
Proof.
  intro H. apply (unknown_class _ _ _ _ _ _ fresh version). cbn [map]. rewrite N1, N2, N3, N4, N5, N6. exact H.
Qed.
End Classes.
Print Assumptions C92_single.
Print Assumptions C92_file.
Print Assumptions C92_observer.
Print Assumptions C92_unknown.
Print Assumptions C92_set.
Print Assumptions C92_other.

(** Two observers, one with two firmwares. *)
Definition emu : ty := TObj "EmulationTask" no_pre [("input_path"%string, (TPath, Required))] no_post.
Definition fwm : ty := TObj "FirmwareModTask" no_pre [("firmware_file"%string, (TPath, Required))] no_post.
Definition obst : ty := observer_tasks fwm emu.
Definition tbt : ty := testbed_tasks fwm emu.
Definition prog_in (file : string) : yval :=
  YMap [("firmware_file", YStr file); ("mcu_type", YStr "nrf52"); ("protocol", YStr "SWD")]%string.
Definition obs_in (name : string) (rest : list (string * yval)) : yval :=
  YMap ([("observer", YStr name); ("owner_id", YNull); ("time_prep", YDate 0%Z None); ("root_path", YStr "/x");
         ("abort_on_error", YBool false)]%string ++ rest).
Definition set_in : yval :=
  YMap [("name"%string, YStr "xp"); ("owner_id"%string, YInt 7%Z);
        ("observer_tasks"%string, YList
           [obs_in "sheep0" [("emulation", YMap [("input_path", YStr "/in0.h5")])];
            obs_in "sheep1" [("fw2_prog", prog_in "/x/fw2.HEX"); ("emulation", YMap [("input_path", YStr "/in1.h5")]);
                             ("fw1_prog", prog_in "/x/fw1.hex")]])]%string.

Example C92_sheep1 : exists p w ts, validate fresh0 0 tbt set_in = Ok p /\
  prepare_task obst tbt fresh0 "1.0" 0 [] (CModel tbt p) (Some "sheep1"%string) = Ok w /\
  extract_tasks emu harvest fwm programming_task obst tbt fresh0 0 w true = Ok ts /\
  map (attr "firmware_file") ts = [Some (PPath "/x/fw1.hex"); Some (PPath "/x/fw2.HEX"); None] /\
  map (attr "input_path") ts = [None; None; Some (PPath "/in1.h5")] /\
  prepare_task obst tbt fresh0 "1.0" 0 [] (CModel tbt p) (Some "sheep2"%string) = Err ValueError.
Proof. do 3 eexists. repeat split; vm_compute; reflexivity. Qed.

(** The hypotheses of C92_observer hold for it: the classes and whatever they make. *)
Example C92_classes : distinct tbt /\ sound fresh0 0 tbt /\ unaltered tbt /\ lasting tbt.
Proof.
  cbn. repeat split; try (intro E; discriminate E); repeat constructor; cbn; intuition discriminate.
Qed.
Example C92_not_hex : validate fresh0 0 programming_task (prog_in "/x/fw.elf") = Err ValueError /\
  validate fresh0 0 programming_task (prog_in "/x.hex/fw") = Err ValueError.
Proof. split; reflexivity. Qed.
