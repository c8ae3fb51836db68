(** Model of storing and loading data models:
    shepherd_core/shepherd_core/data_models/base/shepherd.py (SH), base/wrapper.py (WR),
    task/__init__.py (TA).

    A class is described by its fields, with type and default, and its two validators.  pydantic
    (validation, model_dump) and PyYAML are external.  pydantic is modelled for the types and
    the configuration of SH:66-77; of its lenient conversions only those are kept that reading
    a stored file needs (a number for a duration, text for a path, and so on), everything else of
    the wrong type is a ValueError.  PyYAML is taken to give back the tree of scalars, lists and
    maps that was dumped.  Numbers are exact; a duration is its number of microseconds. *)
From Coq Require Import String Ascii.
From Verif Require Import PyBase FileModel UartModel FwModel.
From Coq Require Import QArith.
Open Scope Z_scope.

(* ------------------------------------------------------------------ values *)

(** What [model_dump] produces.  Paths, ids, addresses and durations are still objects;
    a YAML document consists of the other ones only.  A date has an optional offset (minutes). *)
Inductive yval :=
| YNull | YBool (b : bool) | YInt (z : Z) | YFloat (q : Q) | YStr (s : string)
| YDate (us : Z) (off : option Z)
| YList (l : list yval) | YMap (m : list (string * yval))
| YTime (us : Z) | YPath (s : string) | YUuid (s : string) | YIp (s : string).

(** Values of attributes.  Of each attribute of an instance it is known whether it was given
    explicitly (model_fields_set). *)
Inductive pval :=
| PNone | PBool (b : bool) | PInt (z : Z) | PFloat (q : Q) | PStr (s : string)
| PDate (us : Z) (off : option Z) | PTime (us : Z)
| PPath (s : string) | PUuid (s : string) | PIp (s : string)
| PList (l : list pval) | PObj (fs : list (string * (bool * pval))).

(** SH:26-40, 43-48: the representers for the objects.  A duration becomes
    [int(data.total_seconds())], that is rounded towards 0. *)
Fixpoint represent (y : yval) : yval :=
  match y with
  | YTime us => YInt (Z.quot us 1000000)
  | YPath s | YUuid s | YIp s => YStr s
  | YList l => YList (map represent l)
  | YMap m => YMap (map (fun kv => match kv with (k, v) => (k, represent v) end) m)
  | _ => y
  end.

(** pydantic's model_dump(exclude_unset=minimal). *)
Fixpoint model_dump (minimal : bool) (p : pval) : yval :=
  match p with
  | PNone => YNull | PBool b => YBool b | PInt z => YInt z | PFloat q => YFloat q | PStr s => YStr s
  | PDate us off => YDate us off | PTime us => YTime us
  | PPath s => YPath s | PUuid s => YUuid s | PIp s => YIp s
  | PList l => YList (map (model_dump minimal) l)
  | PObj fs => YMap (flat_map (fun f => match f with
                 (n, (set, v)) => if minimal && negb set then [] else [(n, model_dump minimal v)] end) fs)
  end.

(* ------------------------------------------------------------------ classes *)

(** Default of a field: none, a value, or a factory that makes another one each time. *)
Inductive dflt := Required | Const (p : pval) | Factory.

(** Types with their constraints.  A class has a name, a validator before (mode="before": dict to
    dict), its fields, and one after, which may look at the clock. *)
Inductive ty :=
| TBool | TInt (ok : Z -> bool) | TFloat (ok : Q -> bool) | TStr (ok : string -> bool)
| TDate | TTime | TPath | TUuid (ok : string -> bool) | TIp (ok : string -> bool)
| TOpt (t : ty) | TList (ok : nat -> bool) (t : ty)
| TObj (name : string) (pre : list (string * yval) -> res (list (string * yval)))
       (fields : list (string * (ty * dflt))) (post : Z -> list (string * pval) -> bool).

(** str_strip_whitespace=True (SH:74): str.strip() for ASCII. *)
Definition white (c : ascii) : bool :=
  let n := nat_of_ascii c in ((9 <=? n) && (n <=? 13) || (28 <=? n) && (n <=? 32))%nat.
Fixpoint lstrip (l : list ascii) : list ascii :=
  match l with c :: l' => if white c then lstrip l' else l | [] => [] end.
Definition strip (s : string) : string :=
  string_of_list_ascii (rev (lstrip (rev (lstrip (list_ascii_of_string s))))).

Fixpoint assoc {A} (n : string) (l : list (string * A)) : option A :=
  match l with
  | [] => None
  | (k, v) :: l' => if (k =? n)%string then Some v else assoc n l'
  end.

(** Each element, the first error wins. *)
Section Each.
Context {A B : Type} (f : A -> res B).
Fixpoint each (l : list A) : res (list B) :=
  match l with
  | [] => Ok []
  | a :: l' => let* b := f a in let* r := each l' in Ok (b :: r)
  end.
End Each.

(** The values of a model, without what was given explicitly; validators see these. *)
Fixpoint plain (p : pval) : pval :=
  match p with
  | PList l => PList (map plain l)
  | PObj fs => PObj (map (fun f => match f with (n, (_, v)) => (n, (true, plain v)) end) fs)
  | _ => p
  end.
Definition values (fs : list (string * (bool * pval))) : list (string * pval) :=
  map (fun f => (fst f, plain (snd (snd f)))) fs.

(** pydantic's validation, with [fresh] the values the factories give and [now] the time.
    extra="forbid" (SH:68); defaults are valid (validate_default, SH:69). *)
Fixpoint validate (fresh : string -> pval) (now : Z) (t : ty) (y : yval) {struct t} : res pval :=
  match t, y with
  | TBool, YBool b => Ok (PBool b)
  | TInt ok, YInt z => guard ok z or ValueError;; Ok (PInt z)
  | TFloat ok, YFloat q => guard ok q or ValueError;; Ok (PFloat q)
  | TFloat ok, YInt z => guard ok (inject_Z z) or ValueError;; Ok (PFloat (inject_Z z))
  | TStr ok, YStr s => guard ok (strip s) or ValueError;; Ok (PStr (strip s))
  | TDate, YDate us off => Ok (PDate us off)
  | TTime, YTime us => Ok (PTime us)
  | TTime, YInt z => Ok (PTime (z * 1000000))
  | TTime, YFloat q => Ok (PTime (qround (q * 1000000)))
  | TPath, YPath s | TPath, YStr s => Ok (PPath s)
  | TUuid ok, YUuid s | TUuid ok, YStr s => guard ok s or ValueError;; Ok (PUuid s)
  | TIp ok, YIp s | TIp ok, YStr s => guard ok s or ValueError;; Ok (PIp s)
  | TOpt t', YNull => Ok PNone
  | TOpt t', _ => validate fresh now t' y
  | TList ok t', YList l =>
      guard ok (List.length l) or ValueError;;
      let* r := each (validate fresh now t') l in Ok (PList r)
  | TObj _ pre fields post, YMap m =>
      let* m := pre m in
      guard forallb (fun kv => existsb (String.eqb (fst kv)) (map fst fields)) m or ValueError;;
      let* fs := each (fun f => match f with (n, (t', d)) =>
          match assoc n m with
          | Some y' => let* v := validate fresh now t' y' in Ok (n, (true, v))
          | None => match d with
                    | Required => Err ValueError
                    | Const v => Ok (n, (false, v))
                    | Factory => Ok (n, (false, fresh n))
                    end
          end end) fields in
      guard post now (values fs) or ValueError;;
      Ok (PObj fs)
  | _, _ => Err ValueError
  end.

Definition cls_name (t : ty) : string := match t with TObj n _ _ _ => n | _ => EmptyString end.

(* ------------------------------------------------------------------ wrapper *)

(** WR:17-29, Wrapper. *)
Record wrapper := mkWrap {
  w_datatype : string; w_comment : option string; w_created : option (Z * option Z);
  w_lib_ver : option string; w_parameters : list (string * yval) }.

(** WR:12, the pattern of comments: printable ASCII, not empty. *)
Definition safe_str (s : string) : bool :=
  match s with EmptyString => false | _ =>
    forallb (fun c => let n := nat_of_ascii c in (32 <=? n)%nat && (n <=? 126)%nat) (list_ascii_of_string s)
  end.

(** SH:138-147, the document of [to_file]: exclude_defaults drops a missing comment,
    exclude_unset the version, which is never given. *)
Definition wrap_doc (version : string) (minimal : bool) (w : wrapper) : yval :=
  YMap ([("datatype"%string, YStr (w_datatype w))] ++
        match w_comment w with
        | Some c => [("comment"%string, YStr c)]
        | None => if minimal then [] else [("comment"%string, YNull)] end ++
        match w_created w with
        | Some (us, off) => [("created"%string, YDate us off)]
        | None => if minimal then [] else [("created"%string, YNull)] end ++
        (if minimal then [] else [("lib_ver"%string, YStr version)]) ++
        [("parameters"%string, YMap (w_parameters w))]).

(** Wrapper( **shp_dict ) of SH:161; unknown keys are ignored (WR has no "forbid"). *)
Definition read_wrap (version : string) (y : yval) : res wrapper :=
  match y with
  | YMap m =>
      let* d := match assoc "datatype" m with Some (YStr s) => Ok s | _ => Err ValueError end in
      let* c := match assoc "comment" m with
                | None | Some YNull => Ok None
                | Some (YStr s) => guard safe_str s or ValueError;; Ok (Some s)
                | _ => Err ValueError end in
      let* t := match assoc "created" m with
                | None | Some YNull => Ok None
                | Some (YDate us off) => Ok (Some (us, off))
                | _ => Err ValueError end in
      let* l := match assoc "lib_ver" m with
                | None => Ok (Some version)
                | Some YNull => Ok None
                | Some (YStr s) => Ok (Some s)
                | _ => Err ValueError end in
      let* p := match assoc "parameters" m with Some (YMap p) => Ok p | _ => Err ValueError end in
      Ok (mkWrap d c t l p)
  | _ => Err TypeError
  end.

(* ------------------------------------------------------------------ files *)

(** Files with their YAML documents; [d_time] is the clock.  Missing parent directories are
    created (SH:150-151), so directories are no part of the state. *)
Definition disk : Type := list (path * yval).
Fixpoint find_doc (d : disk) (p : path) : option yval :=
  match d with [] => None | (q, y) :: d' => if path_eqb q p then Some y else find_doc d' p end.

(** SH:124-154, to_file.  The model is an instance of the class [t]. *)
Definition to_file (version : string) (now : Z) (d : disk) (t : ty) (p : pval) (file : path)
    (comment : option string) (minimal : bool) : res (disk * path) :=
  match model_dump minimal p with
  | YMap params =>
      guard match comment with Some c => safe_str c | None => true end or ValueError;;
      let w := mkWrap (cls_name t) comment (Some (now, Some 0)) (Some version) params in
      let doc := represent (wrap_doc version minimal w) in
      let out := with_suffix file ".yaml" in
      Ok ((out, doc) :: d, out)
  | _ => Err AttributeError
  end.

(** SH:156-164, from_file. *)
Definition from_file (fresh : string -> pval) (version : string) (now : Z) (d : disk) (t : ty)
    (file : path) : res pval :=
  match find_doc d file with
  | None => Err FileNotFoundError
  | Some doc =>
      let* w := read_wrap version doc in
      guard (w_datatype w =? cls_name t)%string or ValueError;;
      validate fresh now t (YMap (w_parameters w))
  end.

(* ------------------------------------------------------------------ tasks *)

Definition attr (n : string) (p : pval) : option pval :=
  match p with PObj fs => option_map snd (assoc n fs) | _ => None end.

(** A configuration: the path of a file, or an instance. *)
Inductive config := CFile (file : path) | CModel (t : ty) (p : pval).

Section Tasks.
(** The classes of TA:15-21. *)
Variables emulation harvest fw_mod programming obs_tasks tb_tasks : ty.
Variables (fresh : string -> pval) (version : string) (now : Z).

(** testbed_tasks.py:47-51, get_observer_tasks. *)
Definition get_observer_tasks (tbt : pval) (observer : string) : option pval :=
  match attr "observer_tasks" tbt with
  | Some (PList l) => find (fun t => match attr "observer" t with
                                     | Some (PStr s) => (observer =? s)%string
                                     | _ => false end) l
  | _ => None
  end.

(** observer_tasks.py:81-92, get_tasks. *)
Definition get_tasks (obt : pval) : list pval :=
  flat_map (fun n => match attr n obt with Some PNone | None => [] | Some t => [t] end)
    ["fw1_mod"; "fw2_mod"; "fw1_prog"; "fw2_prog"; "emulation"]%string.

Definition params (p : pval) : list (string * yval) :=
  match model_dump false p with YMap m => m | _ => [] end.

(** TA:37-74, prepare_task. *)
Definition prepare_task (d : disk) (c : config) (observer : option string) : res wrapper :=
  let* w := match c with
            | CFile f => match find_doc d f with
                         | None => Err FileNotFoundError
                         | Some doc => read_wrap version doc
                         end
            | CModel t p => Ok (mkWrap (cls_name t) None None (Some version) (params p))
            end in
  if (w_datatype w =? cls_name tb_tasks)%string then
    match observer with
    | None => Ok w
    | Some name =>
        let* tbt := validate fresh now tb_tasks (YMap (w_parameters w)) in
        match get_observer_tasks tbt name with
        | None => Err ValueError
        | Some obt => Ok (mkWrap (cls_name obs_tasks) None None (Some version) (params obt))
        end
    end
  else Ok w.

(** TA:77-97, extract_tasks. *)
Definition extract_tasks (w : wrapper) (no_task_sets : bool) : res (list pval) :=
  let build t := validate fresh now t (YMap (w_parameters w)) in
  let single t := let* m := build t in Ok [m] in
  let is t := (w_datatype w =? cls_name t)%string in
  if is obs_tasks then let* obt := build obs_tasks in Ok (get_tasks obt)
  else if is emulation then single emulation
  else if is harvest then single harvest
  else if is fw_mod then single fw_mod
  else if is programming then single programming
  else if is tb_tasks then
    if no_task_sets then Err ValueError else single tb_tasks
  else Err ValueError.
End Tasks.

(* ------------------------------------------------------------------ some classes *)

Definition no_pre (m : list (string * yval)) : res (list (string * yval)) := Ok m.
Definition no_post (_ : Z) (_ : list (string * pval)) : bool := true.
Definition flag (n : string) (b : bool) : string * (ty * dflt) := (n, (TBool, Const (PBool b))).
Definition not_negative (p : option pval) : bool :=
  match p with Some (PTime us) => 0 <=? us | _ => true end.

Definition between (lo hi z : Z) : bool := (lo <=? z) && (z <=? hi).

(** experiment/observer_features.py:134-141, SystemLogging. *)
Definition sys_logging : ty :=
  TObj "SystemLogging" no_pre [flag "dmesg" true; flag "ptp" true; flag "shepherd" true] no_post.

(** experiment/observer_features.py:19-52, PowerTracing. *)
Definition is_on (p : option pval) : bool := match p with Some (PBool b) => b | _ => false end.
Definition power_tracing : ty :=
  TObj "PowerTracing" no_pre
    [flag "intermediate_voltage" false;
     ("delay", (TTime, Const (PTime 0%Z))); ("duration", (TOpt TTime, Const PNone));
     flag "calculate_power" false;
     ("samplerate", (TInt (between 10%Z 100000%Z), Const (PInt 100000%Z)));
     flag "discard_current" false; flag "discard_voltage" false]%string
    (fun _ l => not_negative (assoc "delay" l) && not_negative (assoc "duration" l)
       && negb (is_on (assoc "discard_current" l) && is_on (assoc "discard_voltage" l))
       && negb (is_on (assoc "calculate_power" l))).

(** task/harvest.py:57-68 (task/emulation.py:98-109 is the same), pre_correction: dates get a
    time zone.  [tz]: offset of the local zone (minutes), [iso]: datetime.fromisoformat. *)
Definition pre_correction (tz : Z) (iso : string -> option (Z * option Z))
    (m : list (string * yval)) : res (list (string * yval)) :=
  let aware us off := YDate us (Some (match off with Some o => o | None => tz end)) in
  each (fun kv => match kv with (k, y) =>
      if (k =? "time_start")%string then
        match y with
        | YNull => Ok kv
        | YInt z => Ok (k, YDate (z * 1000000 + tz * 60000000) (Some tz))
        | YFloat q => Ok (k, YDate (qround (q * 1000000) + tz * 60000000) (Some tz))
        | YStr s => match iso s with Some (us, off) => Ok (k, aware us off) | None => Err ValueError end
        | YDate us off => Ok (k, aware us off)
        | _ => Err AttributeError
        end
      else Ok kv end) m.

(** task/harvest.py:21-83, HarvestTask without its virtual harvester (line 43); the
    compression (line 31) is one of the three texts of the enumeration. *)
Definition harvest_task (tz : Z) (iso : string -> option (Z * option Z)) : ty :=
  TObj "HarvestTask" (pre_correction tz iso)
    [("output_path", (TPath, Required)); flag "force_overwrite" false;
     ("output_compression",
       (TOpt (TStr (fun s => existsb (String.eqb s) ["lzf"; "1"; "None"]%string)), Const (PStr "lzf")));
     ("time_start", (TOpt TDate, Const PNone)); ("duration", (TOpt TTime, Const PNone));
     flag "abort_on_error" false; flag "use_cal_default" false;
     ("power_tracing", (power_tracing, Const (PObj
        [("intermediate_voltage", (false, PBool false)); ("delay", (false, PTime 0%Z));
         ("duration", (false, PNone)); ("calculate_power", (false, PBool false));
         ("samplerate", (false, PInt 100000%Z)); ("discard_current", (false, PBool false));
         ("discard_voltage", (false, PBool false))])));
     ("sys_logging", (TOpt sys_logging, Const (PObj
        [("dmesg", (false, PBool true)); ("ptp", (false, PBool true)); ("shepherd", (false, PBool true))])));
     ("verbose", (TInt (between 0%Z 4%Z), Const (PInt 2%Z)))]%string
    (fun now l => match assoc "time_start" l with
                  | Some (PDate us (Some off)) => now <=? us - off * 60000000
                  | Some (PDate _ None) => false
                  | _ => true end
       && not_negative (assoc "duration" l)).

(** base/content.py:22-25, IdInt, NameStr. *)
Definition id_int : ty := TInt (between 0%Z (2 ^ 128 - 1)%Z).
Definition name_char (c : ascii) : bool :=
  negb (existsb (Ascii.eqb c) (list_ascii_of_string "<>:;,?""*|/\")).
Definition name_str : ty :=
  TStr (fun s => between 1%Z 32%Z (Z.of_nat (String.length s)) && forallb name_char (list_ascii_of_string s)).

(** experiment/experiment.py:28-60, Experiment without its targets (line 57); the identifier is a
    UUID or an integer there. *)
Definition experiment (version : string) : ty :=
  TObj "Experiment" no_pre
    [("id", (TUuid (fun _ => true), Factory)); ("name", (name_str, Required));
     ("description", (TOpt (TStr safe_str), Const PNone)); ("comment", (TOpt (TStr safe_str), Const PNone));
     ("created", (TDate, Factory));
     ("owner_id", (TOpt id_int, Const PNone)); flag "email_results" false;
     ("sys_logging", (sys_logging, Const (PObj
        [("dmesg", (true, PBool true)); ("ptp", (true, PBool true)); ("shepherd", (true, PBool true))])));
     ("time_start", (TOpt TDate, Const PNone)); ("duration", (TOpt TTime, Const PNone));
     flag "abort_on_error" false;
     ("lib_ver", (TOpt (TStr (fun _ => true)), Const (PStr version)))]%string
    (fun _ l => not_negative (assoc "duration" l)).

Definition one_of (l : list string) : ty := TStr (fun s => existsb (String.eqb s) l).

(** Last part of a path. *)
Fixpoint base_of (s : list ascii) : list ascii :=
  match s with
  | [] => []
  | c :: s' => if existsb (Ascii.eqb "/") s' then base_of s'
               else if Ascii.eqb c "/" then s' else s
  end.
Definition lower (c : ascii) : ascii :=
  let n := nat_of_ascii c in if ((65 <=? n) && (n <=? 90))%nat then ascii_of_nat (n + 32) else c.

(** task/programming.py:25-47, ProgrammingTask; content/firmware.py:25-30 for the suffixes. *)
Definition programming_task : ty :=
  TObj "ProgrammingTask" no_pre
    [("firmware_file", (TPath, Required));
     ("target_port", (one_of ["A"; "B"], Const (PStr "A")));
     ("mcu_port", (TInt (between 1%Z 2%Z), Const (PInt 1%Z)));
     ("mcu_type", (TStr safe_str, Required));
     ("voltage", (TFloat (fun q => Qle_bool 1 q && negb (Qle_bool 5 q)), Const (PFloat 3)));
     ("datarate", (TInt (between 1%Z 1000000%Z), Const (PInt 200000%Z)));
     ("protocol", (one_of ["SWD"; "SBW"; "JTAG"; "UART"], Required));
     flag "simulate" false;
     ("verbose", (TInt (between 0%Z 4%Z), Const (PInt 2%Z)))]%string
    (fun _ l => match assoc "firmware_file" l with
                | Some (PPath s) =>
                    let name := string_of_list_ascii (base_of (list_ascii_of_string s)) in
                    let sfx := string_of_list_ascii (map lower (list_ascii_of_string (suffix name))) in
                    existsb (String.eqb sfx) [".hex"; ".ihex"; ".ihx"]%string
                | _ => false end).

(** task/observer_tasks.py:22-40, ObserverTasks, and task/testbed_tasks.py:19-29, TestbedTasks,
    with any classes for the tasks that modify a firmware and that emulate. *)
Definition observer_tasks (fw_mod emulation : ty) : ty :=
  TObj "ObserverTasks" no_pre
    [("observer", (name_str, Required)); ("owner_id", (TOpt id_int, Required));
     ("time_prep", (TDate, Required)); ("root_path", (TPath, Required));
     ("abort_on_error", (TBool, Required));
     ("fw1_mod", (TOpt fw_mod, Const PNone)); ("fw2_mod", (TOpt fw_mod, Const PNone));
     ("fw1_prog", (TOpt programming_task, Const PNone)); ("fw2_prog", (TOpt programming_task, Const PNone));
     ("emulation", (TOpt emulation, Const PNone))]%string no_post.
Definition testbed_tasks (fw_mod emulation : ty) : ty :=
  TObj "TestbedTasks" no_pre
    [("name", (name_str, Required));
     ("observer_tasks", (TList (fun n => (1 <=? n) && (n <=? 128))%nat (observer_tasks fw_mod emulation), Required));
     flag "email_results" false; ("owner_id", (TOpt id_int, Required))]%string no_post.
