(** Model of the log levels.

    Code: shepherd_core/shepherd_core/logger.py (L), reader.py (R), writer.py (W),
    shepherd_data/shepherd_data/cli.py (C) and ivonne.py (I).

    Simplifications: the formats, handlers and the level of the root logger (chromalog.basicConfig and
    logging.basicConfig) are left out, the latter is a parameter; handlers given to set_log_verbose_level
    are left out; a command of the cli is the list of the readers it opens. *)
From Coq Require Import String.
From Verif Require Import PyBase.
Open Scope Z_scope.
Open Scope list_scope.

(** A logger by the parts of its dotted name, the last part first: SHPCore.Reader is [Reader; SHPCore]. *)
Definition lname := list string.
Definition name_eqb (a b : lname) : bool := if list_eq_dec string_dec a b then true else false.

(** Levels of the module logging. *)
Definition DEBUG : Z := 10.
Definition INFO : Z := 20.
Definition WARNING : Z := 30.
Definition ERROR : Z := 40.

Record logs := mkLogs {
  l_verbose : Z;                    (* L:13, verbose_level *)
  l_levels : list (lname * Z);      (* levels set by setLevel, the latest first *)
  l_source : bool;                  (* logging._srcfile is not None *)
  l_threads : bool;                 (* logging.logThreads *)
  l_processes : bool                (* logging.logProcesses *)
}.

Definition set_level (n : lname) (v : Z) (s : logs) : logs :=
  mkLogs (l_verbose s) ((n, v) :: l_levels s) (l_source s) (l_threads s) (l_processes s).
Definition set_verbose (v : Z) (s : logs) : logs :=
  mkLogs v (l_levels s) (l_source s) (l_threads s) (l_processes s).
Definition no_source (s : logs) : logs := mkLogs (l_verbose s) (l_levels s) false false false.

Definition own_level (n : lname) (s : logs) : option Z :=
  option_map snd (find (fun e => name_eqb (fst e) n) (l_levels s)).

(** Logger.getEffectiveLevel of the module logging: the nearest parent with a level, or the root. *)
Fixpoint effective (root : Z) (n : lname) (s : logs) : Z :=
  match n with
  | [] => root
  | _ :: up => match own_level n s with Some v => v | None => effective root up s end
  end.

(** Logger.isEnabledFor *)
Definition shown (root : Z) (n : lname) (level : Z) (s : logs) : bool := effective root n s <=? level.

(** L:21-42, set_log_verbose_level. *)
Definition set_log_verbose_level (n : lname) (verbose : Z) (s : logs) : logs :=
  let s := if verbose =? 0 then set_level n ERROR s
           else if verbose =? 1 then set_level n WARNING s
           else if verbose =? 2 then set_level n INFO s
           else if 2 <? verbose then set_level n DEBUG s
           else s in
  if verbose <? 3 then no_source s else s.

Definition core : lname := ["SHPCore"]%string.
Definition core_reader : lname := ["Reader"; "SHPCore"]%string.
Definition core_writer : lname := ["Writer"; "SHPCore"]%string.
Definition data_cli : lname := ["cli"; "SHPData"]%string.
Definition data_ivonne : lname := ["Reader"; "IVonne"; "SHPData"]%string.

(** L:45-50, increase_verbose_level. *)
Definition increase_verbose_level (verbose : Z) (s : logs) : logs :=
  if l_verbose s <=? verbose then
    let v := Z.min (Z.max verbose 0) 3 in
    set_log_verbose_level core v (set_verbose v s)
  else s.

(** R:72-75, and W:122-123 with 207: the level of the logger of the class. *)
Definition open_with (n : lname) (verbose : option bool) (s : logs) : logs :=
  match verbose with
  | Some b => set_level n (if b then DEBUG else INFO) s
  | None => s
  end.

(** I:46-55 *)
Definition open_ivonne (verbose : bool) (s : logs) : logs :=
  set_level data_ivonne (if verbose then INFO else WARNING) s.

(** C:52-54, then a command that opens [files] readers, C:79-85 and the like. *)
Definition cli (verbose : bool) (files : nat) (s : logs) : logs :=
  let s := set_log_verbose_level data_cli (if verbose then 3 else 2) s in
  let verbose_level := l_verbose s in
  Nat.iter files (open_with core_reader (Some (2 <? verbose_level))) s.

(** What a program does. *)
Inductive op : Set :=
| Increase (verbose : Z)
| SetVerbose (n : lname) (verbose : Z)
| OpenReader (verbose : option bool)
| OpenWriter (verbose : option bool)
| OpenIvonne (verbose : bool)
| Cli (verbose : bool) (files : nat).

Definition step (s : logs) (o : op) : logs :=
  match o with
  | Increase v => increase_verbose_level v s
  | SetVerbose n v => set_log_verbose_level n v s
  | OpenReader v => open_with core_reader v s
  | OpenWriter v => open_with core_writer v s
  | OpenIvonne v => open_ivonne v s
  | Cli v files => cli v files s
  end.

(** L:13 and 53, importing the package. *)
Definition imported : logs := increase_verbose_level 2 (mkLogs 2 [] true true true).

Definition run (ops : list op) : logs := fold_left step ops imported.
