(** Model of the extraction of tables, logs and metadata:
    shepherd_data/shepherd_data/reader.py (SR: save_csv with the text it writes),
    shepherd_core/shepherd_core/reader.py (RD: save_metadata) and
    shepherd_data/shepherd_data/cli.py (CL: extract, extract_meta).

    PyYAML, strftime and str() are parameters.  Files are written piece by piece, so that an exception
    leaves behind what was written before.  The byte order mark at the start is left out. *)
From Coq Require Import String Ascii.
From Verif Require Import PyBase FileModel UartModel FwModel StoModel RepModel.
From Verif Require DsModel.
From Coq Require Import QArith.
Open Scope Z_scope.

(* ------------------------------------------------------------------ groups *)

(** An element of a dataset: a number, a row of numbers, or a text. *)
Inductive item := INum (x : Q) | IRow (l : list Q) | IText (s : string).
(** A dataset; reading an element may fail. *)
Record dcol := mkDcol {
  dc_desc : option string; dc_gain : option Q; dc_offset : option Q; dc_val : list (res item)
}.
(** A group: its dataset "time" (description, gain, values) and its other members in the order of
    h5py; None is a subgroup. *)
Record lgrp := mkLgrp {
  lg_time : option (option string * option Q * list Z);
  lg_cols : list (string * option dcol)
}.

(* ------------------------------------------------------------------ tables *)

(** str.strip() for ASCII *)
Definition blank (c : ascii) : bool :=
  let n := nat_of_ascii c in ((9 <=? n) && (n <=? 13) || (28 <=? n) && (n <=? 32))%nat.
Fixpoint lstrip_blank (l : list ascii) : list ascii :=
  match l with c :: l' => if blank c then lstrip_blank l' else l | [] => [] end.
Definition strip_blank (s : string) : string :=
  string_of_list_ascii (rev (lstrip_blank (rev (lstrip_blank (list_ascii_of_string s))))).
(** str.ljust(2) *)
Definition ljust2 (s : string) : string :=
  match s with
  | EmptyString => "  "%string
  | String _ EmptyString => (s ++ " ")%string
  | _ => s
  end.
(** SR:67 *)
Definition csv_sep (s : string) : string := ljust2 (strip_blank s).

(** str.replace(", ", sep) *)
Fixpoint commas (sep s : string) : string :=
  match s with
  | EmptyString => EmptyString
  | String c s' =>
      match s' with
      | String c' s'' => if Ascii.eqb c "," && Ascii.eqb c' " " then (sep ++ commas sep s'')%string
                         else String c (commas sep s')
      | EmptyString => s
      end
  end.

Section Text.
(** strftime of seconds, str() of an element. *)
Variables (clock : Q -> string) (str : item -> string).

(** SR:87-92, the text of an element; a text times a number is a TypeError. *)
Definition csv_item (sep : string) (raw : bool) (c : dcol) (x : item) : res string :=
  let g := match dc_gain c with Some g => g | None => 1%Q end in
  let o := match dc_offset c with Some o => o | None => 1%Q end in
  let si v := if raw then v else (v * g + o)%Q in
  match x with
  | INum v => Ok (str (INum (si v)))
  | IRow l => Ok (String.concat sep (map (fun v => str (INum (si v))) l))
  | IText s => if raw then Ok (str (IText s)) else Err TypeError
  end.

(** SR:86-92, the columns of one line. *)
Fixpoint csv_cells (sep : string) (raw : bool) (idx : nat) (cols : list dcol) : string * res unit :=
  match cols with
  | [] => (EmptyString, Ok tt)
  | c :: cols' =>
      match (let* x := match nth_error (dc_val c) idx with Some r => r | None => Err IndexError end in
             csv_item sep raw c x) with
      | Err e => (EmptyString, Err e)
      | Ok t => let (rest, r) := csv_cells sep raw idx cols' in ((sep ++ t ++ rest)%string, r)
      end
  end.

(** SR:83-93, the lines. *)
Fixpoint csv_lines (sep : string) (raw : bool) (gain : Q) (cols : list dcol) (idx : nat) (times : list Z)
    : string * res unit :=
  match times with
  | [] => (EmptyString, Ok tt)
  | t :: times' =>
      let head := clock (inject_Z t * gain) in
      match csv_cells sep raw idx cols with
      | (line, Err e) => ((head ++ line)%string, Err e)
      | (line, Ok _) =>
          let (rest, r) := csv_lines sep raw gain cols (S idx) times' in
          ((head ++ line ++ newline ++ rest)%string, r)
      end
  end.

(** SR:62-66, the datasets besides time. *)
Definition datasets (g : lgrp) : list dcol :=
  fold_right (fun c l => match snd c with Some d => d :: l | None => l end) [] (lg_cols g).

(** SR:45-94, save_csv of the group called [name] in the file [file]; [other]: files besides the text
    files.  Without its description a column raises KeyError before the file is opened. *)
Definition save_csv (other : path -> bool) (d : texts) (file : path) (name : string) (g : lgrp)
    (sep : string) (raw : bool) : texts * res Z :=
  match lg_time g with
  | None | Some (_, _, []) => (d, Ok 0)
  | Some (desc, gain, times) =>
      match suffixed file ("." ++ strip_slash name ++ ".csv") with
      | Err e => (d, Err e)
      | Ok out =>
          if other out then (d, Ok 0) else
          match find_text d out with
          | Some _ => (d, Ok 0)
          | None =>
              match DsModel.collect (map opt (desc :: map dc_desc (datasets g))) with
              | Err e => (d, Err e)
              | Ok header =>
                  let sep := csv_sep sep in
                  let (t, r) := csv_lines sep raw (match gain with Some x => x | None => 1 # 1000000000 end)
                                  (datasets g) 0 times in
                  ((out, (String.concat sep (map (commas sep) header) ++ newline ++ t)%string) :: d,
                   let* _ := r in Ok (Z.of_nat (List.length times)))
              end
          end
      end
  end.

(* ------------------------------------------------------------------ metadata and logs *)

(** A recording: what get_metadata (see RepModel) gives for it, and its groups. *)
Record recording := mkRec { rc_meta : res meta; rc_groups : list (string * lgrp) }.

(** RD:638-654, save_metadata; [dump]: the text that safe_dump wrote and how it ended. *)
Definition save_metadata (dump : meta -> string * res unit) (d : texts) (file : path) (m : res meta)
    : texts * res unit :=
  let out := with_suffix file ".yaml" in
  match find_text d out with
  | Some _ => (d, Ok tt)
  | None => match m with
            | Err e => (d, Err e)
            | Ok m => let (t, r) := dump m in ((out, t) :: d, r)
            end
  end.

(** The columns as save_log reads them. *)
Definition log_cols (g : lgrp) : list column :=
  map (fun c => option_map (fun d => map (fun r => let* x := r in Ok (str x)) (dc_val d)) (snd c)) (lg_cols g).

(** The levels of a log. *)
Fixpoint numbers (l : list (res item)) : res (list Q) :=
  match l with
  | [] => Ok []
  | r :: l' =>
      let* x := r in
      let* v := match x with INum v => Ok v | IRow _ => Err ValueError | IText _ => Err TypeError end in
      let* vs := numbers l' in Ok (v :: vs)
  end.
Definition qle (a b : Q) : bool := Qle_bool a b.

(** SR:151-165, the loop of warn_logs; only whether it fails. *)
Fixpoint warn_loop (min_level : Q) (limit : nat) (idx : nat) (times : list Z) (levels : list Q)
    (msgs : option (option dcol)) : res unit :=
  match times with
  | [] => Ok tt
  | _ :: times' =>
      match nth_error levels idx with
      | None => Err IndexError
      | Some lv =>
          if qle min_level lv then
            match msgs with
            | None => Err KeyError
            | Some None => Err TypeError
            | Some (Some c) =>
                match nth_error (dc_val c) idx with
                | None => Err IndexError
                | Some (Err e) => Err e
                | Some (Ok _) =>
                    match limit with
                    | O | S O => Ok tt
                    | S limit' => warn_loop min_level limit' (S idx) times' levels msgs
                    end
                end
            end
          else warn_loop min_level limit (S idx) times' levels msgs
      end
  end.
(** SR:130-166 and RD:570-579, warn_logs(element, show=True) with the defaults 30 and 10;
    get_hostname only reads an attribute. *)
Definition warn_group (g : lgrp) : res unit :=
  match assoc "level" (lg_cols g) with
  | None => Ok tt
  | Some None => Err AttributeError
  | Some (Some c) =>
      let* levels := numbers (dc_val c) in
      if existsb (qle 30) levels then
        match lg_time g with
        | None => Err KeyError
        | Some (_, _, times) => warn_loop 30 10 0 times levels (assoc "message" (lg_cols g))
        end
      else Ok tt
  end.

(** CL:192-199, the groups. *)
Definition csv_names : list string := ["ptp"; "sys_util"; "pru_util"; "sysutil"; "timesync"]%string.
Definition log_names : list string :=
  ["sheep"; "kernel"; "phc2sys"; "uart"; "shepherd-log"; "dmesg"; "exceptions"]%string.

(** The bodies of the loops stop at the first exception. *)
Fixpoint for_names (body : texts -> string -> lgrp -> texts * res unit) (gs : list (string * lgrp))
    (d : texts) (names : list string) : texts * res unit :=
  match names with
  | [] => (d, Ok tt)
  | n :: names' =>
      match assoc n gs with
      | None => for_names body gs d names'
      | Some g => match body d n g with
                  | (d', Err e) => (d', Err e)
                  | (d', Ok _) => for_names body gs d' names'
                  end
      end
  end.

(** CL:195-196 and CL:200-204; the name of a group starts with a slash. *)
Definition csv_group (sep : string) (file : path) (d : texts) (n : string) (g : lgrp) : texts * res unit :=
  let (d', r) := save_csv (fun _ => false) d file ("/" ++ n) g sep false in (d', let* _ := r in Ok tt).
Definition log_group (stamp : Z -> string) (file : path) (d : texts) (n : string) (g : lgrp) : texts * res unit :=
  let (d', r) := save_log stamp d file ("/" ++ n) (option_map snd (lg_time g)) (log_cols g) true in
  (d', let* _ := r in warn_group g).

(** CL:190-204, one recording (or why it cannot be opened). *)
Definition extract_meta_one (dump : meta -> string * res unit) (stamp : Z -> string) (sep : string)
    (d : texts) (f : path * res recording) : texts * res unit :=
  match snd f with
  | Err e => (d, Err e)
  | Ok rec =>
      match save_metadata dump d (fst f) (rc_meta rec) with
      | (d1, Err e) => (d1, Err e)
      | (d1, Ok _) =>
          match for_names (csv_group sep (fst f)) (rc_groups rec) d1 csv_names with
          | (d2, Err e) => (d2, Err e)
          | (d2, Ok _) => for_names (log_group stamp (fst f)) (rc_groups rec) d2 log_names
          end
      end
  end.
(** CL:181-206, extract_meta for the listed files; TypeError skips one. *)
Definition extract_meta dump stamp sep : texts -> list (path * res recording) -> texts * res unit :=
  for_files (extract_meta_one dump stamp sep).

(* ------------------------------------------------------------------ samples *)

(** The group "data" of a recording: members in the order of their names, descriptions as
    writer.py:258-280 gives them; samples can be read. *)
Definition sample_col (desc : string) (s : dset) : dcol :=
  mkDcol (Some desc) (ds_gain s) (ds_offset s) (map (fun z => Ok (INum (inject_Z z))) (ds_val s)).
Definition member (name desc : string) (s : option dset) : list (string * option dcol) :=
  match s with Some s => [(name, Some (sample_col desc s))] | None => [] end.
Definition data_group (g : grp) : lgrp :=
  mkLgrp (option_map (fun s => (Some "system time [s] = value * gain + (offset)"%string, ds_gain s, ds_val s))
                     (g_time g))
    (member "current" "current [A] = value * gain + offset" (g_current g)
     ++ member "voltage" "voltage [V] = value * gain + offset" (g_voltage g)).

(** CL:156-159, one file: cut and downsample, then the table of the new file. *)
Definition extract_one (fl : DsModel.filt) (start_s end_s : option Q) (factor : Q) (sep : string) (raw : bool)
    (d : fs) (x : texts) (p : path) : fs * texts * res unit :=
  match DsModel.open_reader d p with
  | Err e => (d, x, Err e)
  | Ok r =>
      match DsModel.cut_and_downsample fl d p r start_s end_s factor with
      | (d1, Err e) => (d1, x, Err e)
      | (d1, Ok q) =>
          match DsModel.open_reader d1 q with
          | Err e => (d1, x, Err e)
          | Ok r2 =>
              match f_data (r_file r2) with
              | None => (d1, x, Err KeyError)
              | Some g =>
                  let (x1, n) := save_csv (exists_ d1) x q "/data" (data_group g) sep raw in
                  (d1, x1, let* _ := n in Ok tt)
              end
          end
      end
  end.
(** CL:153-161, the loop: TypeError and ValueError skip the file. *)
Fixpoint extract_files fl start_s end_s factor sep raw (d : fs) (x : texts) (files : list path)
    : fs * texts * res unit :=
  match files with
  | [] => (d, x, Ok tt)
  | p :: files' =>
      match extract_one fl start_s end_s factor sep raw d x p with
      | (d1, x1, Ok _) | (d1, x1, Err TypeError) | (d1, x1, Err ValueError) =>
          extract_files fl start_s end_s factor sep raw d1 x1 files'
      | (d1, x1, Err e) => (d1, x1, Err e)
      end
  end.
(** CL:137-161, extract without recursion. *)
Definition extract fl (d : fs) (x : texts) (in_data : path) (start_s end_s : option Q) (ds_factor : Q)
    (sep : string) (raw : bool) : fs * texts * res unit :=
  let factor := if DsModel.qltb ds_factor 1 then 1000%Q else ds_factor in
  extract_files fl start_s end_s factor sep raw d x (DsModel.path_to_flist d in_data).
End Text.
