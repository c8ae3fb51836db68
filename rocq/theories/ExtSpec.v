(** What extracted tables, logs and metadata should contain, stated without the operations of
    ExtModel.v. *)
From Coq Require Import String Ascii.
From Verif Require Import PyBase FileModel FileSpec UartModel FwModel StoModel RepModel RepSpec ExtModel.
From Coq Require Import QArith.
Open Scope Z_scope.

(** ** Tables *)

(** [t] is [s] with every comma that is followed by a blank (and this blank) replaced. *)
Definition replaced (sep s t : string) : Prop :=
  exists parts, parts <> [] /\ s = String.concat ", " parts /\ t = String.concat sep parts /\
    Forall (fun p => ~ exists x y, p = (x ++ ", " ++ y)%string) parts.

(** White space, and the separator that is meant by [s]: without white space around it, at least two
    characters. *)
Definition blank_char (c : ascii) : Prop := let n := nat_of_ascii c in (9 <= n <= 13 \/ 28 <= n <= 32)%nat.
Definition all_blank (s : string) : Prop := forall c, In c (list_ascii_of_string s) -> blank_char c.
Definition padded (m u : string) : Prop :=
  (m = "" /\ u = "  ")%string \/ (exists c, m = String c "" /\ u = String c " ")%string \/ ((2 <= String.length m)%nat /\ u = m).
Definition separator (s u : string) : Prop :=
  exists l m r, s = (l ++ m ++ r)%string /\ all_blank l /\ all_blank r /\
    (forall c m', m = String c m' -> ~ blank_char c) /\ (forall c m', m = (m' ++ String c "")%string -> ~ blank_char c) /\
    padded m u.

(** The datasets of a group. *)
Definition columns (g : lgrp) : list dcol :=
  flat_map (fun c => match snd c with Some d => [d] | None => [] end) (lg_cols g).

(** A number in physical units (if there is a calibration), or as stored. *)
Definition physical (raw : bool) (c : dcol) (v : Q) : option Q :=
  if raw then Some v
  else match dc_gain c, dc_offset c with Some g, Some o => Some (v * g + o)%Q | _, _ => None end.
(** How an element is shown. *)
Definition shown (str : item -> string) (sep : string) (raw : bool) (c : dcol) (x : item) (t : string) : Prop :=
  match x with
  | INum v => exists p, physical raw c v = Some p /\ t = str (INum p)
  | IRow l => exists ps, Forall2 (fun v p => physical raw c v = Some p) l ps /\
                         t = String.concat sep (map (fun p => str (INum p)) ps)
  | IText s => raw = true /\ t = str (IText s)
  end.
(** The elements number [idx]. *)
Definition cells (str : item -> string) (sep : string) (raw : bool) (g : lgrp) (idx : nat) (ts : list string) : Prop :=
  Forall2 (fun c t => exists x, nth_error (dc_val c) idx = Some (Ok x) /\ shown str sep raw c x t) (columns g) ts.

(** The text: a line of descriptions, then a line for each entry. *)
Definition is_table (clock : Q -> string) (str : item -> string) (sep : string) (raw : bool) (g : lgrp) (out : string) : Prop :=
  exists desc tg times header lines,
    lg_time g = Some (desc, tg, times) /\
    Forall2 (fun d h => exists s, d = Some s /\ replaced sep s h) (desc :: map dc_desc (columns g)) header /\
    List.length lines = List.length times /\
    (forall idx t, nth_error times idx = Some t -> exists ts,
       cells str sep raw g idx ts /\
       nth_error lines idx = Some (String.concat sep
         (clock (inject_Z t * match tg with Some x => x | None => 1 # 1000000000 end)%Q :: ts))) /\
    out = String.concat "" (map (fun l => (l ++ newline)%string) (String.concat sep header :: lines)).

(** A group with entries. *)
Definition filled (g : lgrp) : Prop := exists desc tg t ts, lg_time g = Some (desc, tg, t :: ts).
(** A group that can be shown as a table: all described, calibrated (unless raw), readable. *)
Definition tabular (raw : bool) (g : lgrp) : Prop :=
  forall desc tg times, lg_time g = Some (desc, tg, times) -> times <> [] ->
    desc <> None /\
    Forall (fun c => dc_desc c <> None /\ (raw = false -> dc_gain c <> None /\ dc_offset c <> None) /\
      forall idx, (idx < List.length times)%nat ->
        exists x, nth_error (dc_val c) idx = Some (Ok x) /\ (raw = false -> forall s, x <> IText s)) (columns g).

(** ** Logs *)

(** The elements of a log as text. *)
Definition as_text (str : item -> string) (g : lgrp) : list (list (res string)) :=
  map (fun c => map (fun r => match r with Ok x => Ok (str x) | Err e => Err e end) (dc_val c)) (columns g).
(** A group that can be shown as a log: no subgroups, complete, at most faulty elements. *)
Definition logged (g : lgrp) : Prop :=
  forall desc tg times, lg_time g = Some (desc, tg, times) -> times <> [] ->
    Forall (fun c => exists d, snd c = Some d /\ (List.length times <= List.length (dc_val d))%nat /\
      Forall (fun r => forall e, r = Err e -> e = OSError) (dc_val d)) (lg_cols g).
(** Its warnings are readable. *)
Definition warnable (g : lgrp) : Prop :=
  assoc "level" (lg_cols g) = None \/
  exists c desc tg times, assoc "level" (lg_cols g) = Some (Some c) /\ lg_time g = Some (desc, tg, times) /\
    (List.length times <= List.length (dc_val c))%nat /\
    Forall (fun r => exists v, r = Ok (INum v)) (dc_val c) /\
    forall idx v, (idx < List.length times)%nat -> nth_error (dc_val c) idx = Some (Ok (INum v)) -> (30 <= v)%Q ->
      exists m x, assoc "message" (lg_cols g) = Some (Some m) /\ nth_error (dc_val m) idx = Some (Ok x).

(** ** Files *)

Definition yaml_file (file : path) : path := (fst file, (stem (snd file) ++ ".yaml")%string).
Definition table_file (file : path) (k : string) : path := (fst file, (stem (snd file) ++ "." ++ k ++ ".csv")%string).
Definition logged_file (file : path) (k : string) : path := (fst file, (stem (snd file) ++ "." ++ k ++ ".log")%string).

(** The groups with tables and with logs, under their present and earlier names. *)
Definition tables : list string := ["ptp"; "sys_util"; "pru_util"; "sysutil"; "timesync"]%string.
Definition logs : list string := ["sheep"; "kernel"; "phc2sys"; "uart"; "shepherd-log"; "dmesg"; "exceptions"]%string.

(** The files that belong to a recording, and which texts are right for them. *)
Inductive product (clock : Q -> string) (str : item -> string) (dump : meta -> string * res unit) (stamp : Z -> string)
    (sep : string) (file : path) (rec : recording) : path -> (string -> Prop) -> Prop :=
| P_meta m : rc_meta rec = Ok m -> product clock str dump stamp sep file rec (yaml_file file) (eq (fst (dump m)))
| P_table k g : In k tables -> assoc k (rc_groups rec) = Some g -> filled g ->
    product clock str dump stamp sep file rec (table_file file k) (is_table clock str sep false g)
| P_log k g desc tg times : In k logs -> assoc k (rc_groups rec) = Some g -> lg_time g = Some (desc, tg, times) -> times <> [] ->
    product clock str dump stamp sep file rec (logged_file file k) (eq (all_lines stamp 0 times (as_text str g))).

(** A recording from which everything can be extracted. *)
Definition intact (dump : meta -> string * res unit) (rec : recording) : Prop :=
  (exists m, rc_meta rec = Ok m /\ snd (dump m) = Ok tt) /\
  (forall k g, In k tables -> assoc k (rc_groups rec) = Some g -> tabular false g) /\
  (forall k g, In k logs -> assoc k (rc_groups rec) = Some g -> logged g /\ warnable g).

(** ** Samples *)

(** Line [k] of the table of samples: time in s, current in A, voltage in V (or as stored). *)
Definition sample_line (clock : Q -> string) (str : item -> string) (sep : string) (raw : bool) (c : series)
    (t i v : Z) : string :=
  let si (p : pair) (z : Z) := if raw then inject_Z z else (inject_Z z * gain p + offset p)%Q in
  (clock (inject_Z t * gain (c_time c))%Q ++ sep ++ str (INum (si (c_current c) i)) ++ sep ++
   str (INum (si (c_voltage c) v)))%string.
Definition sample_header (sep : string) : string :=
  ("system time [s] = value * gain + (offset)" ++ sep ++ "current [A] = value * gain + offset" ++ sep ++
   "voltage [V] = value * gain + offset")%string.
Definition sample_table clock str sep raw c (t i v : list Z) : string :=
  String.concat "" (map (fun l => (l ++ newline)%string) (sample_header sep ::
    map (fun '(t, (i, v)) => sample_line clock str sep raw c t i v) (combine t (combine i v)))).

(** Gains and offsets of all columns are stored in the file. *)
Definition calibrated_by (c : series) (f : h5) : Prop :=
  exists g t v i, f_data f = Some g /\ g_time g = Some t /\ g_voltage g = Some v /\ g_current g = Some i /\
    ds_gain t = Some (gain (c_time c)) /\ ds_offset t = Some (offset (c_time c)) /\
    ds_gain v = Some (gain (c_voltage c)) /\ ds_offset v = Some (offset (c_voltage c)) /\
    ds_gain i = Some (gain (c_current c)) /\ ds_offset i = Some (offset (c_current c)).

(** No text is lost or changed. *)
Definition keeps (d d' : texts) : Prop := forall q s, find_text d q = Some s -> find_text d' q = Some s.
