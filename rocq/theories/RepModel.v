(** Model of what is reported about recordings and extracted from them:
    shepherd_core/shepherd_core/reader.py (RD: metadata, errors in logs, pins),
    shepherd_data/shepherd_data/reader.py (SR: save_log, warn_logs) and
    shepherd_data/shepherd_data/cli.py (CL: extract_uart, extract_gpio).

    h5py is external: a file is a tree of groups and datasets with attributes.  PyYAML is the
    parameter [yaml], the decoder of UART (see UartModel) is the parameter [decode], and the
    formatting of times and numbers are parameters as well. *)
From Coq Require Import String Ascii.
From Verif Require Import PyBase FileModel UartModel FwModel StoModel.
From Coq Require Import QArith.
Open Scope Z_scope.

(* ------------------------------------------------------------------ metadata *)

(** Attributes: text, numbers, or arrays. *)
Inductive aval := AStr (s : string) | AInt (z : Z) | AFloat (q : Q) | AVec (l : list Q).

Inductive meta := MVal (y : yval) | MDict (m : list (string * meta)).

(** Nodes of the file.  [info] is what RD:598-612 says about a dataset and RD:625-632 about the
    group /data (only about that one); computing it may fail. *)
Inductive tree :=
| Dataset (info : res meta) (attrs : list (string * aval))
| Group (info : option (res meta)) (attrs : list (string * aval)) (children : list (string * tree)).

(** Python's [d[k] = v]. *)
Fixpoint put {A} (k : string) (v : A) (d : list (string * A)) : list (string * A) :=
  match d with
  | [] => [(k, v)]
  | (k', v') :: d' => if (k' =? k)%string then (k, v) :: d' else (k', v') :: put k v d'
  end.

(** RD:613-623.  [yaml] gives None for a YAMLError, which is suppressed; its constructors may
    raise other exceptions. *)
Definition attr_value (yaml : string -> option (res yval)) (v : aval) : res meta :=
  match v with
  | AStr s => match yaml s with None => Ok (MVal (YStr s)) | Some r => let* y := r in Ok (MVal y) end
  | AInt z => Ok (MVal (YInt z))
  | AFloat q => Ok (MVal (YFloat q))
  | AVec [q] => Ok (MVal (YFloat q))
  | AVec _ => Err TypeError
  end.

Section PutAll.
Context {A : Type} (f : A -> res meta).
Fixpoint put_all (l : list (string * A)) (d : list (string * meta)) : res (list (string * meta)) :=
  match l with
  | [] => Ok d
  | (k, a) :: l' => let* m := f a in put_all l' (put k m d)
  end.
End PutAll.

(** RD:581-636, get_metadata. *)
Fixpoint get_metadata (yaml : string -> option (res yval)) (minimal : bool) (t : tree) : res meta :=
  match t with
  | Dataset info attrs =>
      let* d := if minimal then Ok [] else let* i := info in Ok [("_dataset_info"%string, i)] in
      let* d := put_all (attr_value yaml) attrs d in
      Ok (MDict d)
  | Group info attrs children =>
      let* d := put_all (attr_value yaml) attrs [] in
      let* d := match minimal, info with
                | false, Some r => let* i := r in Ok (put "_group_info" i d)
                | _, _ => Ok d
                end in
      let* d := put_all (get_metadata yaml minimal) children d in
      Ok (MDict d)
  end.

(* ------------------------------------------------------------------ logs *)

(** RD:570-579, count_errors_in_log: the levels of the group, if there are any. *)
Definition count_errors_in_log (levels : option (list Z)) (min_level : Z) : Z :=
  match levels with
  | None => 0
  | Some l => Z.of_nat (List.length (filter (fun x => min_level <=? x) l))
  end.

Inductive severity := Info | Warning | Error.

(** SR:155-166, the loop over the entries (time, level, message); the first message that is not
    there is an IndexError. *)
Fixpoint show_logs (min_level limit : Z) (times levels : list Z) (msgs : list string)
    : res (list (severity * Z * string)) :=
  match times with
  | [] => Ok []
  | t :: times' =>
      match levels with
      | [] => Err IndexError
      | lv :: levels' =>
          if lv <? min_level then show_logs min_level limit times' levels' (tl msgs)
          else match msgs with
               | [] => Err IndexError
               | m :: msgs' =>
                   let s := if lv <? 30 then Info else if lv <? 40 then Warning else Error in
                   let limit := limit - 1 in
                   if limit <? 1 then Ok [(s, t, m)]
                   else let* r := show_logs min_level limit times' levels' msgs' in Ok ((s, t, m) :: r)
               end
      end
  end.

(** SR:130-166, warn_logs: returned number and shown messages. *)
Definition warn_logs (levels : option (list Z)) (times : list Z) (msgs : list string)
    (min_level limit : Z) (show : bool) : res (Z * list (severity * Z * string)) :=
  let count := count_errors_in_log levels min_level in
  match levels with
  | Some lv => if count <? 1 then Ok (0, [])
               else if negb show then Ok (count, [])
               else let* s := show_logs min_level limit times lv msgs in Ok (count, s)
  | None => Ok (0, [])
  end.

(* ------------------------------------------------------------------ text files *)

Definition texts : Type := list (path * string).
Fixpoint find_text (d : texts) (p : path) : option string :=
  match d with [] => None | (q, s) :: d' => if path_eqb q p then Some s else find_text d' p end.

Definition has_char (c : ascii) (s : string) : bool := existsb (Ascii.eqb c) (list_ascii_of_string s).

(** pathlib's with_suffix; a suffix with a separator is refused. *)
Definition suffixed (p : path) (s : string) : res path :=
  guard negb (has_char "/" s) or ValueError;; Ok (with_suffix p s).

Definition newline : string := String "010" EmptyString.
Definition tab : string := String "009" EmptyString.

(** One column of a logging group: a dataset, whose elements may be unreadable, or a subgroup. *)
Definition column : Type := option (list (res string)).

(** SR:120-126, the columns of one line, written one after the other: the text and how it ended. *)
Fixpoint log_columns (idx : nat) (cols : list column) : string * res unit :=
  match cols with
  | [] => (EmptyString, Ok tt)
  | None :: _ => (EmptyString, Err TypeError)
  | Some l :: cols' =>
      let next m := let (t, r) := log_columns idx cols' in ((tab ++ m ++ t)%string, r) in
      match nth_error l idx with
      | None => (EmptyString, Err IndexError)
      | Some (Ok m) => next m
      | Some (Err OSError) => next "[[[ extractor - faulty element ]]]"%string
      | Some (Err e) => (EmptyString, Err e)
      end
  end.

Section Times.
(** strftime of a time in ns, and the text of a row's time in s. *)
Variables (stamp : Z -> string) (secs : Z -> string).

(** SR:115-127. *)
Fixpoint log_rows (add_timestamp : bool) (idx : nat) (times : list Z) (cols : list column) : string * res unit :=
  match times with
  | [] => (EmptyString, Ok tt)
  | t :: times' =>
      let head := if add_timestamp then (stamp t ++ ":")%string else EmptyString in
      match log_columns idx cols with
      | (line, Err e) => ((head ++ line)%string, Err e)
      | (line, Ok _) =>
          let (rest, r) := log_rows add_timestamp (S idx) times' cols in
          ((head ++ line ++ newline ++ rest)%string, r)
      end
  end.

(** str.strip("/"). *)
Fixpoint lstrip_slash (l : list ascii) : list ascii :=
  match l with c :: l' => if Ascii.eqb c "/" then lstrip_slash l' else l | [] => [] end.
Definition strip_slash (s : string) : string :=
  string_of_list_ascii (rev (lstrip_slash (rev (lstrip_slash (list_ascii_of_string s))))).

(** SR:96-128, save_log; the byte order mark at the start (SR:115) is not part of the text. *)
Definition save_log (d : texts) (file : path) (name : string) (times : option (list Z))
    (cols : list column) (add_timestamp : bool) : texts * res Z :=
  match times with
  | None | Some [] => (d, Ok 0)
  | Some times =>
      match suffixed file ("." ++ strip_slash name ++ ".log") with
      | Err e => (d, Err e)
      | Ok out =>
          match find_text d out with
          | Some _ => (d, Ok 0)
          | None =>
              let (t, r) := log_rows add_timestamp 0 times cols in
              ((out, t) :: d, let* _ := r in Ok (Z.of_nat (List.length times)))
          end
      end
  end.

(* ------------------------------------------------------------------ pins *)

(** The group gpio: times, values, and the names of the pins; the numbers of the pins are
    numbers in the YAML text, or quoted ones. *)
Record gpio := mkGpio { gp_time : list Z; gp_value : list Z; gp_pins : list (Z * string); gp_quoted : bool }.

(** Python's [a in b] for texts. *)
Fixpoint contains (a b : string) : bool :=
  prefix a b || match b with EmptyString => false | String _ b' => contains a b' end.

(** RD:656-664, get_gpio_pin_num. *)
Definition get_gpio_pin_num (g : option gpio) (name : string) : option Z :=
  match g with
  | None => None
  | Some g => option_map fst (find (fun p => contains name (snd p)) (gp_pins g))
  end.

(** RD:690-695, the waveform of one pin; shifting by None or by a text is a TypeError. *)
Definition waveform (g : gpio) (pin : option Z) : res (list (Z * Z)) :=
  match pin with
  | None => Err TypeError
  | Some n => guard 0 <=? n or ValueError;; pin_waveform n (gp_time g) (gp_value g)
  end.

Section PutWf.
Context {A B : Type} (f : A -> res B).
Fixpoint each_pin (l : list (string * A)) : res (list (string * B)) :=
  match l with
  | [] => Ok []
  | (k, a) :: l' => let* b := f a in let* r := each_pin l' in Ok ((k, b) :: r)
  end.
End PutWf.

(** RD:677-700, gpio_to_waveforms.  Without a name the keys are taken as they are in the YAML. *)
Definition gpio_to_waveforms (g : option gpio) (name : option string) : res (list (string * list (Z * Z))) :=
  match g with
  | None => Ok []
  | Some g =>
      let pins := match name with
                  | None => fold_left (fun d p => put (snd p) (if gp_quoted g then None else Some (fst p)) d)
                              (gp_pins g) []
                  | Some n => [(n, get_gpio_pin_num (Some g) n)]
                  end in
      each_pin (waveform g) pins
  end.

(** RD:702-710, waveform_to_csv. *)
Definition csv_text (pin : string) (sep : string) (wf : list (Z * Z)) : string :=
  (("timestamp [s]," ++ pin ++ newline) ++
   fold_right (fun r s => (secs (fst r) ++ sep ++ (if (snd r =? 0)%Z then "0" else "1") ++ newline) ++ s) EmptyString wf)%string.
Definition waveform_to_csv (d : texts) (file : path) (pin : string) (wf : list (Z * Z)) (sep : string)
    : texts * res unit :=
  match suffixed file (".waveform." ++ pin ++ ".csv") with
  | Err e => (d, Err e)
  | Ok out => match find_text d out with
              | Some _ => (d, Ok tt)
              | None => ((out, csv_text pin sep wf) :: d, Ok tt)
              end
  end.

(** RD:712-735, gpio_to_uart; the decoder gets times in s and states. *)
Definition gpio_to_uart {L} (decode : list (Z * Z) -> res L) (g : option gpio) : res (option L) :=
  let* wfs := gpio_to_waveforms g (Some "uart"%string) in
  match rev wfs with
  | [] => Ok None
  | (_, wf) :: _ =>
      match decode wf with
      | Ok l => Ok (Some l)
      | Err TypeError | Err ValueError => Ok None
      | Err e => Err e
      end
  end.

(* ------------------------------------------------------------------ commands *)

(** The loop over the files of CL:223-247 and CL:269-277: a TypeError skips the file, other
    exceptions end the command. *)
Fixpoint for_files {F} (body : texts -> F -> texts * res unit) (d : texts) (files : list F) : texts * res unit :=
  match files with
  | [] => (d, Ok tt)
  | f :: files' =>
      match body d f with
      | (d', Ok _) | (d', Err TypeError) => for_files body d' files'
      | (d', Err e) => (d', Err e)
      end
  end.

(** CL:273-275. *)
Fixpoint csv_all (d : texts) (file : path) (sep : string) (wfs : list (string * list (Z * Z))) : texts * res unit :=
  match wfs with
  | [] => (d, Ok tt)
  | (name, wf) :: wfs' =>
      match waveform_to_csv d file name wf sep with
      | (d', Ok _) => csv_all d' file sep wfs'
      | (d', Err e) => (d', Err e)
      end
  end.

(** CL:265-277, extract_gpio on recordings (their path, and the group or why it cannot be opened). *)
Definition extract_gpio_one (sep : string) (d : texts) (f : path * res (option gpio)) : texts * res unit :=
  match (let* g := snd f in gpio_to_waveforms g None) with
  | Err e => (d, Err e)
  | Ok wfs => csv_all d (fst f) sep wfs
  end.
Definition extract_gpio (sep : string) : texts -> list (path * res (option gpio)) -> texts * res unit :=
  for_files (extract_gpio_one sep).

(** CL:238-245: one line of text; a line without a time is left out (its TypeError is suppressed). *)
Definition uart_line (render : string -> string) (l : option Z * string) : string :=
  match fst l with
  | None => EmptyString
  | Some t => (stamp t ++ ":" ++ tab ++ render (snd l) ++ newline)%string
  end.

(** CL:219-247, extract_uart. *)
Definition extract_uart_one (decode : list (Z * Z) -> res (list (option Z * string))) (render : string -> string)
    (d : texts) (f : path * res (option gpio)) : texts * res unit :=
  match (let* g := snd f in gpio_to_uart decode g) with
  | Err e => (d, Err e)
  | Ok None => (d, Ok tt)
  | Ok (Some lines) =>
      let out := with_suffix (fst f) ".uart_from_wf.log" in
      match find_text d out with
      | Some _ => (d, Ok tt)
      | None => ((out, fold_right (fun l s => (uart_line render l ++ s)%string) EmptyString lines) :: d, Ok tt)
      end
  end.
Definition extract_uart decode render : texts -> list (path * res (option gpio)) -> texts * res unit :=
  for_files (extract_uart_one decode render).
End Times.
