(** Model of the data tools: shepherd_data/shepherd_data/reader.py (save_csv, downsample,
    cut_and_downsample_to_file) and shepherd_data/shepherd_data/cli.py (path_to_flist, validate,
    downsample), on top of the recording files of [FileModel].

    Simplifications: seconds and factors are exact rationals; progress bars and logging are left
    out; the Butterworth filter of scipy is an arbitrary state machine (a step per sample), which is
    what signal.sosfilt with its argument zi is; what a dataset stores for a filtered value is part
    of that step. *)
From Coq Require Import QArith Qround String Ascii.
From Verif Require Import PyBase UartModel FileModel.
From RecordUpdate Require Import RecordUpdate.
Open Scope Z_scope.

(* ------------------------------------------------------------------ array operations *)

(** l[k::n] for n >= 1, counted down by [k]. *)
Fixpoint every_from {A} (k n : nat) (l : list A) : list A :=
  match l with
  | [] => []
  | x :: l' => match k with
               | O => x :: every_from (n - 1) n l'
               | S k' => every_from k' n l'
               end
  end.
Definition every {A} (n : nat) (l : list A) : list A := every_from 0 n l.

(** l[:k]; a negative k counts from the end. *)
Definition py_first {A} (k : Z) (l : list A) : list A :=
  if k <? 0 then firstn (Z.to_nat (Z.of_nat (length l) + k)) l else firstn (Z.to_nat k) l.

(** dst[a:b] = new for 0 <= a <= b: the range is clipped to the array; a single value is repeated,
    any other length that does not fit raises [e] (ValueError by numpy, TypeError by h5py). *)
Definition assign_slice {A} (e : exn) (a b : nat) (new dst : list A) : res (list A) :=
  let lo := Nat.min a (length dst) in
  let hi := Nat.min b (length dst) in
  if (length new =? hi - lo)%nat then Ok (firstn lo dst ++ new ++ skipn hi dst)
  else match new with
       | [y] => Ok (firstn lo dst ++ repeat y (hi - lo) ++ skipn hi dst)
       | _ => Err e
       end.

(** resize: cut, or extend with [z]. *)
Definition resize_to {A} (z : A) (n : nat) (l : list A) : list A :=
  firstn n l ++ repeat z (n - length l).

(* ------------------------------------------------------------------ downsample *)

(** scipy.signal.sosfilt over a block: the outputs and the final state. *)
Fixpoint sosfilt {S X W} (step : S -> X -> S * W) (st : S) (l : list X) : S * list W :=
  match l with
  | [] => (st, [])
  | x :: l' =>
    let '(st1, y) := step st x in
    let '(st2, ys) := sosfilt step st1 l' in
    (st2, y :: ys)
  end.

(** What reader.py:168-246 needs to know about its surroundings: the filter for a factor, the
    conversion of a sample that is copied without a filter, the fill value of a grown array and the
    exception of a failing assignment. *)
Record dsenv (S X W : Type) := mkEnv {
  e_zero : S;
  e_step : nat -> S -> X -> S * W;
  e_copy : X -> W;
  e_fill : W;
  e_exn : exn
}.
Arguments mkEnv {S X W}.
Arguments e_zero {S X W}. Arguments e_step {S X W}. Arguments e_copy {S X W}.
Arguments e_fill {S X W}. Arguments e_exn {S X W}.

(** reader.py:231-241, one iteration of the loop: destination and filter state. *)
Definition ds_block {S X W} (env : dsenv S X W) (is_time : bool) (ds start iblock : nat)
  (oblock dest : Z) (src : list X) (it : nat) (dst : list W) (st : S) : res (list W * S) :=
  let blk := slice (start + it * iblock) (start + (it + 1) * iblock) src in
  let '(st', ys) := if negb is_time && (1 <? ds)%nat then sosfilt (e_step env ds) st blk
                    else (st, map (e_copy env) blk) in
  let slice_len := Z.min (dest - Z.of_nat it * oblock) oblock in
  let* dst' := assign_slice (e_exn env) (it * Z.to_nat oblock) ((it + 1) * Z.to_nat oblock)
                            (py_first slice_len (every ds ys)) dst in
  Ok (dst', st').

(** reader.py:225-241, the loop; the array as it is left behind, and the exception. *)
Fixpoint ds_loop {S X W} (env : dsenv S X W) (is_time : bool) (ds start iblock : nat)
  (oblock dest : Z) (src : list X) (n it : nat) (dst : list W) (st : S) : list W * option exn :=
  match n with
  | O => (dst, None)
  | Datatypes.S n' =>
    match ds_block env is_time ds start iblock oblock dest src it dst st with
    | Err e => (dst, Some e)
    | Ok (dst', st') => ds_loop env is_time ds start iblock oblock dest src n' (it + 1) dst' st'
    end
  end.

(** reader.py:168-246, downsample.  [dst]: the given array (or none); result: the array afterwards
    and the exception.  0 <= start_n, end_n.  Quotients of integers below 2^53 with a factor below
    10^9 round, floor and ceil as the exact ones. *)
Definition downsample {S X W} (env : dsenv S X W) (max_elements : nat) (src : list X)
  (dst : option (list W)) (start_n : nat) (end_n : option nat) (ds_factor : Q) (is_time : bool)
  : option (list W) * option exn :=
  let ds := Z.to_nat (Z.max 1 (Qfloor ds_factor)) in
  let end_ := match end_n with Some e => Nat.min (length src) e | None => length src end in
  let start := Nat.min end_ start_n in
  let data_len := (end_ - start)%nat in
  if (data_len =? 0)%nat then (dst, None)
  else
    let iblock := Nat.min max_elements data_len in
    let oblock := qround (inject_Z (Z.of_nat iblock) / inject_Z (Z.of_nat ds)) in
    let iterations := ceil_div data_len iblock in
    let dest := Z.of_nat (data_len / ds) in
    let dst0 := resize_to (e_fill env) (data_len / ds)
                          (match dst with Some d => d | None => [] end) in
    match ds_loop env is_time ds start iblock oblock dest src iterations 0 dst0 (e_zero env) with
    | (d, Some e) => (Some d, Some e)
    | (d, None) =>
      let slice_len := Z.min (dest - Z.of_nat (iterations - 1) * oblock) oblock in
      (Some (resize_to (e_fill env) (Z.to_nat (oblock * Z.of_nat (iterations - 1) + slice_len)) d), None)
    end.

(* ------------------------------------------------------------------ cut & downsample *)

(** shepherd_core/reader.py:187, runtime_s: rounded to a tenth of a second. *)
Definition round1 (x : Q) : Q := (inject_Z (qround (x * 10)) / 10)%Q.
Definition runtime_s (r : reader) : Q :=
  round1 (inject_Z (Z.of_nat (List.length (f_voltage (r_file r)))) / inject_Z (st_rate (r_stats r))).

(** f"{x:.3f}".replace(".", "s") for 0 <= x *)
Definition digit (n : nat) : string := String (ascii_of_nat (48 + n)) EmptyString.
Definition fmt3 (x : Q) : string :=
  let m := Z.to_nat (qround (x * 1000)) in
  (dec (m / 1000) ++ "s" ++ digit (m / 100 mod 10) ++ digit (m / 10 mod 10) ++ digit (m mod 10))%string.

(** reader.py:266-273, the limits in seconds and in samples. *)
Definition cut_start (start_s : option Q) : Q :=
  match start_s with Some s => qmax2 0 s | None => 0%Q end.
Definition cut_end (r : reader) (end_s : option Q) : Q :=
  match end_s with Some s => qmin2 (runtime_s r) s | None => runtime_s r end.
Definition to_sample (r : reader) (s : Q) : Z := qround (s * inject_Z (st_rate (r_stats r))).

(** reader.py:297-305 and 307, the name of the output. *)
Definition qltb (a b : Q) : bool := negb (Qle_bool b a).
Definition out_suffix (r : reader) (s e factor : Q) : string :=
  let cut := if negb (Qeq_bool s 0) || negb (Qeq_bool e (runtime_s r))
             then (".cut_" ++ fmt3 s ++ "_to_" ++ fmt3 e)%string else EmptyString in
  let dss := if qltb 1 factor then (".downsample_x" ++ dec (Z.to_nat (qround factor)))%string
             else EmptyString in
  (cut ++ dss ++ ".h5")%string.
Definition out_path (r : reader) (p : path) (s e factor : Q) : path :=
  (fst p, (stem (snd p) ++ out_suffix r s e factor)%string).

(** The filter acts on the stored integers; a Dataset raises TypeError at a mismatch of lengths. *)
Record filt := mkFilt { fl_state : Type; fl_zero : fl_state; fl_step : nat -> fl_state -> Z -> fl_state * Z }.
Definition file_env (fl : filt) : dsenv (fl_state fl) Z Z :=
  mkEnv (fl_zero fl) (fl_step fl) (fun x => x) 0 TypeError.

(** reader.py:329-350, the three datasets one after the other; what they contain afterwards. *)
Definition ds_into (fl : filt) (r : reader) (src : list Z) (start end_ : nat) (factor : Q)
  (is_time : bool) : list Z * option exn :=
  match downsample (file_env fl) (Z.to_nat (r_max_elements r)) src (Some []) start (Some end_) factor is_time with
  | (Some d, e) => (d, e)
  | (None, e) => ([], e)
  end.
Definition ds_all (fl : filt) (r : reader) (start end_ : nat) (factor : Q)
  : list Z * list Z * list Z * option exn :=
  let f := r_file r in
  match ds_into fl r (f_time f) start end_ factor true with
  | (t, Some e) => (t, [], [], Some e)
  | (t, None) =>
    match ds_into fl r (f_voltage f) start end_ factor false with
    | (v, Some e) => (t, v, [], Some e)
    | (v, None) =>
      match ds_into fl r (f_current f) start end_ factor false with
      | (i, x) => (t, v, i, x)
      end
    end
  end.

(** reader.py:248-352, cut_and_downsample_to_file for the file opened as [p].  The attribute
    "ds_factor" of the new file is left out.  After an exception inside of the with-statement the
    new file is closed as usual and stays. *)
Definition cut_and_downsample (fl : filt) (d : fs) (p : path) (r : reader)
  (start_s end_s : option Q) (factor : Q) : fs * res path :=
  let s := cut_start start_s in
  let e := cut_end r end_s in
  let start := to_sample r s in
  let end_ := to_sample r e in
  if end_ <? start then (d, Err ValueError)
  else if qltb factor 1 then (d, Err ValueError)
  else if qltb (inject_Z (end_ - start) / factor) 1000 then (d, Err ValueError)
  else
    let q := out_path r p s e factor in
    if exists_ d q then (d, Ok q)
    else
      match f_data (r_file r) with
      | None => (d, Err KeyError)
      | Some g =>
        let a := mkArgs (Some (get_mode (r_file r))) (option_map dtype_name (get_datatype g))
                        (Some (get_window_samples g)) (Some (r_cal r)) false false in
        match writer_init a d q with
        | (d1, Err x) => (d1, Err x)
        | (d1, Ok (q1, w)) =>
          match get_config (r_file r) with
          | Err x => (d1, Err x)
          | Ok c =>
            let w1 := store_config (store_hostname w (get_hostname (r_file r))) c in
            let '(t, v, i, x) := ds_all fl r (Z.to_nat start) (Z.to_nat end_) factor in
            let w2 := w1 <| r_file := set_values (r_file w1) t v i |> in
            match close w2 with
            | Err y => (store d1 q1 (NFile (r_file w2)), Err y)
            | Ok f => (store d1 q1 (NFile f), match x with Some x => Err x | None => Ok q end)
            end
          end
        end
      end.

(* ------------------------------------------------------------------ CSV *)

(** One entry of a dataset: a number or a row of numbers. *)
Inductive cell := One (x : Q) | Row (l : list Q).
Record column := mkCol {
  co_name : string; co_desc : option string; co_gain : option Q; co_offset : option Q;
  co_val : list cell
}.
(** The group: its column "time" (integers) and the other datasets in order. *)
Record csv_group := mkCsvGroup {
  cg_time : option (option string * option Q * list Z);
  cg_cols : list column
}.

(** values * gain + offset *)
Definition scale (g o : Q) (c : cell) : cell :=
  match c with
  | One x => One (x * g + o)%Q
  | Row l => Row (map (fun x => (x * g + o)%Q) l)
  end.

(** reader.py:45-94, save_csv with [exists] = csv_path.exists(): the lines after the header, each a
    timestamp in seconds and the entries in the order of the columns; None: no file written.  The
    text form of numbers and timestamps is left out.  An index beyond a dataset raises IndexError. *)
Fixpoint collect {A} (l : list (res A)) : res (list A) :=
  match l with
  | [] => Ok []
  | r :: l' => let* x := r in let* xs := collect l' in Ok (x :: xs)
  end.
Definition csv_entry (raw : bool) (idx : nat) (c : column) : res cell :=
  match nth_error (co_val c) idx with
  | None => Err IndexError
  | Some x =>
    Ok (if raw then x
        else scale (match co_gain c with Some g => g | None => 1 end)
                   (match co_offset c with Some o => o | None => 1 end) x)
  end.
Definition csv_rows (raw : bool) (ts_gain : Q) (cols : list column) (time : list Z)
  : res (list (Q * list cell)) :=
  collect (map (fun '(idx, t) =>
    let* es := collect (map (csv_entry raw idx) cols) in
    Ok ((inject_Z t * ts_gain)%Q, es)) (combine (seq 0 (List.length time)) time)).
Definition save_csv (g : csv_group) (exists_already raw : bool)
  : res (option (list string * list (Q * list cell)) * nat) :=
  match cg_time g with
  | None => Ok (None, 0%nat)
  | Some (desc, ts_gain, time) =>
    if (List.length time <? 1)%nat then Ok (None, 0%nat)
    else if exists_already then Ok (None, 0%nat)
    else
      let* header := collect (map opt (desc :: map co_desc (cg_cols g))) in
      let* rows := csv_rows raw (match ts_gain with Some x => x | None => 1 # 1000000000 end)
                            (cg_cols g) time in
      Ok (Some (header, rows), List.length time)
  end.

(* ------------------------------------------------------------------ command line *)

(** str.lower() for ASCII *)
Definition lower_ascii (c : ascii) : ascii :=
  let n := nat_of_ascii c in
  if ((65 <=? n) && (n <=? 90))%nat then ascii_of_nat (n + 32) else c.
Fixpoint lower (s : string) : string :=
  match s with EmptyString => EmptyString | String c s' => String (lower_ascii c) (lower s') end.
Definition ends_with (e s : string) : bool :=
  (String.length e <=? String.length s)%nat &&
  (substring (String.length s - String.length e) (String.length e) s =? e)%string.
Definition is_file (d : fs) (p : path) : bool :=
  match lookup d p with Some (NFile _) | Some NOther => true | _ => false end.
Definition is_dir (d : fs) (p : path) : bool :=
  match lookup d p with Some NDir => true | _ => false end.

(** cli.py:25-41, path_to_flist without recursion: glob("*.h5") lists the entries of the directory,
    here each name once in the order of the file system. *)
Fixpoint names_in (d : fs) (dir : string) (seen : list string) : list string :=
  match d with
  | [] => []
  | (q, _) :: d' =>
    if (fst q =? dir)%string && negb (existsb (String.eqb (snd q)) seen)
    then snd q :: names_in d' dir (snd q :: seen)
    else names_in d' dir seen
  end.
Definition path_to_flist (d : fs) (p : path) : list path :=
  if is_file d p && (lower (suffix (snd p)) =? ".h5")%string then [p]
  else if is_dir d p then
    let dir := (fst p ++ "/" ++ snd p)%string in
    filter (is_file d) (map (fun n => (dir, n)) (filter (ends_with ".h5") (names_in d dir [])))
  else [].

(** shepherd_core/reader.py:60-152, Reader(file): a file that is not HDF5 raises TypeError. *)
Definition open_reader (d : fs) (p : path) : res reader :=
  match lookup d p with
  | Some (NFile f) => reader_init f
  | Some NOther => Err TypeError
  | _ => Err FileNotFoundError
  end.

(** cli.py:77-95, the body of the try-block for one file. *)
Definition validate_file (d : fs) (p : path) : res bool :=
  let* r := open_reader d p in
  let valid := is_valid (r_file r) in
  let* t := check_timediffs r in
  Ok (valid && t).
(** cli.py:73-96, validate; the exit code of the process: an exception that is not caught ends it
    with code 1. *)
Fixpoint validate_loop (d : fs) (files : list path) (valid_dir : bool) : res bool :=
  match files with
  | [] => Ok valid_dir
  | p :: files' =>
    match validate_file d p with
    | Ok v => validate_loop d files' (valid_dir && v)
    | Err TypeError => validate_loop d files' valid_dir
    | Err e => Err e
    end
  end.
Definition validate (d : fs) (p : path) : Z :=
  match validate_loop d (path_to_flist d p) true with
  | Ok valid_dir => if valid_dir then 0 else 1
  | Err _ => 1
  end.

(** cli.py:326-332, the factors for one file and the variable ds_factor afterwards. *)
Definition ds_default : list Q := map inject_Z [5; 25; 100; 500; 2500; 10000; 50000; 250000; 1000000].
Definition ds_choice (rate : Z) (ds_factor : option Q) (sample_rate : option Z) : option Q * list Q :=
  let f := match ds_factor, sample_rate with
           | None, Some sr => if 1 <=? sr then Some (inject_Z rate / inject_Z sr)%Q else None
           | f, _ => f
           end in
  (f, match f with
      | Some x => if Qle_bool 1 x then [x] else ds_default
      | None => ds_default
      end).

(** cli.py:334-336, all factors of one file; stops at the first exception. *)
Fixpoint ds_files (fl : filt) (d : fs) (p : path) (r : reader) (start end_ : option Q) (l : list Q)
  : fs * res unit :=
  match l with
  | [] => (d, Ok tt)
  | x :: l' =>
    match cut_and_downsample fl d p r start end_ x with
    | (d', Err e) => (d', Err e)
    | (d', Ok _) => ds_files fl d' p r start end_ l'
    end
  end.
(** cli.py:322-338, downsample.  Result: file system, the pairs (file, factors) that were chosen,
    and the exception that ended the command. *)
Fixpoint cli_downsample (fl : filt) (d : fs) (files : list path) (ds_factor : option Q)
  (sample_rate : option Z) (start end_ : option Q) : fs * list (path * list Q) * option exn :=
  match files with
  | [] => (d, [], None)
  | p :: files' =>
    match open_reader d p with
    | Err TypeError | Err ValueError => cli_downsample fl d files' ds_factor sample_rate start end_
    | Err e => (d, [], Some e)
    | Ok r =>
      let '(f, l) := ds_choice (st_rate (r_stats r)) ds_factor sample_rate in
      match ds_files fl d p r start end_ l with
      | (d', Ok _) | (d', Err TypeError) | (d', Err ValueError) =>
        let '(d'', chosen, x) := cli_downsample fl d' files' f sample_rate start end_ in
        (d'', (p, l) :: chosen, x)
      | (d', Err e) => (d', [(p, l)], Some e)
      end
    end
  end.
