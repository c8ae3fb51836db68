(** Model of the recording files: shepherd_core/shepherd_core/writer.py (class Writer) and
    shepherd_core/shepherd_core/reader.py (class Reader).

    An HDF5 file is a record of the attributes and datasets that the two classes touch; the file
    system maps (directory, name) to nodes.  Simplifications: attribute values of type float are
    exact rationals; logging, compression, chunking, flushing, file size and runtime statistics are
    left out; values appended as raw data fit the dataset types (u8 / u4); YAML dump followed by
    YAML load of a configuration is the identity. *)
From Coq Require Import QArith Qround String Ascii.
From Coq Require Import DecimalString.
From Verif Require Import PyBase UartModel.
From RecordUpdate Require Import RecordUpdate.
Open Scope Z_scope.

(* ------------------------------------------------------------------ calibration *)

(** data_models/base/calibration.py:51-56, CalibrationPair (without unit), exact values. *)
Record pair := mkPair { gain : Q; offset : Q }.

(** calibration.py:58-69, raw_to_si with allow_negative at its default. *)
Definition raw_to_si (p : pair) (raw : Z) : Q := (inject_Z raw * gain p + offset p)%Q.

(** calibration.py:259-267, CalibrationSeries; exact decimal values instead of the nearest doubles. *)
Record series := mkSeries { c_voltage : pair; c_current : pair; c_time : pair }.
Definition series_default : series :=
  mkSeries (mkPair (3 # 1000000000) 0) (mkPair (250 # 1000000000000) 0) (mkPair (1 # 1000000000) 0).

(* ------------------------------------------------------------------ HDF5 content *)

(** A dataset with its calibration attributes (None: attribute missing). *)
Record dset := mkDset { ds_gain : option Q; ds_offset : option Q; ds_val : list Z }.
#[export] Instance eta_dset : Settable _ := settable! mkDset <ds_gain; ds_offset; ds_val>.

(** A configuration: two levels of mappings with numbers at the leaves. *)
Definition cfg : Type := list (string * list (string * Q)).

(** The group "data". *)
Record grp := mkGrp {
  g_datatype : option string;
  g_window : option Z;
  g_config : option cfg;
  g_time : option dset;
  g_voltage : option dset;
  g_current : option dset
}.
#[export] Instance eta_grp : Settable _ :=
  settable! mkGrp <g_datatype; g_window; g_config; g_time; g_voltage; g_current>.

(** The whole file. *)
Record h5 := mkH5 {
  f_mode : option string;
  f_config : option cfg;
  f_hostname : option string;
  f_data : option grp
}.
#[export] Instance eta_h5 : Settable _ := settable! mkH5 <f_mode; f_config; f_hostname; f_data>.

(** data_models/content/energy_environment.py:15-20, EnergyDType and its aliases. *)
Inductive dtype := ivsample | ivcurve | isc_voc.
Definition dtype_eqb (a b : dtype) : bool :=
  match a, b with ivsample, ivsample | ivcurve, ivcurve | isc_voc, isc_voc => true | _, _ => false end.
Definition dtype_of_name (s : string) : option dtype :=
  if (s =? "ivsample")%string || (s =? "ivsamples")%string then Some ivsample
  else if (s =? "ivcurve")%string || (s =? "ivcurves")%string || (s =? "ivsurface")%string
  then Some ivcurve
  else if (s =? "isc_voc")%string then Some isc_voc else None.
Definition dtype_name (d : dtype) : string :=
  match d with ivsample => "ivsample" | ivcurve => "ivcurve" | isc_voc => "isc_voc" end.

(** reader.py:49-58 *)
Definition samples_per_buffer : Z := 10000.
Definition mode_dtypes (mode : string) : option (list dtype) :=
  if (mode =? "harvester")%string then Some [ivsample; ivcurve; isc_voc]
  else if (mode =? "emulator")%string then Some [ivsample] else None.
Definition dtype_in (d : option dtype) (l : list dtype) : bool :=
  match d with Some d => existsb (dtype_eqb d) l | None => false end.

(** commons.py:3 *)
Definition samplerate_sps_default : Z := 100000.

(** reader.py:247-276, the getters for attributes; a missing group "data" raises KeyError. *)
Definition get_window_samples (g : grp) : Z := match g_window g with Some w => w | None => 0 end.
Definition get_datatype (g : grp) : option dtype :=
  match g_datatype g with Some s => dtype_of_name s | None => None end.
Definition get_mode (f : h5) : string := match f_mode f with Some m => m | None => ""%string end.
Definition get_config (f : h5) : res cfg :=
  match f_data f with
  | None => Err KeyError
  | Some g => match g_config g with Some c => Ok c | None => Ok [] end
  end.

(** reader.py:440-450, Reader.__getitem__ for the key "config" (root attribute). *)
Definition getitem_config (f : h5) : res cfg :=
  match f_config f with Some c => Ok c | None => Err KeyError end.

(** reader.py:312-438, is_valid: only the hard criteria decide the result; the soft ones log. *)
Definition dset_complete (d : option dset) : bool :=
  match d with
  | Some d => match ds_gain d, ds_offset d with Some _, Some _ => true | _, _ => false end
  | None => false
  end.
Definition is_valid (f : h5) : bool :=
  match f_data f with
  | None => false
  | Some g =>
    match f_mode f with
    | None => false
    | Some m =>
      match mode_dtypes m with
      | None => false
      | Some allowed =>
        match g_window g, g_datatype g with
        | Some _, Some _ =>
          dset_complete (g_time g) && dset_complete (g_current g) && dset_complete (g_voltage g)
          && dtype_in (get_datatype g) allowed
          && negb (match get_datatype g with Some ivcurve => get_window_samples g <? 1 | _ => false end)
        | _, _ => false
        end
      end
    end
  end.

(* ------------------------------------------------------------------ Reader object *)

(** reader.py:77-89, the sampling attributes of the object. *)
Record stats := mkStats { st_rate : Z; st_interval_ns : Z; st_interval_s : Q }.
Definition stats_init : stats :=
  mkStats samplerate_sps_default (10 ^ 9 / samplerate_sps_default) (1 # 100000).

(** An opened file: the content (dataset handles point into it), calibration, stats, block size.
    reader.py:60-134. *)
Record reader := mkReader {
  r_file : h5;
  r_cal : series;
  r_stats : stats;
  r_max_elements : Z
}.
#[export] Instance eta_reader : Settable _ :=
  settable! mkReader <r_file; r_cal; r_stats; r_max_elements>.

(** The three dataset handles, reader.py:120-122; KeyError if something is missing. *)
Definition opt {A} (o : option A) : res A := match o with Some a => Ok a | None => Err KeyError end.
Definition values (o : option dset) : list Z := match o with Some d => ds_val d | None => [] end.
Definition f_time (f : h5) : list Z := match f_data f with Some g => values (g_time g) | None => [] end.
Definition f_voltage (f : h5) : list Z :=
  match f_data f with Some g => values (g_voltage g) | None => [] end.
Definition f_current (f : h5) : list Z :=
  match f_data f with Some g => values (g_current g) | None => [] end.

(** reader.py:171-191, _refresh_file_stats: the sampling attributes only. *)
Definition refresh (c : series) (time : list Z) (s : stats) : res stats :=
  let n := Z.of_nat (length time) in
  let duration_raw := match time with [] => 0 | t0 :: _ => last time 0 - t0 end in
  if (0 <? n) && (0 <? duration_raw) then
    let duration_s := raw_to_si (c_time c) duration_raw in
    if Qeq_bool duration_s 0 then Err ZeroDivisionError else
    let interval_s := (duration_s / inject_Z n)%Q in
    Ok (mkStats (Z.max (qround (inject_Z (n - 1) / duration_s)) 1)
                (qround (inject_Z (10 ^ 9) * interval_s)) interval_s)
  else Ok s.

(** reader.py:124-132: calibration from the attributes, defaults for missing ones; a gain that is
    not positive is rejected by pydantic (PositiveFloat). *)
Definition pair_from (default : pair) (d : dset) : res pair :=
  let g := match ds_gain d with Some x => x | None => gain default end in
  let o := match ds_offset d with Some x => x | None => offset default end in
  if Qle_bool g 0 then Err ValueError else Ok (mkPair g o).

(** reader.py:117-134, the part of Reader.__init__ that Writer shares. *)
Definition reader_init (f : h5) : res reader :=
  let* g := opt (f_data f) in
  let* t := opt (g_time g) in
  let* v := opt (g_voltage g) in
  let* i := opt (g_current g) in
  let* pi := pair_from (c_current series_default) i in
  let* pv := pair_from (c_voltage series_default) v in
  let* pt := pair_from (c_time series_default) t in
  let c := mkSeries pv pi pt in
  let* s := refresh c (ds_val t) stats_init in
  Ok (mkReader f c s (40 * samplerate_sps_default)).

(* ------------------------------------------------------------------ Writer *)

(** writer.py:231-280, _create_skeleton on an empty file. *)
Definition empty_dset : dset := mkDset None None [].
Definition skeleton : h5 :=
  mkH5 None None None
    (Some (mkGrp None (Some 0) None (Some empty_dset) (Some empty_dset) (Some empty_dset))).

(** Arguments of the constructor, writer.py:103-115 (without compression and verbose).
    [a_cal]: None, or the CalSeries (a CalEmu / CalHrv is converted by from_cal before). *)
Record wargs := mkArgs {
  a_mode : option string;
  a_datatype : option string;
  a_window : option Z;
  a_cal : option series;
  a_modify : bool;
  a_overwrite : bool
}.

(** writer.py:151-161.  Each step returns the file content it leaves behind and what it raised. *)
Definition step_mode (mode : option string) (f : h5) : h5 * res (list dtype) :=
  match mode with
  | Some m =>
    match mode_dtypes m with
    | None => (f, Err ValueError)
    | Some l => (f <| f_mode := Some m |>, Ok l)
    end
  | None =>
    let f' := match f_mode f with None => f <| f_mode := Some "harvester"%string |> | Some _ => f end in
    (f', opt (mode_dtypes (get_mode f')))
  end.

(** Change of the group "data". *)
Definition upd_grp (f : h5) (u : grp -> grp) : h5 :=
  match f_data f with Some g => f <| f_data := Some (u g) |> | None => f end.

(** writer.py:163-178; the result is the value of the variable [datatype]. *)
Definition step_datatype (name : option string) (allowed : list dtype) (f : h5)
  : h5 * res (option dtype) :=
  match match name with
        | None => Ok None
        | Some s => match dtype_of_name s with Some d => Ok (Some d) | None => Err KeyError end
        end with
  | Err e => (f, Err e)
  | Ok d =>
    if match d with Some d => negb (dtype_in (Some d) allowed) | None => false end
    then (f, Err ValueError)
    else
      match f_data f with
      | None => (f, Err KeyError)
      | Some g =>
        let g1 := match d with Some d => g <| g_datatype := Some (dtype_name d) |> | None => g end in
        let g2 := match g_datatype g1 with
                  | None => g1 <| g_datatype := Some (dtype_name ivsample) |>
                  | Some _ => g1
                  end in
        (f <| f_data := Some g2 |>,
         if dtype_in (get_datatype g2) allowed then Ok d else Err ValueError)
      end
  end.

(** writer.py:180-187 *)
Definition step_window (window : option Z) (d : option dtype) (f : h5) : h5 * res unit :=
  match f_data f with
  | None => (f, Err KeyError)
  | Some g =>
    let g1 := match window with Some w => g <| g_window := Some w |> | None => g end in
    let g2 := match g_window g1 with None => g1 <| g_window := Some 0 |> | Some _ => g1 end in
    (f <| f_data := Some g2 |>,
     if match d with Some ivcurve => true | _ => false end && (get_window_samples g2 <? 1)
     then Err ValueError else Ok tt)
  end.

(** writer.py:193-201, for one dataset: write the given pair, or fill in missing attributes. *)
Definition cal_dset (given : option pair) (default : pair) (d : dset) : dset :=
  match given with
  | Some p => d <| ds_gain := Some (gain p) |> <| ds_offset := Some (offset p) |>
  | None =>
    mkDset (Some (match ds_gain d with Some x => x | None => gain default end))
           (Some (match ds_offset d with Some x => x | None => offset default end)) (ds_val d)
  end.

(** writer.py:189-201; order current, voltage, time; KeyError at a missing dataset. *)
Definition step_cal (c : option series) (f : h5) : h5 * res unit :=
  match f_data f with
  | None => (f, Err KeyError)
  | Some g =>
    match g_current g with
    | None => (f, Err KeyError)
    | Some i =>
      let g1 := g <| g_current := Some (cal_dset (option_map c_current c) (c_current series_default) i) |> in
      match g_voltage g1 with
      | None => (f <| f_data := Some g1 |>, Err KeyError)
      | Some v =>
        let g2 := g1 <| g_voltage := Some (cal_dset (option_map c_voltage c) (c_voltage series_default) v) |> in
        match g_time g2 with
        | None => (f <| f_data := Some g2 |>, Err KeyError)
        | Some t =>
          let g3 := g2 <| g_time := Some (cal_dset (option_map c_time c) (c_time series_default) t) |> in
          (f <| f_data := Some g3 |>, Ok tt)
        end
      end
    end
  end.

(** writer.py:151-207, everything after the file was opened.  The first component is the content of
    the file when the constructor returns or raises. *)
Definition configure (a : wargs) (f : h5) : h5 * res reader :=
  match step_mode (a_mode a) f with
  | (f1, Err e) => (f1, Err e)
  | (f1, Ok allowed) =>
    match step_datatype (a_datatype a) allowed f1 with
    | (f2, Err e) => (f2, Err e)
    | (f2, Ok d) =>
      match step_window (a_window a) d f2 with
      | (f3, Err e) => (f3, Err e)
      | (f3, Ok _) =>
        match step_cal (a_cal a) f3 with
        | (f4, Err e) => (f4, Err e)
        | (f4, Ok _) => (f4, reader_init f4)
        end
      end
    end
  end.

(* ------------------------------------------------------------------ file system *)

(** A node: an HDF5 file, a file that is not HDF5, or a directory. *)
Inductive node := NFile (f : h5) | NOther | NDir.
(** (directory, name); paths are already resolved. *)
Definition path : Type := (string * string)%type.
Definition path_eqb (a b : path) : bool := (fst a =? fst b)%string && (snd a =? snd b)%string.
Definition fs : Type := list (path * node).

Fixpoint lookup (d : fs) (p : path) : option node :=
  match d with
  | [] => None
  | (q, n) :: d' => if path_eqb q p then Some n else lookup d' p
  end.
Definition store (d : fs) (p : path) (n : node) : fs := (p, n) :: d.
Definition exists_ (d : fs) (p : path) : bool := match lookup d p with Some _ => true | None => false end.

(** pathlib's PurePath.stem / PurePath.suffix: split at the last dot, unless it is the first or the
    last character of the name. [last_dot n s]: index of the last dot of [s], offset by [n]. *)
Fixpoint last_dot (n : nat) (s : string) : option nat :=
  match s with
  | EmptyString => None
  | String c s' =>
    match last_dot (S n) s' with
    | Some k => Some k
    | None => if Ascii.eqb c "."%char then Some n else None
    end
  end.
Definition split_name (s : string) : string * string :=
  match last_dot 0 s with
  | Some k =>
    if ((0 <? k) && (S k <? String.length s))%nat
    then (substring 0 k s, substring k (String.length s - k) s)
    else (s, EmptyString)
  | None => (s, EmptyString)
  end.
Definition stem (s : string) : string := fst (split_name s).
Definition suffix (s : string) : string := snd (split_name s).

(** Decimal digits of a counter, f"{counter}". *)
Definition dec (n : nat) : string := NilEmpty.string_of_uint (Nat.to_uint n).

(** writer.py:63, Path(base_path).with_suffix(f".{counter}{suffix}"), where base_path is the
    requested path without its suffix (writer.py:134). *)
Definition candidate (p : path) (counter : nat) : path :=
  (fst p, (stem (stem (snd p)) ++ "." ++ dec counter ++ suffix (snd p))%string).

(** writer.py:61-66, unique_path; [fuel] bounds the loop, see [unique_path_total]. *)
Fixpoint unique_path (d : fs) (p : path) (fuel counter : nat) : option path :=
  match fuel with
  | O => None
  | S fuel' =>
    if exists_ d (candidate p counter) then unique_path d p fuel' (S counter)
    else Some (candidate p counter)
  end.

(** writer.py:126-139, choice of the path. *)
Definition choose_path (a : wargs) (d : fs) (p : path) : res path :=
  if a_modify a || a_overwrite a || negb (exists_ d p) then Ok p
  else
    match lookup d p with
    | Some NDir => Err TypeError
    | _ =>
      match unique_path d p (S (length d)) 0 with
      | Some q => Ok q
      | None => Err RuntimeError   (* never: unique_path_total *)
      end
    end.

(** writer.py:102-207, Writer.__init__.  Result: the file system afterwards and the object.
    h5py.File(.., "r+") fails for a missing or foreign file, (.., "w") for a directory. *)
Definition writer_init (a : wargs) (d : fs) (p : path) : fs * res (path * reader) :=
  match choose_path a d p with
  | Err e => (d, Err e)
  | Ok q =>
    match (if a_modify a
           then match lookup d q with
                | None => Err FileNotFoundError
                | Some (NFile f) => Ok f
                | Some _ => Err OSError
                end
           else match lookup d q with
                | Some NDir => Err OSError
                | _ => Ok skeleton
                end) with
    | Err e => (d, Err e)
    | Ok f =>
      let '(f', r) := configure a f in
      (store d q (NFile f'),
       match r with Ok w => Ok (q, w) | Err e => Err e end)
    end
  end.

(* ------------------------------------------------------------------ recording *)

(** h5py Dataset.resize: cut, or extend with zeros. *)
Definition resize (n : nat) (l : list Z) : list Z := firstn n l ++ repeat 0 (n - length l).
(** ds[a : a + len(new)] = new, for a range inside of the dataset. *)
Definition assign (a : nat) (new l : list Z) : list Z :=
  firstn a l ++ new ++ skipn (a + length new) l.

(** The forms of [timestamp] that append_iv_data_raw tells apart, writer.py:299-307.
    Floats are converted by int() first; anything else (e.g. a numpy scalar) is rejected. *)
Inductive tstamp := TsScalar (t : Z) | TsArray (t : list Z) | TsOther.

(** Datasets of the file replaced. *)
Definition set_values (f : h5) (t v i : list Z) : h5 :=
  upd_grp f (fun g =>
    g <| g_time := option_map (fun d => d <| ds_val := t |>) (g_time g) |>
      <| g_voltage := option_map (fun d => d <| ds_val := v |>) (g_voltage g) |>
      <| g_current := option_map (fun d => d <| ds_val := i |>) (g_current g) |>).

(** writer.py:282-319, append_iv_data_raw. *)
Definition expand_ts (interval_ns : Z) (ts : tstamp) (len_new : nat) : res (list Z) :=
  match ts with
  | TsScalar t => Ok (map (fun k => t + interval_ns * Z.of_nat k) (seq 0 len_new))
  | TsArray t => Ok t
  | TsOther => Err TypeError
  end.
Definition append_raw (w : reader) (ts : tstamp) (volt curr : list Z) : res reader :=
  let len0 := Nat.min (length volt) (length curr) in
  let* time := expand_ts (st_interval_ns (r_stats w)) ts len0 in
  let len_new := Nat.min len0 (length time) in
  let f := r_file w in
  let len_old := length (f_voltage f) in
  let put new l := assign len_old (firstn len_new new) (resize (len_old + len_new) l) in
  Ok (w <| r_file := set_values f (put time (f_time f)) (put volt (f_voltage f)) (put curr (f_current f)) |>).

(** calibration.py:71-80 for exact values, and writer.py:321-345, append_iv_data_si. *)
Definition si_to_raw (p : pair) (si : Q) : Z :=
  let raw := ((si - offset p) / gain p)%Q in
  qround (if Qle_bool raw 0 then 0 else raw).
Inductive tstamp_si := SiScalar (t : Q) | SiArray (t : list Q).
Definition append_si (w : reader) (ts : tstamp_si) (volt curr : list Q) : res reader :=
  let c := r_cal w in
  append_raw w
    (match ts with
     | SiScalar t => TsScalar (si_to_raw (c_time c) t)
     | SiArray t => TsArray (map (si_to_raw (c_time c)) t)
     end)
    (map (si_to_raw (c_voltage c)) volt) (map (si_to_raw (c_current c)) curr).

(** writer.py:347-362, _align.  floor(size / 10000) is exact for sizes below 2^53. *)
Definition align (w : reader) : res reader :=
  let f := r_file w in
  let* s := refresh (r_cal w) (f_time f) (r_stats w) in
  let w := w <| r_stats := s |> in
  let size := Z.of_nat (length (f_voltage f)) in
  let size_new := size / samples_per_buffer * samples_per_buffer in
  if size_new <? size then
    if negb (st_rate s =? samplerate_sps_default) then Ok w
    else
      let n := Z.to_nat size_new in
      Ok (w <| r_file := set_values f (resize n (f_time f)) (resize n (f_voltage f)) (resize n (f_current f)) |>)
  else Ok w.

(** writer.py:213-229, __exit__: what remains in the file. *)
Definition close (w : reader) : res h5 :=
  let* w := align w in
  let* _ := refresh (r_cal w) (f_time (r_file w)) (r_stats w) in
  Ok (r_file w).

(** writer.py:368-376, store_config; writer.py:378-383, store_hostname. *)
Definition store_config (w : reader) (c : cfg) : reader :=
  w <| r_file := (r_file w) <| f_config := Some c |> |>.
Definition store_hostname (w : reader) (name : string) : reader :=
  w <| r_file := (r_file w) <| f_hostname := Some name |> |>.
(** reader.py:262-265 *)
Definition get_hostname (f : h5) : string :=
  match f_hostname f with Some h => h | None => "unknown"%string end.

(* ------------------------------------------------------------------ reading *)

(** l[a:b] for 0 <= a. *)
Definition slice {A} (a b : nat) (l : list A) : list A := firstn (b - a) (skipn a l).

(** One yielded tuple. *)
Inductive tuple :=
| Raw (t : option (list Z)) (v i : list Z)
| Si (t : option (list Q)) (v i : list Q).

(** reader.py:193-238, read_buffers; the yielded tuples in order.  Positions and sizes are
    non-negative; a buffer size of zero raises ZeroDivisionError. *)
Definition read_buffers (r : reader) (start_n : nat) (end_n : option nat) (size : option nat)
  (is_raw omit_ts : bool) : res (list tuple) :=
  let n := match size with Some n => n | None => Z.to_nat samples_per_buffer end in
  if (n =? 0)%nat then Err ZeroDivisionError else
  let f := r_file r in
  let end_max := (length (f_voltage f) / n)%nat in
  let stop := match end_n with None => end_max | Some e => Nat.min e end_max end in
  Ok (map (fun k =>
    let i := (start_n + k)%nat in
    let a := (i * n)%nat in
    let b := (a + n)%nat in
    if is_raw
    then Raw (if omit_ts then None else Some (slice a b (f_time f)))
             (slice a b (f_voltage f)) (slice a b (f_current f))
    else Si (if omit_ts then None else Some (map (raw_to_si (c_time (r_cal r))) (slice a b (f_time f))))
            (map (raw_to_si (c_voltage (r_cal r))) (slice a b (f_voltage f)))
            (map (raw_to_si (c_current (r_cal r))) (slice a b (f_current f))))
    (seq 0 (stop - start_n))).

(** range(0, n, step) *)
Definition ceil_div (n d : nat) : nat := ((n + d - 1) / d)%nat.
Definition range_step (n step : nat) : list nat := map (fun k => (k * step)%nat) (seq 0 (ceil_div n step)).

(** Sums and products of exact values. *)
Definition qsum (l : list Q) : Q := fold_right Qplus 0%Q l.
Fixpoint dot (a b : list Q) : list Q :=
  match a, b with x :: a', y :: b' => (x * y)%Q :: dot a' b' | _, _ => [] end.

(** reader.py:452-477, energy; voltage and current have the same length (else numpy raises). *)
Definition energy (r : reader) : Q :=
  let f := r_file r in
  let n := length (f_voltage f) in
  let m := Z.to_nat (r_max_elements r) in
  qsum (map (fun a =>
    let b := Nat.min (a + m) n in
    let v := map (raw_to_si (c_voltage (r_cal r))) (slice a b (f_voltage f)) in
    let i := map (raw_to_si (c_current (r_cal r))) (slice a b (f_current f)) in
    (qsum (dot v i) * st_interval_s (r_stats r))%Q) (range_step n m)).

(** numpy mean / min / max of a non-empty array. *)
Definition qmean (l : list Q) : Q := (qsum l / inject_Z (Z.of_nat (length l)))%Q.
Definition qmin2 (a b : Q) : Q := if Qle_bool a b then a else b.
Definition qmax2 (a b : Q) : Q := if Qle_bool b a then a else b.
Definition qmin (l : list Q) : Q := match l with [] => 0%Q | x :: l' => fold_left qmin2 l' x end.
Definition qmax (l : list Q) : Q := match l with [] => 0%Q | x :: l' => fold_left qmax2 l' x end.

(** reader.py:479-522, _dset_statistics: mean, min and max (std is left out: it needs a square root
    and is marked wrong in the source); None for an empty dataset. *)
Record dstats := mkDstats { s_mean : Q; s_min : Q; s_max : Q }.
Definition dset_statistics (max_elements : nat) (c : pair) (data : list Z) : option dstats :=
  let st := map (fun a =>
      let x := map (raw_to_si c) (slice a (a + max_elements) data) in
      mkDstats (qmean x) (qmin x) (qmax x)) (range_step (length data) max_elements) in
  match st with
  | [] => None
  | _ => Some (mkDstats (qmean (map s_mean st)) (qmin (map s_min st)) (qmax (map s_max st)))
  end.

(** l[::step] *)
Definition stride (step : nat) (l : list Z) : list Z :=
  map (fun k => nth k l 0) (range_step (length l) step).
(** x[1:] - x[0:-1] for unsigned integers of [bits] bits (wraps around). *)
Fixpoint udiffs (bits : Z) (l : list Z) : list Z :=
  match l with
  | a :: ((b :: _) as l') => (b - a) mod 2 ^ bits :: udiffs bits l'
  | _ => []
  end.
(** Python's round(x, 6) on exact values. *)
Definition round6 (x : Q) : Q := (inject_Z (qround (x * inject_Z (10 ^ 6))) / inject_Z (10 ^ 6))%Q.

(** A set of rationals as a list without equal elements. *)
Fixpoint qset (l : list Q) : list Q :=
  match l with
  | [] => []
  | x :: l' => if existsb (Qeq_bool x) l' then qset l' else x :: qset l'
  end.

(** reader.py:524-554, _data_timediffs.  np.unique only removes duplicates before they are put into
    a set, so it is left out here. *)
Definition data_timediffs (max_elements spb : nat) (c : pair) (time : list Z) : list Q :=
  qset (map (fun d => round6 (raw_to_si c d / inject_Z (Z.of_nat spb)))
    (flat_map (fun a => udiffs 64 (stride spb (slice a (a + max_elements) time)))
      (range_step (length time) max_elements))).

(** reader.py:556-568, check_timediffs; [diffs[0]] raises IndexError on an empty list. *)
Definition check_timediffs (r : reader) : res bool :=
  let spb := Z.to_nat samples_per_buffer in
  match data_timediffs (Z.to_nat (r_max_elements r)) spb (c_time (r_cal r)) (f_time (r_file r)) with
  | [] => Err IndexError
  | [d] => Ok (Qeq_bool d (round6 ((1 # 10) / inject_Z samples_per_buffer)))
  | _ => Ok false
  end.

(** dict.get on the two configuration levels used by get_voltage_step. *)
Definition assoc {A} (k : string) (l : list (string * A)) : option A :=
  match find (fun kv => (fst kv =? k)%string) l with Some kv => Some (snd kv) | None => None end.

(** reader.py:278-299, get_voltage_step; the recorded values are u4, differences wrap around. *)
Definition zmin_list (l : list Z) : option Z :=
  match l with [] => None | x :: l' => Some (fold_left Z.min l' x) end.
Definition get_voltage_step (r : reader) : res (option Q) :=
  let* c := get_config (r_file r) in
  match match assoc "virtual_harvester" c with Some s => assoc "voltage_step_mV" s | None => None end with
  | Some mv => Ok (Some ((1 # 1000) * mv)%Q)
  | None =>
    let dsv := firstn 2000 (f_voltage (r_file r)) in
    match zmin_list (filter (fun d => 0 <? d) (udiffs 32 dsv)) with
    | None => Ok None
    | Some d => Ok (Some ((1 # 1000) * inject_Z d)%Q)
    end
  end.
