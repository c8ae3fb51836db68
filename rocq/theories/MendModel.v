(** Model of shepherd_data/examples/repair_recordings.py (RR), a script of the package that repairs
    the recordings of a directory with the classes Reader and Writer (see FileModel).

    The h5py-files opened for reading hold no state of their own; printing is left out.  All
    attributes can be shown, so get_metadata (RR:24) does not raise. *)
From Coq Require Import QArith String Ascii.
From Verif Require Import PyBase FileModel.
From RecordUpdate Require Import RecordUpdate.
Open Scope Z_scope.

(** Python's [a in b] for strings. *)
Fixpoint within (a b : string) : bool :=
  prefix a b || match b with EmptyString => false | String _ b' => within a b' end.

(** One block [with Writer(file, ..., modify_existing=True) as fw: body], e.g. RR:43-45.
    The first component is the content of the file afterwards, also if something was raised. *)
Definition modified (mode datatype : option string) (window : option Z) (body : reader -> reader)
    (f : h5) : h5 * res unit :=
  match configure (mkArgs mode datatype window None true false) f with
  | (f', Err e) => (f', Err e)
  | (f', Ok w) =>
      let w := body w in
      match close w with
      | Ok f'' => (f'', Ok tt)
      | Err e => (match align w with Ok w' => r_file w' | Err _ => r_file w end, Err e)
      end
  end.

(** The same followed by [fh = shp.Reader(file)], e.g. RR:46. *)
Definition reopened (x : h5 * res unit) : h5 * res unit :=
  (fst x, let* _ := snd x in let* _ := reader_init (fst x) in Ok tt).

(** Sequence of steps on one file, each with the content left by the one before. *)
Definition andthen (x : h5 * res unit) (k : h5 -> h5 * res unit) : h5 * res unit :=
  match x with (f, Ok _) => k f | (f, Err e) => (f, Err e) end.

Definition done (f : h5) : h5 * res unit := (f, Ok tt).

(** RR:44-45, resizing inside of the writer. *)
Definition resize_current (n : nat) (w : reader) : reader :=
  let f := r_file w in
  w <| r_file := set_values f (f_time f) (resize n (f_voltage f)) (resize n (f_current f)) |>.
Definition resize_time (n : nat) (w : reader) : reader :=
  let f := r_file w in
  w <| r_file := set_values f (resize n (f_time f)) (resize n (f_voltage f)) (f_current f) |>.

(** RR:36-46.  [volt] is the size of the voltages when the file was opened. *)
Definition mend_current (volt : nat) (f : h5) : h5 * res unit :=
  let size := length (f_current f) in
  if (volt =? size)%nat then done f
  else reopened (modified None None None (resize_current (Nat.min volt size)) f).
Definition mend_time (volt : nat) (f : h5) : h5 * res unit :=
  let size := length (f_time f) in
  if (volt =? size)%nat then done f
  else reopened (modified None None None (resize_time (Nat.min volt size)) f).
Definition mend_sizes (f : h5) : h5 * res unit :=
  let volt := length (f_voltage f) in
  andthen (mend_current volt f) (mend_time volt).

(** RR:48-55 *)
Definition mend_alignment (f : h5) : h5 * res unit :=
  if Z.of_nat (length (f_voltage f)) mod samples_per_buffer =? 0 then done f
  else reopened (modified None None None (fun w => w) f).

(** RR:58-69; the second component of the result is the variable [mode]. *)
Definition guess_mode (m : string) : string :=
  if within "har" m then "harvester" else if within "emu" m then "emulator" else "harvester".
Definition mend_mode (f : h5) (k : string -> h5 -> h5 * res unit) : h5 * res unit :=
  match mode_dtypes (get_mode f) with
  | Some _ => k (get_mode f) f
  | None =>
      let mode := guess_mode (get_mode f) in
      andthen (reopened (modified (Some mode) None None (fun w => w) f)) (k mode)
  end.

(** RR:72-81; str(None) has no "curv", str(EnergyDType.ivcurve) has. *)
Definition mend_datatype (mode : string) (f : h5) (k : option dtype -> h5 -> h5 * res unit)
  : h5 * res unit :=
  match f_data f, mode_dtypes mode with
  | Some g, Some allowed =>
      if dtype_in (get_datatype g) allowed then k (get_datatype g) f
      else
        let d := match get_datatype g with Some ivcurve => ivcurve | _ => ivsample end in
        andthen (reopened (modified None (Some (dtype_name d)) None (fun w => w) f)) (k (Some d))
  | _, _ => (f, Err KeyError)
  end.

(** RR:95-100 *)
Definition mend_hostname (f : h5) : h5 * res unit :=
  match f_hostname f with
  | Some _ => done f
  | None => reopened (modified None None None (fun w => store_hostname w "SheepX") f)
  end.

(** RR:84-100; curves without window are left as they are. *)
Definition mend_window (d : option dtype) (f : h5) : h5 * res unit :=
  match f_data f with
  | None => (f, Err KeyError)
  | Some g =>
      match g_window g with
      | Some _ => mend_hostname f
      | None =>
          match d with
          | Some ivcurve => done f
          | _ => andthen (reopened (modified None None (Some 0) (fun w => w) f)) mend_hostname
          end
      end
  end.

(** RR:23-103 for one file.  The tests in RR:27-31 never skip a file: Reader needs the group and
    its datasets already, and the inner [continue] only ends a pass of the inner loop. *)
Definition mend (f : h5) : h5 * res unit :=
  match reader_init f with
  | Err e => (f, Err e)
  | Ok _ =>
      andthen (mend_sizes f) (fun f =>
      andthen (mend_alignment f) (fun f =>
      mend_mode f (fun mode f => mend_datatype mode f mend_window)))
  end.

(** RR:19-21, the loop over the files *.h5 of the directory in the order of [files]; Reader raises
    TypeError for a file that is not HDF5. *)
Fixpoint mend_all (d : fs) (files : list path) : fs * res unit :=
  match files with
  | [] => (d, Ok tt)
  | p :: files' =>
      match lookup d p with
      | None | Some NDir => mend_all d files'
      | Some NOther => (d, Err TypeError)
      | Some (NFile f) =>
          match mend f with
          | (f', Ok _) => mend_all (store d p (NFile f')) files'
          | (f', Err e) => (store d p (NFile f'), Err e)
          end
      end
  end.
