(** Model of the script that collects firmwares and energy environments for the fixtures.

    Code: extra/prime_database.py (P), shepherd_core/shepherd_core/data_models/base/shepherd.py (S), from_file.

    Simplifications: making a model from keyword arguments and dumping it is one parameter, from the name
    of the class and the arguments to the dictionary (the fields of Firmware and EnergyEnvironment with
    their validators); paths are given as text, as_posix() is the identity on them; the result is the list
    that is dumped to the file, datatype and parameters of each wrapper (the time of creation is left out). *)
From Coq Require Import String.
From Verif Require Import PyBase FixModel.
Open Scope Z_scope.
Open Scope list_scope.

(** A file: what opening, parsing and Wrapper( **content) give (S:156-160). *)
Inductive content : Set :=
| Broken (e : exn)
| Wrapped (datatype : string) (parameters : dict).

(** str.find, but the rest of the text from there on. *)
Fixpoint from_found (key s : string) : option string :=
  if String.prefix key s then Some s
  else match s with EmptyString => None | String _ t => from_found key t end.

(** s[-1:] *)
Fixpoint last_char (s : string) : string :=
  match s with
  | EmptyString => EmptyString
  | String c EmptyString => String c EmptyString
  | String _ t => last_char t
  end.

(** P:56-57 and 64-65: find gives -1 if there is nothing. *)
Definition relocate (s : string) : string :=
  ("/var/shepherd" ++ match from_found "/content/" s with Some t => t | None => last_char s end)%string.

Section Models.
Variable make : string -> dict -> res dict.

(** S:156-163, from_file. *)
Definition from_file (cls : string) (f : content) : res dict :=
  match f with
  | Broken e => Err e
  | Wrapped t p => guard String.eqb t cls or ValueError;; make cls p
  end.

(** P:18-23, load_model; UnicodeError is a ValueError in python. *)
Definition load_model (cls : string) (f : content) : res (option dict) :=
  match from_file cls f with
  | Ok m => Ok (Some m)
  | Err ValueError => Ok None
  | Err UnicodeError => Ok None
  | Err e => Err e
  end.

(** data[key] = data[key] moved to the server *)
Definition move (key : string) (data : dict) : res dict :=
  match dget key data with
  | None => Err KeyError
  | Some (VStr s) => Ok (dput key (VStr (relocate s)) data)
  | Some _ => Err AttributeError
  end.

(** P:52-62 *)
Definition prime_fw (data : dict) : res dict :=
  let* data := move "data" data in
  let data := dput "data_type" (VStr "path_elf") data in
  let data := dput "data_hash" none_ data in
  let data := dput "data_local" (VOther "False") data in
  make "Firmware" data.

(** P:63-69 *)
Definition prime_ee (data : dict) : res dict :=
  let* data := move "data_path" data in
  let data := dput "data_local" (VOther "False") data in
  make "EnergyEnvironment" data.

(** P:47-78, one file. *)
Definition prime_file (f : content) : res (list (string * dict)) :=
  let* fw := load_model "Firmware" f in
  let* ee := load_model "EnergyEnvironment" f in
  let* model := match fw with Some d => let* m := prime_fw d in Ok (Some ("Firmware"%string, m)) | None => Ok None end in
  let* model := match ee with Some d => let* m := prime_ee d in Ok (Some ("EnergyEnvironment"%string, m)) | None => Ok model end in
  Ok (match model with Some m => [m] | None => [] end).

(** P:45-78 *)
Fixpoint prime (files : list content) : res (list (string * dict)) :=
  match files with
  | [] => Ok []
  | f :: files =>
    let* a := prime_file f in
    let* b := prime files in
    Ok (a ++ b)
  end.

(** P:80-82: the file is only opened after everything is collected. *)
Definition prime_db (files : list content) (old : list (string * dict)) : list (string * dict) * res unit :=
  match prime files with
  | Ok l => (l, Ok tt)
  | Err e => (old, Err e)
  end.
End Models.
