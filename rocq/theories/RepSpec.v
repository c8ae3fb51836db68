(** What reports and extracted files should contain. *)
From Coq Require Import String Ascii.
From Verif Require Import PyBase FileModel FileSpec UartModel StoModel RepModel.
From Coq Require Import QArith.
Open Scope Z_scope.

(** ** Metadata *)

(** Walking down by names, in the file and in the metadata. *)
Fixpoint node_at (p : list string) (t : tree) : option tree :=
  match p with
  | [] => Some t
  | n :: p' => match t with
               | Group _ _ cs => match assoc n cs with Some c => node_at p' c | None => None end
               | Dataset _ _ => None
               end
  end.
Fixpoint meta_at (p : list string) (m : meta) : option meta :=
  match p with
  | [] => Some m
  | n :: p' => match m with
               | MDict d => match assoc n d with Some c => meta_at p' c | None => None end
               | MVal _ => None
               end
  end.

Definition attrs (t : tree) : list (string * aval) :=
  match t with Dataset _ a => a | Group _ a _ => a end.
Definition children (t : tree) : list (string * tree) :=
  match t with Dataset _ _ => [] | Group _ _ cs => cs end.

(** What is added besides attributes and children. *)
Definition extra (minimal : bool) (t : tree) : list string :=
  if minimal then []
  else match t with
       | Dataset _ _ => ["_dataset_info"%string]
       | Group (Some _) _ _ => ["_group_info"%string]
       | Group None _ _ => []
       end.

(** No name is used twice in one place. *)
Fixpoint clear (minimal : bool) (t : tree) : Prop :=
  NoDup (extra minimal t ++ map fst (attrs t) ++ map fst (children t)) /\
  match t with
  | Dataset _ _ => True
  | Group _ _ cs => fold_right (fun c P => match c with (_, c) => clear minimal c end /\ P) True cs
  end.

(** Attributes that can be shown, everywhere; and nothing fails in the descriptions. *)
Definition fine (yaml : string -> option (res yval)) (v : aval) : Prop :=
  match v with
  | AStr s => forall e, yaml s <> Some (Err e)
  | AVec l => List.length l = 1%nat
  | _ => True
  end.
Fixpoint all_fine (yaml : string -> option (res yval)) (minimal : bool) (t : tree) : Prop :=
  Forall (fun a => fine yaml (snd a)) (attrs t) /\
  match t with
  | Dataset info _ => minimal = false -> exists i, info = Ok i
  | Group info _ cs =>
      (minimal = false -> forall r, info = Some r -> exists i, r = Ok i) /\
      fold_right (fun c P => match c with (_, c) => all_fine yaml minimal c end /\ P) True cs
  end.

(** ** Logs *)

Definition entries (times levels : list Z) (msgs : list string) : list (Z * (Z * string)) :=
  combine times (combine levels msgs).
Definition at_least (min : Z) (l : list (Z * (Z * string))) : list (Z * (Z * string)) :=
  filter (fun e => min <=? fst (snd e)) l.
Definition level_of (lv : Z) : severity := if 40 <=? lv then Error else if 30 <=? lv then Warning else Info.

(** The text of an element. *)
Definition element (r : res string) : string :=
  match r with Ok m => m | Err _ => "[[[ extractor - faulty element ]]]"%string end.
Definition readable (r : res string) : Prop := forall e, r = Err e -> e = OSError.

(** Lines of a log: time, then the elements of the same index. *)
Definition line (stamp : Z -> string) (idx : nat) (t : Z) (cols : list (list (res string))) : string :=
  (stamp t ++ ":" ++
   fold_right (fun l s => tab ++ match nth_error l idx with Some r => element r | None => "" end ++ s) "" cols
   ++ newline)%string.
Fixpoint all_lines (stamp : Z -> string) (idx : nat) (times : list Z) (cols : list (list (res string))) : string :=
  match times with
  | [] => EmptyString
  | t :: times' => (line stamp idx t cols ++ all_lines stamp (S idx) times' cols)%string
  end.

(** ** Pins *)

Definition usable (g : gpio) : Prop :=
  gp_value g <> [] /\ Forall (fun p => 0 <= fst p) (gp_pins g) /\ NoDup (map snd (gp_pins g)) /\ gp_quoted g = false.

(** ** Commands *)

Fixpoint no_slash (s : string) : Prop :=
  match s with EmptyString => True | String c s' => c <> "/"%char /\ no_slash s' end.

(** A recording whose pins can be extracted. *)
Definition extractable (f : path * res (option gpio)) : Prop :=
  match snd f with
  | Err e => e = TypeError
  | Ok None => True
  | Ok (Some g) => usable g /\ Forall (fun p => no_slash (snd p)) (gp_pins g)
  end.

(** Names of the extracted files: beside the recording, named after it. *)
Definition log_file (file : path) (name : string) : path :=
  (fst file, (stem (snd file) ++ "." ++ strip_slash name ++ ".log")%string).
Definition csv_file (file : path) (pin : string) : path :=
  (fst file, (stem (snd file) ++ ".waveform." ++ pin ++ ".csv")%string).
Definition uart_file (file : path) : path :=
  (fst file, (stem (snd file) ++ ".uart_from_wf.log")%string).

(** Text of a waveform: a header, then one line for each edge. *)
Definition edge (secs : Z -> string) (sep : string) (e : Z * Z) : string :=
  (secs (fst e) ++ sep ++ (if (snd e =? 0)%Z then "0" else "1") ++ newline)%string.
Definition csv (secs : Z -> string) (pin sep : string) (wf : list (Z * Z)) : string :=
  ("timestamp [s]," ++ pin ++ newline ++ String.concat "" (map (edge secs sep) wf))%string.

(** Recordings in the same directory have names that differ in more than the last suffix. *)
Definition apart {A} (files : list (path * A)) : Prop :=
  NoDup (map (fun f => (fst (fst f), stem (snd (fst f)))) files).

(** Names of pins without dots. *)
Definition undotted (f : path * res (option gpio)) : Prop :=
  match snd f with Ok (Some g) => Forall (fun p => no_dot (snd p)) (gp_pins g) | _ => True end.

(** A file that was there is kept, otherwise there is the new one. *)
Definition kept_or (old : option string) (new : string) : option string :=
  match old with Some s => Some s | None => Some new end.
