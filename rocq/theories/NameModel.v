(** Model of names and of the paths made from them:
    shepherd_core/shepherd_core/data_models/base/content.py (CO), base/shepherd.py:66-84 (the
    configuration for texts) and data_models/task/observer_tasks.py:48-65 (OT), task/emulation.py:141.

    A text is a list of code points.  pydantic removes white space at both ends, then looks at the
    length, then at the pattern; the patterns of CO are classes of characters, repeated. *)
From Verif Require Import PyBase.
From Coq Require Import ZArith List.
Import ListNotations.
Open Scope Z_scope.

Definition text := list Z.

(** Unicode scalar values; others cannot be encoded, and are refused. *)
Definition scalar (c : Z) : bool := ((0 <=? c) && (c <=? 55295)) || ((57344 <=? c) && (c <=? 1114111)).

(** White space of Unicode. *)
Definition white (c : Z) : bool :=
  ((9 <=? c) && (c <=? 13)) || ((8192 <=? c) && (c <=? 8202))
  || existsb (Z.eqb c) [32; 133; 160; 5760; 8232; 8233; 8239; 8287; 12288].

Fixpoint lstrip (s : text) : text :=
  match s with
  | [] => []
  | c :: s' => if white c then lstrip s' else s
  end.
Definition strip (s : text) : text := rev (lstrip (rev (lstrip s))).

(** A constrained text. *)
Definition constrained (lo hi : nat) (class : Z -> bool) (s : text) : res text :=
  guard forallb scalar s or ValueError;;
  let s := strip s in
  guard Nat.leb lo (length s) && Nat.leb (length s) hi or ValueError;;
  guard forallb class s or ValueError;;
  Ok s.

(** CO:23, NameStr: no less, greater, colon, semicolon, comma, question mark, double quote, asterisk,
    bar, slash or backslash. *)
Definition name_class (c : Z) : bool := negb (existsb (Z.eqb c) [60; 62; 58; 59; 44; 63; 34; 42; 124; 47; 92]).
Definition name_str : text -> res text := constrained 1 32 name_class.
(** CO:25, SafeStr: space to tilde. *)
Definition safe_class (c : Z) : bool := (32 <=? c) && (c <=? 126).
Definition safe_str : text -> res text := constrained 1 512 safe_class.

(** CO:41-75, the fields of a ContentModel that are texts, and content_validation. *)
Record content := mkContent {
  c_name : text; c_description : option text; c_comment : option text;
  c_owner : text; c_group : text; c_v2group : bool; c_v2all : bool }.
Definition optional (f : text -> res text) (s : option text) : res (option text) :=
  match s with None => Ok None | Some s => let* s := f s in Ok (Some s) end.
Definition content_model (c : content) : res content :=
  let* name := name_str (c_name c) in
  let* descr := optional safe_str (c_description c) in
  let* comment := optional safe_str (c_comment c) in
  let* owner := name_str (c_owner c) in
  let* group := name_str (c_group c) in
  guard negb ((c_v2group c || c_v2all c) && match descr with None => true | _ => false end) or ValueError;;
  Ok (mkContent name descr comment owner group (c_v2group c) (c_v2all c)).

(** Numbers with leading zeros. *)
Definition digit (n : Z) : Z := 48 + n mod 10.
Definition two (n : Z) : text := [digit (n / 10); digit n].
(** A time, and strftime("%Y-%m-%d_%H-%M-%S"), OT:61, for years with four digits. *)
Record date := mkDate { d_year : Z; d_month : Z; d_day : Z; d_hour : Z; d_minute : Z; d_second : Z }.
Definition stamp (d : date) : text :=
  two (d_year d / 100) ++ two (d_year d mod 100) ++ [45] ++ two (d_month d) ++ [45] ++ two (d_day d) ++ [95]
  ++ two (d_hour d) ++ [45] ++ two (d_minute d) ++ [45] ++ two (d_second d).

(** pathlib: parts of a relative path; empty ones and "." are dropped. *)
Fixpoint split_slash (s : text) (acc : text) : list text :=
  match s with
  | [] => [rev acc]
  | c :: s' => if c =? 47 then rev acc :: split_slash s' [] else split_slash s' (c :: acc)
  end.
Definition is_part (p : text) : bool := match p with [] => false | [46] => false | _ => true end.
Definition parts (s : text) : list text := filter is_part (split_slash s []).
(** path / text, for texts that do not start with a slash. *)
Definition join (p : list text) (s : text) : list text := p ++ parts s.

Definition experiments_ : text := [101; 120; 112; 101; 114; 105; 109; 101; 110; 116; 115].
(** OT:61-62, root_path: "experiments/" + xp.name + "_" + stamp. *)
Definition root_path (data_on_observer : list text) (xp_name : text) (t : date) : list text :=
  join data_on_observer (experiments_ ++ [47] ++ xp_name ++ [95] ++ stamp t).
(** OT:66, f"fw{_i}_{obs.name}.hex". *)
Definition fw_path (root : list text) (i : Z) (obs_name : text) : list text :=
  join root ([102; 119; digit i; 95] ++ obs_name ++ [46; 104; 101; 120]).
(** emulation.py:141, f"emu_{obs.name}.h5". *)
Definition emu_path (root : list text) (obs_name : text) : list text :=
  join root ([101; 109; 117; 95] ++ obs_name ++ [46; 104; 53]).
