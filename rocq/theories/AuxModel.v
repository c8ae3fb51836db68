(** Two helpers at the edge: the generated ids (data_models/base/content.py, CO) and the directory of the cache
    (testbed_client/cache_path.py, CA), both in shepherd_core/shepherd_core.

    The hash is a parameter: [sha3] gives the hexadecimal digest of a text.  [show] is str() of a moment with its time
    zone, a moment is a number of microseconds.  ASCII texts only; paths of POSIX systems. *)
From Coq Require Import String Ascii ZArith Bool List.
From Verif Require Import PyBase.
Import ListNotations.
Open Scope Z_scope.
Open Scope list_scope.

(** * Ids *)

(** int(text, 16) for texts of hexadecimal digits; signs, spaces and underscores are not modelled, no digest has them. *)
Definition hex_digit (c : ascii) : option Z :=
  let n := Z.of_nat (nat_of_ascii c) in
  if (48 <=? n) && (n <=? 57) then Some (n - 48)
  else if (97 <=? n) && (n <=? 102) then Some (n - 87)
  else if (65 <=? n) && (n <=? 70) then Some (n - 55)
  else None.
Fixpoint hex_number (s : string) (acc : Z) : option Z :=
  match s with
  | EmptyString => Some acc
  | String c s => match hex_digit c with Some d => hex_number s (16 * acc + d) | None => None end
  end.
Definition int16 (s : string) : res Z :=
  match s with
  | EmptyString => Err ValueError
  | _ => match hex_number s 0 with Some z => Ok z | None => Err ValueError end
  end.
(** text[-n:] *)
Definition ending (n : nat) (s : string) : string := substring (String.length s - n) n s.

(** CO:30-37, id_default; timezone.py:16-18: local_now() reads the clock, of which a datetime keeps the microseconds.
    [now] is the clock in nanoseconds. *)
Definition id_default (sha3 : string -> string) (show : Z -> string) (now : Z) : res Z :=
  int16 (ending 32 (sha3 (show (now / 1000)))).

(** * Cache *)

(** pathlib: a path is its root and its parts. *)
Record path := mkPath { p_root : string; p_parts : list string }.

(** text.split("/") *)
Fixpoint split (s : string) (word : string) : list string :=
  match s with
  | EmptyString => [word]
  | String c s => if Ascii.eqb c "/" then word :: split s "" else split s (word ++ String c "")
  end.
(** Empty parts and single dots are dropped. *)
Definition meant (w : string) : bool := negb (String.eqb w "") && negb (String.eqb w ".").
(** Exactly two slashes in front are a root of their own. *)
Definition root_of (s : string) : string :=
  match s with
  | String "/" (String "/" (String "/" _)) => "/"
  | String "/" (String "/" _) => "//"
  | String "/" _ => "/"
  | _ => ""
  end%string.
Definition path_of (s : string) : path := mkPath (root_of s) (filter meant (split s "")).
(** p / name, for a single name *)
Definition child (p : path) (name : string) : path := mkPath (p_root p) (p_parts p ++ [name]).

(** CA:7-11, _get_xdg_path *)
Definition get_xdg_path (variable : option string) (default_path : path) : path :=
  match variable with
  | None => default_path
  | Some v => if String.eqb v "" then default_path else path_of v
  end.
(** CA:14-17; [home] is Path("~").expanduser(), [variable] is XDG_CACHE_HOME. *)
Definition cache_user_path (variable : option string) (home : path) : path :=
  child (get_xdg_path variable (child home ".cache")) "shepherd_datalib".

(** Where a path leads for a program that runs in [cwd]. *)
Definition absolute (cwd p : path) : path :=
  if String.eqb (p_root p) "" then mkPath (p_root cwd) (p_parts cwd ++ p_parts p) else p.
