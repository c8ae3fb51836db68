(** Vocabulary for the properties of NameModel.v. *)
From Verif Require Import PyBase NameModel.
From Coq Require Import ZArith List.
Import ListNotations.
Open Scope Z_scope.

(** White space, as Unicode lists it. *)
Definition space (c : Z) : Prop :=
  In c [9; 10; 11; 12; 13; 32; 133; 160; 5760; 8192; 8193; 8194; 8195; 8196; 8197; 8198; 8199; 8200; 8201;
        8202; 8232; 8233; 8239; 8287; 12288].
(** No white space at the ends. *)
Definition trimmed (s : text) : Prop :=
  (forall c s', s = c :: s' -> ~ space c) /\ (forall c s', s = s' ++ [c] -> ~ space c).
(** [t] is [s] without the white space at its ends. *)
Definition cleaned (s t : text) : Prop :=
  trimmed t /\ exists a b, s = a ++ t ++ b /\ Forall space a /\ Forall space b.
(** Code points that can be encoded: all but the surrogates. *)
Definition encodable (c : Z) : Prop := 0 <= c < 1114112 /\ ~ 55296 <= c < 57344.

(** Bytes of a code point in UTF-8. *)
Definition bytes_of (c : Z) : Z :=
  if c <? 128 then 1 else if c <? 2048 then 2 else if c <? 65536 then 3 else 4.
Definition size (s : text) : Z := fold_right (fun c n => bytes_of c + n) 0 s.

(** What the file system takes as the name of a file in a directory (Linux). *)
Definition file_name (s : text) : Prop :=
  s <> [] /\ s <> [46] /\ s <> [46; 46] /\ ~ In 47 s /\ ~ In 0 s /\ size s <= 255.

(** A time of the calendar, with a year of four digits. *)
Definition calendar (d : date) : Prop :=
  1000 <= d_year d <= 9999 /\ 1 <= d_month d <= 12 /\ 1 <= d_day d <= 31 /\
  0 <= d_hour d <= 23 /\ 0 <= d_minute d <= 59 /\ 0 <= d_second d <= 59.
