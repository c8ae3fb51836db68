(** Vocabulary for generated ids and the directory of the cache. *)
From Coq Require Import String Ascii ZArith List.
Import ListNotations.
Open Scope Z_scope.
Open Scope list_scope.

(** A digest of SHA3-224: 56 hexadecimal digits in small letters. *)
Definition digits : string := "0123456789abcdef".
Definition digest (s : string) : Prop := String.length s = 56%nat /\ forall c, In c (list_ascii_of_string s) -> In c (list_ascii_of_string digits).

(** The last 32 characters agree. *)
Definition same_end (s t : string) : Prop := exists a b e, s = (a ++ e)%string /\ t = (b ++ e)%string /\ String.length e = 32%nat.

(** Names between slashes. *)
Definition free (w : string) : Prop := ~ In "/"%char (list_ascii_of_string w).
Definition counts (w : string) : bool := match w with "" | "." => false | _ => true end%string.
