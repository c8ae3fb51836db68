(** What a task for programming may contain. *)
From Coq Require Import String Ascii QArith.
From Verif Require Import PyBase FileModel StoModel.
Open Scope Z_scope.
Open Scope list_scope.

(** Printable characters, at least one. *)
Definition readable (s : string) : Prop :=
  s <> EmptyString /\ forall c, In c (list_ascii_of_string s) -> (32 <= nat_of_ascii c <= 126)%nat.

(** The same letter up to case. *)
Definition same_letter (c d : ascii) : Prop :=
  c = d \/ (65 <= nat_of_ascii c <= 90 /\ nat_of_ascii d = nat_of_ascii c + 32)%nat.
Definition same_word (s t : string) : Prop := Forall2 same_letter (list_ascii_of_string s) (list_ascii_of_string t).

(** A path [folder][stem].[ending] whose last part has a stem and one of the endings of hex files. *)
Definition hex_file (file : string) : Prop :=
  exists folder stem ending, file = (folder ++ stem ++ "." ++ ending)%string /\
    (folder = EmptyString \/ exists f, folder = (f ++ "/")%string) /\
    stem <> EmptyString /\ (forall c, In c (list_ascii_of_string stem) -> c <> "/"%char) /\
    (same_word ending "hex" \/ same_word ending "ihex" \/ same_word ending "ihx").

(** Limits of the programmer. *)
Record fits_programmer (p : pval) : Prop := mkFits {
  fp_file : exists s, attr "firmware_file" p = Some (PPath s) /\ hex_file s;
  fp_port : attr "target_port" p = Some (PStr "A") \/ attr "target_port" p = Some (PStr "B");
  fp_mcu : attr "mcu_port" p = Some (PInt 1) \/ attr "mcu_port" p = Some (PInt 2);
  fp_type : exists s, attr "mcu_type" p = Some (PStr s) /\ readable s;
  fp_voltage : exists q, attr "voltage" p = Some (PFloat q) /\ (1 <= q)%Q /\ (q < 5)%Q;
  fp_rate : exists z, attr "datarate" p = Some (PInt z) /\ 1 <= z <= 1000000;
  fp_protocol : exists s, attr "protocol" p = Some (PStr s) /\ In s ["SWD"; "SBW"; "JTAG"; "UART"]%string;
  fp_verbose : exists z, attr "verbose" p = Some (PInt z) /\ 0 <= z <= 4 }.

(** Names: 1 to 32 characters that file systems can take; identifiers of 128 bits or none. *)
Definition good_name (s : string) : Prop :=
  (1 <= String.length s <= 32)%nat /\ forall c, In c (list_ascii_of_string s) -> ~ In c (list_ascii_of_string "<>:;,?""*|/\").
Definition owner (p : pval) : Prop :=
  attr "owner_id" p = Some PNone \/ exists z, attr "owner_id" p = Some (PInt z) /\ 0 <= z < 2 ^ 128.

(** The tasks of an observer, of a testbed. *)
Record fits_observer (p : pval) : Prop := mkFo {
  fo_name : exists s, attr "observer" p = Some (PStr s) /\ good_name s;
  fo_owner : owner p;
  fo_prog : forall n, n = "fw1_prog"%string \/ n = "fw2_prog"%string ->
    attr n p = Some PNone \/ exists v, attr n p = Some v /\ fits_programmer v }.
Record fits_testbed (p : pval) : Prop := mkFt {
  ft_name : exists s, attr "name" p = Some (PStr s) /\ good_name s;
  ft_owner : owner p;
  ft_tasks : exists l, attr "observer_tasks" p = Some (PList l) /\ (1 <= List.length l <= 128)%nat /\ Forall fits_observer l }.

(** The properties of an experiment. *)
Record fits_experiment (p : pval) : Prop := mkFitsX {
  fx_name : exists s, attr "name" p = Some (PStr s) /\ good_name s;
  fx_owner : owner p;
  fx_texts : forall n, In n ["description"; "comment"]%string -> attr n p = Some PNone \/ exists s, attr n p = Some (PStr s) /\ readable s;
  fx_duration : attr "duration" p = Some PNone \/ exists us, attr "duration" p = Some (PTime us) /\ 0 <= us }.
