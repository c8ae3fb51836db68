(** Property C119: collecting models for the fixtures. *)
From Coq Require Import String.
From Verif Require Import PyBase FixModel FixSpec PrimeModel PrimeSpec PrimeProofs.
From Coq Require Import Lia.
Open Scope Z_scope.
Open Scope list_scope.

(** If the script gets to its end, each firmware and energy environment has its entry, in the order of the
    files, with its path moved to the server and otherwise as it was, and other files have none. *)
Theorem C119_entries : forall make files old new, prime_db make files old = (new, Ok tt) ->
  exists ls, new = concat ls /\ Forall2 (entry_for make) files ls.
Proof.
  intros make files old new H. unfold prime_db in H. destruct (prime make files) as [l|e] eqn:E; [|discriminate H].
  injection H as <-. apply prime_ok, E.
Qed.
Print Assumptions C119_entries.

(** Otherwise the old entries stay. *)
Theorem C119_failed : forall make files old new e, prime_db make files old = (new, Err e) -> new = old.
Proof.
  intros make files old new e H. unfold prime_db in H. destruct (prime make files) as [l|e']; [discriminate H|].
  injection H as <- _. reflexivity.
Qed.
Print Assumptions C119_failed.

(** Files that are not accepted are skipped ... *)
Theorem C119_skip : forall make f files old, no_model make f ->
  prime_db make (f :: files) old = prime_db make files old.
Proof. intros make f files old H. unfold prime_db. rewrite (prime_skip _ _ _ H). reflexivity. Qed.
Print Assumptions C119_skip.

(** ... but not those that cannot be parsed or hold a list (like the fixtures themselves): one of them stops
    everything. *)
Theorem C119_stops_refuted : forall make pre e post old, e <> ValueError -> e <> UnicodeError ->
  exists e', prime_db make (pre ++ Broken e :: post) old = (old, Err e').
Proof.
  intros make pre e post old H1 H2. destruct (prime_stops make pre e post H1 H2) as [e' E]. exists e'.
  apply db_failed, E.
Qed.
Print Assumptions C119_stops_refuted.

(** A path below the content gets to the same place on the server, if no directory above has that name, ... *)
Theorem C119_moved : forall root name, plain_root root -> relocate (here root name) = on_server name.
Proof. exact relocate_plain. Qed.
Print Assumptions C119_moved.

(** ... and stays there. *)
Theorem C119_again : forall s, (exists pre, occurs_after "/content/" pre s) -> relocate (relocate s) = relocate s.
Proof. exact relocate_again. Qed.
Print Assumptions C119_again.

(** If a directory above has that name, it is part of the new path. *)
Theorem C119_nested_refuted : forall a b name, plain_root a ->
  relocate (here (a ++ "/content/" ++ b) name) = on_server (b ++ "/content/" ++ name).
Proof.
  intros a b name H. rewrite <- (relocate_plain a (b ++ "/content/" ++ name) H). unfold here.
  rewrite !str_app_assoc. reflexivity.
Qed.
Print Assumptions C119_nested_refuted.

(** From any other text only the last character is left: whatever [s] was, an embedded firmware or a path. *)
Theorem C119_lost_refuted : forall s c, no_content (s ++ String c "") ->
  relocate (s ++ String c "") = ("/var/shepherd" ++ String c "")%string.
Proof. intros s c H. rewrite (relocate_lost _ H), last_char_app. reflexivity. Qed.
Print Assumptions C119_lost_refuted.

(** Firmwares in hex-files are called elf. *)
Theorem C119_type_refuted : exists f, forall make, (forall cls d, make cls d = Ok d) ->
  exists m, prime make [f] = Ok [("Firmware"%string, m)] /\
  holds make "Firmware" f [("data", VStr "/x/content/fw/a.hex"); ("data_type", VStr "path_hex")]%string /\
  entry "data_type" m = Some (VStr "path_elf").
Proof.
  exists (Wrapped "Firmware" [("data", VStr "/x/content/fw/a.hex"); ("data_type", VStr "path_hex")]%string).
  intros make H. eexists. split.
  - cbn [prime]. unfold prime_file, load_model, from_file. cbn. rewrite !H. cbn.
    unfold prime_fw, move. cbn. rewrite H. cbn. reflexivity.
  - split; [eexists; split; [reflexivity|apply H]|reflexivity].
Qed.
Print Assumptions C119_type_refuted.

(** * Examples *)
Definition keep (cls : string) (d : dict) : res dict :=
  match dget "name" d with Some _ => Ok d | None => Err ValueError end.

Example C119_ex :
  prime_db keep
    [Wrapped "Firmware" [("name", VStr "a"); ("data", VStr "/home/jane/extra/content/fw/a.elf"); ("data_type", VStr "path_elf")];
     Wrapped "Target" [("name", VStr "t")]; Broken ValueError; Wrapped "Firmware" [];
     Wrapped "EnergyEnvironment" [("name", VStr "e"); ("data_path", VStr "/content/e.h5")]]%string [] =
  ([("Firmware", [("name", VStr "a"); ("data", VStr "/var/shepherd/content/fw/a.elf"); ("data_type", VStr "path_elf");
                  ("data_hash", none_); ("data_local", VOther "False")]);
    ("EnergyEnvironment", [("name", VStr "e"); ("data_path", VStr "/var/shepherd/content/e.h5"); ("data_local", VOther "False")])]%string,
   Ok tt).
Proof. vm_compute. reflexivity. Qed.

Example C119_ex_plain : plain_root "/x".
Proof.
  intros pre [r H]. cbn [append] in H.
  do 2 (destruct pre as [|c pre]; [discriminate H|cbn [append] in H; injection H as <- H]).
  destruct pre as [|c pre]; [reflexivity|]. exfalso.
  apply (f_equal String.length) in H. cbn [append String.length] in H. rewrite str_app_length in H. cbn in H. lia.
Qed.
Example C119_ex_embedded : no_content "f0VMRg==" /\ relocate "f0VMRg==" = "/var/shepherd="%string.
Proof. split; [exact (proj1 (from_found_none "/content/" "f0VMRg==") eq_refl)|reflexivity]. Qed.

(** A firmware or environment without data, or with data that is not text, ends the run. *)
Theorem C119_needs_text : forall make data,
  (entry "data" data = None -> prime_fw make data = Err KeyError) /\ (entry "data_path" data = None -> prime_ee make data = Err KeyError) /\
  (forall v, entry "data" data = Some v -> (forall s, v <> VStr s) -> prime_fw make data = Err AttributeError) /\
  (forall v, entry "data_path" data = Some v -> (forall s, v <> VStr s) -> prime_ee make data = Err AttributeError).
Proof.
  intros make data. unfold prime_fw, prime_ee, move. rewrite !FixProofs.dget_entry.
  split; [intros ->; reflexivity|]. split; [intros ->; reflexivity|].
  split; intros v -> N; destruct v as [s|z|s]; try reflexivity; now contradiction (N s).
Qed.
Print Assumptions C119_needs_text.
