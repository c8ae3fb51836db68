(** Properties of names and of the paths made from them: C105.
    Vocabulary: NameSpec.v; code: NameModel.v. *)
From Verif Require Import PyBase NameModel NameSpec NameProofs.
From Coq Require Import ZArith List Lia String Ascii.
From Coq Require Import List.
Import ListNotations.
Open Scope Z_scope.

(** ** C105: names are fit for files *)

(** What is accepted, and as what: the text without white space at its ends, of 1 to 32 characters,
    without the ones that are special to file systems. *)
Theorem C105_name s t : name_str s = Ok t <->
  cleaned s t /\ Forall encodable s /\ (1 <= length t <= 32)%nat /\
  Forall (fun c => ~ In c [60; 62; 58; 59; 44; 63; 34; 42; 124; 47; 92]) t.
Proof.
  unfold name_str. rewrite constrained_spec, strip_cleaned. rewrite !Forall_forall.
  split; intros (H1 & H2 & H3 & H4); (split; [exact H1|]; split;
    [intros c Hc; apply scalar_encodable, H2, Hc|]; split; [exact H3|]);
    intros c Hc; apply name_class_spec, H4, Hc.
Qed.
Print Assumptions C105_name.

(** The text without the white space at its ends is unique. *)
Theorem C105_strip s : exists t, cleaned s t /\ forall t', cleaned s t' -> t' = t.
Proof. exists (strip s). split; [apply strip_cleaned; reflexivity|]. intros t' H. apply strip_cleaned, H. Qed.
Print Assumptions C105_strip.

(** What was accepted is accepted again, unchanged: storing and loading. *)
Theorem C105_again s t : (name_str s = Ok t -> name_str t = Ok t) /\ (safe_str s = Ok t -> safe_str t = Ok t).
Proof. split; apply constrained_again. Qed.
Print Assumptions C105_again.

Theorem C105_safe s t : safe_str s = Ok t <-> cleaned s t /\ Forall encodable s /\ (1 <= length t <= 512)%nat /\
  Forall (fun c => 32 <= c <= 126) t.
Proof.
  unfold safe_str. rewrite constrained_spec, strip_cleaned. rewrite !Forall_forall.
  split; intros (H1 & H2 & H3 & H4); (split; [exact H1|]; split;
    [intros c Hc; apply scalar_encodable, H2, Hc|]; split; [exact H3|]);
    intros c Hc; specialize (H4 c Hc); unfold safe_class in *; lia.
Qed.
Print Assumptions C105_safe.

(** Content that others can see has a description. *)
Theorem C105_described c d : content_model c = Ok d -> c_v2group d = true \/ c_v2all d = true ->
  exists s, c_description d = Some s /\ s <> [] /\ trimmed s /\ Forall (fun x => 32 <= x <= 126) s.
Proof. exact (content_spec c d). Qed.
Print Assumptions C105_described.

(** The directory of an experiment is directly below "experiments", whatever its name is ... *)
Theorem C105_directory base name t : name_str name = Ok name ->
  root_path base name t = base ++ [experiments_; name ++ [95] ++ stamp t].
Proof. exact (xp_dir base name t). Qed.
Print Assumptions C105_directory.

(** ... and the file system takes it, as well as those of its files, unless a name has a zero byte. *)
Theorem C105_file_names_partial name t i : name_str name = Ok name -> ~ In 0 name ->
  file_name (name ++ [95] ++ stamp t) /\
  (forall p, exists f, fw_path p i name = p ++ [f] /\ file_name f) /\
  (forall p, exists f, emu_path p name = p ++ [f] /\ file_name f).
Proof.
  intros H HZ. split; [exact (xp_file_name name t H HZ)|]. split; intros p; eexists.
  - assert (S2 : ~ In 47 [46; 104; 101; 120]) by (cbn; intuition discriminate).
    assert (L1 : (1 <= length [102%Z; 119%Z; digit i; 95%Z])%nat) by (cbn; lia).
    assert (L2 : (length [102%Z; 119%Z; digit i; 95%Z] + length [46%Z; 104%Z; 101%Z; 120%Z] <= 31)%nat) by (cbn; lia).
    destruct (named _ name _ (no_slash_fw i) S2 H L1 L2) as [J F].
    split; [apply J|]. apply F; [exact HZ|apply no_nul_fw|cbn; intuition discriminate|cbn; lia].
  - assert (S1 : ~ In 47 [101; 109; 117; 95]) by (cbn; intuition discriminate).
    assert (S2 : ~ In 47 [46; 104; 53]) by (cbn; intuition discriminate).
    assert (L1 : (1 <= length [101%Z; 109%Z; 117%Z; 95%Z])%nat) by (cbn; lia).
    assert (L2 : (length [101%Z; 109%Z; 117%Z; 95%Z] + length [46%Z; 104%Z; 53%Z] <= 31)%nat) by (cbn; lia).
    destruct (named _ name _ S1 S2 H L1 L2) as [J F].
    split; [apply J|]. apply F; [exact HZ|cbn; intuition discriminate|cbn; intuition discriminate|cbn; lia].
Qed.
Print Assumptions C105_file_names_partial.

(** Experiments with different names or starts have different directories, observers different files. *)
Theorem C105_distinct base n1 n2 t1 t2 : name_str n1 = Ok n1 -> name_str n2 = Ok n2 -> calendar t1 -> calendar t2 ->
  root_path base n1 t1 = root_path base n2 t2 -> n1 = n2 /\ t1 = t2.
Proof. exact (xp_distinct base n1 n2 t1 t2). Qed.
Print Assumptions C105_distinct.

Theorem C105_files_distinct p i n1 n2 : name_str n1 = Ok n1 -> name_str n2 = Ok n2 ->
  (fw_path p i n1 = fw_path p i n2 -> n1 = n2) /\ (emu_path p n1 = emu_path p n2 -> n1 = n2).
Proof.
  intros A1 A2. split.
  - apply join_inj; try assumption; [apply no_slash_fw|cbn; intuition discriminate|cbn; lia|cbn; lia].
  - apply join_inj; try assumption; try (cbn; intuition discriminate); cbn; lia.
Qed.
Print Assumptions C105_files_distinct.

(** "FileSystem-Compatible ASCII" is not what is accepted: parent directory, control characters
    (zero byte, line feed), others than ASCII. *)
Theorem C105_compatible_refuted : exists parent nul lf umlaut,
  name_str parent = Ok parent /\ ~ file_name parent /\
  name_str nul = Ok nul /\ ~ file_name nul /\
  name_str lf = Ok lf /\ In 10 lf /\
  name_str umlaut = Ok umlaut /\ Exists (fun c => c > 127) umlaut.
Proof.
  exists [46; 46], [97; 0; 98], [97; 10; 98], [228].
  split; [reflexivity|]. split; [intros (_ & _ & H & _); apply H; reflexivity|].
  split; [reflexivity|]. split; [intros (_ & _ & _ & _ & H & _); apply H; right; left; reflexivity|].
  split; [reflexivity|]. split; [right; left; reflexivity|].
  split; [reflexivity|]. left. reflexivity.
Qed.
Print Assumptions C105_compatible_refuted.

(** " my xp " at 2024-05-06 07:08:09. *)
Definition my_xp : text := [109; 121; 32; 120; 112].
Definition may : date := mkDate 2024 5 6 7 8 9.
Example C105_example_name : name_str ([32] ++ my_xp ++ [160; 10]) = Ok my_xp.
Proof. reflexivity. Qed.
Example C105_example_refused :
  name_str [97; 47; 98] = Err ValueError /\ name_str [32; 9] = Err ValueError /\
  name_str (repeat 97 33) = Err ValueError /\ name_str [97; 55296] = Err ValueError.
Proof. repeat split. Qed.
Example C105_example_directory :
  root_path [[111; 98; 115]] my_xp may =
  [[111; 98; 115]; experiments_;
   my_xp ++ [95; 50; 48; 50; 52; 45; 48; 53; 45; 48; 54; 95; 48; 55; 45; 48; 56; 45; 48; 57]] /\ calendar may.
Proof. split; [reflexivity|]. unfold calendar; cbn; lia. Qed.
Example C105_example_public :
  content_model (mkContent my_xp None None my_xp my_xp false true) = Err ValueError /\
  content_model (mkContent my_xp (Some my_xp) None my_xp my_xp false true)
  = Ok (mkContent my_xp (Some my_xp) None my_xp my_xp false true).
Proof. split; reflexivity. Qed.

(** The directory is called experiments. *)
Theorem C105_experiments : experiments_ = map (fun c => Z.of_nat (Ascii.nat_of_ascii c)) (list_ascii_of_string "experiments"%string).
Proof. reflexivity. Qed.
Print Assumptions C105_experiments.
