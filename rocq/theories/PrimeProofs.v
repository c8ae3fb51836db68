(** Proofs about PrimeModel.v. *)
From Coq Require Import String Ascii.
From Verif Require Import PyBase FixModel FixSpec FixProofs PrimeModel PrimeSpec.
From Coq Require Import Lia.
Open Scope Z_scope.
Open Scope list_scope.

(** * Texts *)

Lemma str_app_assoc (a b c : string) : ((a ++ b) ++ c = a ++ (b ++ c))%string.
Proof. induction a as [|x a IH]; cbn; [reflexivity|rewrite IH; reflexivity]. Qed.

Lemma prefix_spec key : forall s, String.prefix key s = true <-> exists rest, s = (key ++ rest)%string.
Proof.
  induction key as [|c key IH]; intros s.
  - split; [exists s; reflexivity|intros _; destruct s; reflexivity].
  - destruct s as [|d s]; cbn [String.prefix append].
    + split; [discriminate|]. intros [r H]. discriminate H.
    + destruct (ascii_dec c d) as [->|N].
      * rewrite IH. split; intros [r H]; exists r; [rewrite H; reflexivity|injection H as H; exact H].
      * split; [discriminate|]. intros [r H]. injection H as H _. congruence.
Qed.

Lemma from_found_some key : forall s t, from_found key s = Some t ->
  exists pre rest, s = (pre ++ t)%string /\ t = (key ++ rest)%string /\
  forall pre', occurs_after key pre' s -> (String.length pre <= String.length pre')%nat.
Proof.
  induction s as [|c s IH]; intros t H; cbn [from_found] in H; destruct (String.prefix key _) eqn:E.
  - injection H as <-. apply prefix_spec in E. destruct E as [r E]. exists ""%string, r. split; [reflexivity|].
    split; [exact E|]. intros; cbn; lia.
  - discriminate H.
  - injection H as <-. apply prefix_spec in E. destruct E as [r E]. exists ""%string, r. split; [reflexivity|].
    split; [exact E|]. intros; cbn; lia.
  - destruct (IH t H) as [pre [rest [H1 [H2 H3]]]]. exists (String c pre), rest. split; [rewrite H1; reflexivity|].
    split; [exact H2|]. intros pre' [r Hr]. destruct pre' as [|d pre'].
    + exfalso. cbn [append] in Hr. assert (C : String.prefix key (String c s) = true) by (apply prefix_spec; exists r; exact Hr).
      rewrite C in E. discriminate E.
    + cbn [append] in Hr. injection Hr as _ Hr. cbn [String.length]. apply le_n_S, H3. exists r. exact Hr.
Qed.

Lemma from_found_none key : forall s, from_found key s = None <-> forall pre, ~ occurs_after key pre s.
Proof.
  induction s as [|c s IH]; cbn [from_found]; destruct (String.prefix key _) eqn:E.
  - split; [discriminate|]. intros H. apply prefix_spec in E. destruct (H ""%string E).
  - split; [|reflexivity]. intros _ pre [r H]. destruct pre as [|d pre]; [|discriminate H].
    assert (C : String.prefix key "" = true) by (apply prefix_spec; exists r; exact H). rewrite C in E. discriminate E.
  - split; [discriminate|]. intros H. apply prefix_spec in E. destruct (H ""%string E).
  - rewrite IH. split.
    + intros H pre [r Hr]. destruct pre as [|d pre].
      * assert (C : String.prefix key (String c s) = true) by (apply prefix_spec; exists r; exact Hr). rewrite C in E. discriminate E.
      * cbn [append] in Hr. injection Hr as _ Hr. apply (H pre). exists r. exact Hr.
    + intros H pre [r Hr]. apply (H (String c pre)). exists r. rewrite Hr. reflexivity.
Qed.

Lemma app_cut : forall (a b c d : string), (a ++ b = c ++ d)%string -> (String.length a <= String.length c)%nat ->
  exists m, c = (a ++ m)%string /\ b = (m ++ d)%string.
Proof.
  induction a as [|x a IH]; intros b c d H L.
  - exists c. split; [reflexivity|exact H].
  - destruct c as [|y c]; [cbn in L; lia|]. cbn [append] in H. injection H as -> H. cbn [String.length] in L.
    destruct (IH b c d H) as [m [H1 H2]]; [lia|]. exists m. split; [rewrite H1; reflexivity|exact H2].
Qed.

Lemma str_app_length a b : String.length (a ++ b)%string = (String.length a + String.length b)%nat.
Proof. induction a as [|c a IH]; cbn; [reflexivity|rewrite IH; reflexivity]. Qed.

(** ** Files below a plain root *)
Lemma relocate_plain root name : plain_root root -> relocate (here root name) = on_server name.
Proof.
  intros P. unfold relocate, here, on_server.
  destruct (from_found "/content/" (root ++ "/content/" ++ name)%string) as [t|] eqn:E.
  - apply from_found_some in E. destruct E as [pre [rest [H1 [H2 H3]]]].
    assert (O : occurs_after "/content/" root (root ++ "/content/" ++ name)%string) by (exists name; reflexivity).
    pose proof (H3 root O) as L.
    assert (E : pre = root).
    { apply P. destruct (app_cut pre t root ("/content/" ++ name)%string) as [m [M1 M2]]; [rewrite <- H1; reflexivity|exact L|].
      assert (K : exists z, (m ++ "/content/" = "/content/" ++ z)%string).
      { rewrite H2 in M2. rewrite <- str_app_assoc in M2.
        assert (Lm : (String.length "/content/" <= String.length (m ++ "/content/"))%nat) by (rewrite str_app_length; lia).
        destruct (app_cut "/content/" rest (m ++ "/content/") name M2 Lm) as [z [Z1 _]]. exists z. exact Z1. }
      destruct K as [z K]. exists z. rewrite M1, str_app_assoc, K. reflexivity. }
    subst pre. assert (T : t = ("/content/" ++ name)%string).
    { destruct (app_cut root t root ("/content/" ++ name)%string) as [m [M1 M2]]; [rewrite <- H1; reflexivity|lia|].
      assert (m = ""%string).
      { destruct m as [|c m]; [reflexivity|]. apply (f_equal String.length) in M1. rewrite str_app_length in M1. cbn in M1. lia. }
      subst m. exact M2. }
    rewrite T. reflexivity.
  - rewrite from_found_none in E. destruct (E root). exists name. reflexivity.
Qed.

Lemma server_plain : plain_root "/var/shepherd".
Proof.
  intros pre [r H]. cbn [append] in H.
  do 13 (destruct pre as [|c pre]; [discriminate H|cbn [append] in H; injection H as <- H]).
  destruct pre as [|c pre]; [reflexivity|]. exfalso.
  apply (f_equal String.length) in H. cbn [append String.length] in H. rewrite str_app_length in H. cbn in H. lia.
Qed.

Lemma relocate_again s : (exists pre, occurs_after "/content/" pre s) -> relocate (relocate s) = relocate s.
Proof.
  intros [p O]. unfold relocate at 2 3. destruct (from_found "/content/" s) as [t|] eqn:E.
  - apply from_found_some in E. destruct E as [pre [rest [_ [-> _]]]].
    exact (relocate_plain "/var/shepherd" rest server_plain).
  - rewrite from_found_none in E. destruct (E p O).
Qed.

Lemma relocate_lost s : no_content s -> relocate s = ("/var/shepherd" ++ last_char s)%string.
Proof. intros H. unfold relocate. apply from_found_none in H. rewrite H. reflexivity. Qed.

Lemma last_char_app s c : last_char (s ++ String c "")%string = String c "".
Proof.
  induction s as [|d s IH]; [reflexivity|]. cbn [append last_char]. destruct (s ++ String c "")%string eqn:E; [|exact IH].
  destruct s; discriminate E.
Qed.

(** * Models *)
Section Models.
Variable make : string -> dict -> res dict.

Lemma load_cases cls f :
  (exists d, holds make cls f d /\ load_model make cls f = Ok (Some d)) \/
  ((forall d, ~ holds make cls f d) /\ load_model make cls f = Ok None) \/
  ((forall d, ~ holds make cls f d) /\ exists e, load_model make cls f = Err e /\ e <> ValueError /\ e <> UnicodeError).
Proof.
  unfold load_model, from_file, holds. destruct f as [e|t p].
  - right. assert (N : forall d : dict, ~ exists p, Broken e = Wrapped cls p /\ make cls p = Ok d) by (intros d [p [H _]]; discriminate H).
    destruct e; try (left; split; [exact N|reflexivity]); right; (split; [exact N|]); eexists; (split; [reflexivity|split; discriminate]).
  - destruct (String.eqb_spec t cls) as [->|NE].
    + destruct (make cls p) as [d|e] eqn:E.
      * left. exists d. split; [exists p; auto|reflexivity].
      * right. assert (N : forall d : dict, ~ exists p', Wrapped cls p = Wrapped cls p' /\ make cls p' = Ok d)
          by (intros d [p' [H H']]; injection H as <-; rewrite E in H'; discriminate H').
        destruct e; try (left; split; [exact N|reflexivity]); right; (split; [exact N|]); eexists; (split; [reflexivity|split; discriminate]).
    + right. left. split; [|reflexivity]. intros d [p' [H _]]. injection H as H _. contradiction.
Qed.

Lemma load_none_no f : load_model make "Firmware" f = Ok None -> load_model make "EnergyEnvironment" f = Ok None -> no_model make f.
Proof.
  unfold load_model, from_file, no_model. destruct f as [e|t p].
  - destruct e; intros H _; auto; discriminate H.
  - intros H1 H2 [-> | ->].
    + rewrite String.eqb_refl in H1. cbn iota in H1. destruct (make "Firmware"%string p) as [d|e]; [discriminate H1|]. destruct e; auto; discriminate H1.
    + rewrite String.eqb_refl in H2. cbn iota in H2. destruct (make "EnergyEnvironment"%string p) as [d|e]; [discriminate H2|]. destruct e; auto; discriminate H2.
Qed.
Lemma no_load_none f : no_model make f -> load_model make "Firmware" f = Ok None /\ load_model make "EnergyEnvironment" f = Ok None.
Proof.
  unfold load_model, from_file, no_model. destruct f as [e|t p].
  - intros [->| ->]; split; reflexivity.
  - intros H. split.
    + destruct (String.eqb_spec t "Firmware") as [->|N]; [|reflexivity]. destruct (H (or_introl eq_refl)) as [E|E]; rewrite E; reflexivity.
    + destruct (String.eqb_spec t "EnergyEnvironment") as [->|N]; [|reflexivity]. destruct (H (or_intror eq_refl)) as [E|E]; rewrite E; reflexivity.
Qed.

Lemma holds_other cls cls' f d : holds make cls f d -> cls <> cls' -> load_model make cls' f = Ok None.
Proof.
  intros [p [-> H]] N. unfold load_model, from_file. apply String.eqb_neq in N. rewrite N. reflexivity.
Qed.
Lemma holds_load cls f d : holds make cls f d -> load_model make cls f = Ok (Some d).
Proof. intros [p [-> H]]. unfold load_model, from_file. rewrite String.eqb_refl, H. reflexivity. Qed.
Lemma load_holds cls f d : load_model make cls f = Ok (Some d) -> holds make cls f d.
Proof.
  intros H. destruct (load_cases cls f) as [[d' [H1 H2]]|[[_ H1]|[_ [e [H1 _]]]]].
  - rewrite H2 in H. injection H as ->. exact H1.
  - rewrite H1 in H. discriminate H.
  - rewrite H1 in H. discriminate H.
Qed.

Lemma eqb_no k a : k <> a -> String.eqb k a = false.
Proof. apply String.eqb_neq. Qed.

Lemma prime_fw_ok d m : prime_fw make d = Ok m -> exists s a, entry "data" d = Some (VStr s) /\
  same_but ["data"; "data_type"; "data_hash"; "data_local"]%string a d /\
  entry "data" a = Some (VStr (relocate s)) /\ entry "data_type" a = Some (VStr "path_elf") /\
  entry "data_hash" a = Some none_ /\ entry "data_local" a = Some (VOther "False") /\ make "Firmware"%string a = Ok m.
Proof.
  unfold prime_fw, move. rewrite dget_entry. destruct (entry "data" d) as [[s|z|r]|]; try discriminate. cbn [bind]. intros H.
  eexists s, _. split; [reflexivity|]. split; [|split; [|split; [|split; [|split; [|exact H]]]]].
  - intros k N. cbn [In] in N. rewrite !entry_put. rewrite !eqb_no by intuition congruence. reflexivity.
  - rewrite !entry_put. reflexivity.
  - rewrite !entry_put. reflexivity.
  - rewrite !entry_put. reflexivity.
  - rewrite !entry_put. reflexivity.
Qed.
Lemma prime_ee_ok d m : prime_ee make d = Ok m -> exists s a, entry "data_path" d = Some (VStr s) /\
  same_but ["data_path"; "data_local"]%string a d /\
  entry "data_path" a = Some (VStr (relocate s)) /\ entry "data_local" a = Some (VOther "False") /\
  make "EnergyEnvironment"%string a = Ok m.
Proof.
  unfold prime_ee, move. rewrite dget_entry. destruct (entry "data_path" d) as [[s|z|r]|]; try discriminate. cbn [bind]. intros H.
  eexists s, _. split; [reflexivity|]. split; [|split; [|split; [|exact H]]].
  - intros k N. cbn [In] in N. rewrite !entry_put. rewrite !eqb_no by intuition congruence. reflexivity.
  - rewrite !entry_put. reflexivity.
  - rewrite !entry_put. reflexivity.
Qed.

Lemma prime_file_ok f l : prime_file make f = Ok l -> entry_for make f l.
Proof.
  unfold prime_file. destruct (load_model make "Firmware" f) as [[d|]|e] eqn:E1; cbn [bind]; [| |discriminate].
  - apply load_holds in E1. rewrite (holds_other _ "EnergyEnvironment" f d E1) by discriminate. cbn [bind].
    destruct (prime_fw make d) as [m|e] eqn:E2; cbn [bind]; [|discriminate]. intros [= <-].
    destruct (prime_fw_ok _ _ E2) as [s [a [H1 [H2 [H3 [H4 [H5 [H6 H7]]]]]]]]. exact (ef_fw make f d s a m E1 H1 H2 H3 H4 H5 H6 H7).
  - destruct (load_model make "EnergyEnvironment" f) as [[d|]|e] eqn:E2; cbn [bind]; [| |discriminate].
    + apply load_holds in E2. destruct (prime_ee make d) as [m|e] eqn:E3; cbn [bind]; [|discriminate]. intros [= <-].
      destruct (prime_ee_ok _ _ E3) as [s [a [H1 [H2 [H3 [H4 H5]]]]]]. exact (ef_ee make f d s a m E2 H1 H2 H3 H4 H5).
    + intros [= <-]. constructor. apply load_none_no; assumption.
Qed.

Lemma prime_ok files : forall l, prime make files = Ok l -> exists ls, l = concat ls /\ Forall2 (entry_for make) files ls.
Proof.
  induction files as [|f files IH]; intros l H; cbn [prime] in H.
  - injection H as <-. exists []. split; [reflexivity|constructor].
  - destruct (prime_file make f) as [a|e] eqn:E1; cbn [bind] in H; [|discriminate H].
    destruct (prime make files) as [b|e] eqn:E2; cbn [bind] in H; [|discriminate H]. injection H as <-.
    destruct (IH b eq_refl) as [ls [-> H]]. exists (a :: ls). split; [reflexivity|]. constructor; [apply prime_file_ok, E1|exact H].
Qed.

Lemma prime_skip f files : no_model make f -> prime make (f :: files) = prime make files.
Proof.
  intros H. cbn [prime]. unfold prime_file. destruct (no_load_none f H) as [E1 E2]. rewrite E1, E2. cbn [bind].
  destruct (prime make files); reflexivity.
Qed.

Lemma prime_stops pre e post : e <> ValueError -> e <> UnicodeError -> exists e', prime make (pre ++ Broken e :: post) = Err e'.
Proof.
  intros H1 H2. induction pre as [|f pre [e' IH]].
  - exists e. cbn. unfold prime_file, load_model, from_file. destruct e; try reflexivity; contradiction.
  - cbn [app prime]. destruct (prime_file make f) as [a|e0]; cbn [bind]; [rewrite IH; exists e'; reflexivity|exists e0; reflexivity].
Qed.

Lemma db_failed files old e : prime make files = Err e -> prime_db make files old = (old, Err e).
Proof. intros H. unfold prime_db. rewrite H. reflexivity. Qed.
Lemma db_done files old l : prime make files = Ok l -> prime_db make files old = (l, Ok tt).
Proof. intros H. unfold prime_db. rewrite H. reflexivity. Qed.
End Models.
