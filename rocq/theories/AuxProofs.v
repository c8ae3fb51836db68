(** Proofs about generated ids and the directory of the cache. *)
From Coq Require Import String Ascii ZArith Bool List Lia.
From Verif Require Import PyBase AuxModel AuxSpec.
Import ListNotations.
Open Scope Z_scope.
Open Scope list_scope.

Lemma append_assoc a b c : ((a ++ b) ++ c = a ++ (b ++ c))%string.
Proof. induction a as [|x a IH]; [reflexivity|]. cbn [append]. now rewrite IH. Qed.
Lemma append_nil a : (a ++ "" = a)%string.
Proof. induction a as [|x a IH]; [reflexivity|]. cbn [append]. now rewrite IH. Qed.
Lemma append_length a b : String.length (a ++ b) = (String.length a + String.length b)%nat.
Proof. induction a as [|x a IH]; [reflexivity|]. cbn [append String.length]. now rewrite IH. Qed.
Lemma chars_append a b : list_ascii_of_string (a ++ b) = list_ascii_of_string a ++ list_ascii_of_string b.
Proof. induction a as [|x a IH]; [reflexivity|]. cbn [append list_ascii_of_string app]. now rewrite IH. Qed.

(** * Ids *)

Lemma substring_all b : substring 0 (String.length b) b = b.
Proof. induction b as [|x b IH]; [reflexivity|]. cbn [String.length substring]. now rewrite IH. Qed.
Lemma substring_skip a b n : substring (String.length a) n (a ++ b) = substring 0 n b.
Proof. induction a as [|x a IH]; [reflexivity|]. exact IH. Qed.
Lemma ending_append a b : ending (String.length b) (a ++ b) = b.
Proof. unfold ending. rewrite append_length. replace (_ + _ - _)%nat with (String.length a) by lia. rewrite substring_skip. apply substring_all. Qed.
Lemma splits s n : (n <= String.length s)%nat -> exists a b, s = (a ++ b)%string /\ String.length a = n.
Proof.
  revert s. induction n as [|n IH]; intros s H; [exists ""%string, s; split; reflexivity|]. destruct s as [|c s]; [cbn in H; lia|].
  destruct (IH s ltac:(cbn [String.length] in H; lia)) as (a & b & -> & L). exists (String c a), b. split; [reflexivity|]. cbn [String.length]. now rewrite L.
Qed.
Lemma tail_of s : digest s -> exists a e, s = (a ++ e)%string /\ String.length e = 32%nat /\ ending 32 s = e /\ (forall c, In c (list_ascii_of_string e) -> In c (list_ascii_of_string digits)).
Proof.
  intros [L D]. destruct (splits s 24 ltac:(lia)) as (a & e & -> & A). assert (E : String.length e = 32%nat) by (rewrite append_length in L; lia).
  exists a, e. split; [reflexivity|]. split; [exact E|]. split; [rewrite <- E; apply ending_append|]. intros c I. apply D. rewrite chars_append. apply in_or_app. now right.
Qed.

Lemma digit_value c : In c (list_ascii_of_string digits) -> exists d, hex_digit c = Some d /\ 0 <= d < 16.
Proof. intros H. cbn in H. repeat (destruct H as [<-|H]; [eexists; split; [vm_compute; reflexivity|lia]|]). destruct H. Qed.
Lemma digit_inj c d z : In c (list_ascii_of_string digits) -> In d (list_ascii_of_string digits) -> hex_digit c = Some z -> hex_digit d = Some z -> c = d.
Proof.
  intros C D. cbn in C, D. repeat (destruct C as [<-|C]; [intros E; vm_compute in E; injection E as <-; repeat (destruct D as [<-|D]; [intros E; (reflexivity || discriminate E)|]); destruct D|]). destruct C.
Qed.
Definition all_digits (s : string) : Prop := forall c, In c (list_ascii_of_string s) -> In c (list_ascii_of_string digits).
Lemma number_range s : all_digits s -> forall acc, 0 <= acc -> exists z, hex_number s acc = Some z /\
  acc * 16 ^ Z.of_nat (String.length s) <= z < (acc + 1) * 16 ^ Z.of_nat (String.length s).
Proof.
  induction s as [|c s IH]; intros D acc A; [exists acc; cbn; split; [reflexivity|lia]|].
  destruct (digit_value c) as [d [H R]]; [apply D; now left|]. cbn [hex_number]. rewrite H.
  destruct (IH (fun x I => D x (or_intror I)) (16 * acc + d) ltac:(lia)) as (z & E & L). exists z. split; [exact E|].
  cbn [String.length]. rewrite Nat2Z.inj_succ, Z.pow_succ_r by lia. set (p := 16 ^ Z.of_nat (String.length s)) in *. assert (0 <= p) by (apply Z.pow_nonneg; lia). nia.
Qed.
Lemma number_inj s : forall t acc acc' z, all_digits s -> all_digits t -> String.length s = String.length t -> 0 <= acc -> 0 <= acc' ->
  hex_number s acc = Some z -> hex_number t acc' = Some z -> acc = acc' /\ s = t.
Proof.
  induction s as [|c s IH]; intros [|d t] acc acc' z S T L A A' H H'; try discriminate L; [cbn in H, H'; split; [congruence|reflexivity]|].
  cbn [hex_number] in H, H'. destruct (digit_value c) as [x [X RX]]; [apply S; now left|]. destruct (digit_value d) as [y [Y RY]]; [apply T; now left|].
  rewrite X in H. rewrite Y in H'. injection L as L.
  destruct (IH t (16 * acc + x) (16 * acc' + y) z (fun u I => S u (or_intror I)) (fun u I => T u (or_intror I)) L ltac:(lia) ltac:(lia) H H') as [E <-].
  assert (x = y /\ acc = acc') as [-> ->] by lia. split; [reflexivity|]. f_equal. eapply digit_inj; [apply S; now left|apply T; now left|exact X|exact Y].
Qed.
Lemma id_value sha3 show now : digest (sha3 (show (now / 1000))) -> exists a e z, sha3 (show (now / 1000)) = (a ++ e)%string /\ String.length e = 32%nat /\ all_digits e /\
  hex_number e 0 = Some z /\ id_default sha3 show now = Ok z /\ 0 <= z < 2 ^ 128.
Proof.
  intros D. apply tail_of in D as (a & e & S & L & E & D). destruct (number_range e D 0 ltac:(lia)) as (z & N & R). rewrite L in R.
  exists a, e, z. split; [exact S|]. split; [exact L|]. split; [exact D|]. split; [exact N|]. split.
  - unfold id_default. rewrite E. unfold int16. destruct e; [discriminate L|]. now rewrite N.
  - change (2 ^ 128) with (16 ^ Z.of_nat 32). lia.
Qed.
Lemma id_range sha3 show now : digest (sha3 (show (now / 1000))) -> exists z, id_default sha3 show now = Ok z /\ 0 <= z < 2 ^ 128.
Proof. intros D. destruct (id_value sha3 show now D) as (a & e & z & _ & _ & _ & _ & I & R). eauto. Qed.
Lemma id_same sha3 show t u : digest (sha3 (show (t / 1000))) -> digest (sha3 (show (u / 1000))) ->
  id_default sha3 show t = id_default sha3 show u <-> same_end (sha3 (show (t / 1000))) (sha3 (show (u / 1000))).
Proof.
  intros D D'. split.
  - destruct (id_value sha3 show t D) as (a & e & z & S & L & A & N & I & _), (id_value sha3 show u D') as (a' & e' & z' & S' & L' & A' & N' & I' & _).
    rewrite I, I'. intros H. injection H as <-. destruct (number_inj e e' 0 0 z A A' ltac:(congruence) ltac:(lia) ltac:(lia) N N') as [_ <-]. exists a, a', e. auto.
  - intros (a & b & e & S & S' & L). unfold id_default. rewrite S, S', <- L, !ending_append. reflexivity.
Qed.

Lemma no_number s c : In c (list_ascii_of_string s) -> hex_digit c = None -> forall acc, hex_number s acc = None.
Proof.
  induction s as [|d s IH]; intros H N acc; [destruct H|]. cbn [hex_number]. destruct H as [->|H]; [now rewrite N|]. destruct (hex_digit d); [now apply IH|reflexivity].
Qed.
Lemma digit_none c : In c (list_ascii_of_string "ghijklmnopqrstuvwyzGHIJKLMNOPQRSTUVWYZ") -> hex_digit c = None.
Proof. intros H. vm_compute in H. repeat (destruct H as [<-|H]; [reflexivity|]). destruct H. Qed.
Lemma id_refused sha3 show now a e : sha3 (show (now / 1000)) = (a ++ e)%string -> String.length e = 32%nat \/ a = ""%string /\ (String.length e <= 32)%nat ->
  e = ""%string \/ (exists c, In c (list_ascii_of_string e) /\ In c (list_ascii_of_string "ghijklmnopqrstuvwyzGHIJKLMNOPQRSTUVWYZ")) ->
  id_default sha3 show now = Err ValueError.
Proof.
  intros S L B. assert (E : ending 32 (sha3 (show (now / 1000))) = e).
  { rewrite S. destruct L as [L|[-> L]]; [rewrite <- L; apply ending_append|]. cbn [append]. unfold ending. replace (_ - _)%nat with 0%nat by lia.
    clear - L. revert L. generalize 32%nat. induction e as [|c e IH]; intros n L; [destruct n; reflexivity|]. destruct n; [cbn in L; lia|]. cbn [substring]. rewrite IH; [reflexivity|cbn in L; lia]. }
  unfold id_default. rewrite E. destruct B as [->|(c & I & N)]; [reflexivity|]. unfold int16. rewrite (no_number e c I (digit_none c N)). destruct e; reflexivity.
Qed.

(** * Cache *)

Lemma split_free w : free w -> forall s word, split (w ++ s) word = split s (word ++ w).
Proof.
  induction w as [|c w IH]; intros F s word; [now rewrite append_nil|]. cbn [append split].
  destruct (Ascii.eqb c "/") eqn:E; [apply Ascii.eqb_eq in E; subst c; exfalso; apply F; now left|].
  rewrite IH by (intros I; apply F; now right). now rewrite append_assoc.
Qed.
Lemma split_concat ws : ws <> [] -> Forall free ws -> split (String.concat "/" ws) "" = ws.
Proof.
  induction ws as [|w ws IH]; intros N F; [congruence|]. inversion F as [|? ? W R]; subst. destruct ws as [|v ws].
  - cbn [String.concat]. rewrite <- (append_nil w) at 1. rewrite split_free by exact W. reflexivity.
  - change (String.concat "/" (w :: v :: ws)) with (w ++ "/" ++ String.concat "/" (v :: ws))%string. rewrite split_free by exact W.
    cbn [append split Ascii.eqb Bool.eqb]. f_equal. apply IH; [discriminate|exact R].
Qed.
Lemma meant_counts ws : filter meant ws = filter counts ws.
Proof.
  assert (E : forall w, meant w = counts w).
  { intros w. unfold meant, counts. destruct w as [|c w]; [reflexivity|]. cbn [String.eqb negb andb]. destruct w as [|d w].
    - destruct c as [[|] [|] [|] [|] [|] [|] [|] [|]]; reflexivity.
    - destruct c as [[|] [|] [|] [|] [|] [|] [|] [|]]; reflexivity. }
  induction ws as [|w ws IH]; [reflexivity|]. cbn [filter]. rewrite E, IH. reflexivity.
Qed.
Lemma cache_parts ws home : ws <> [] -> Forall free ws -> String.concat "/" ws <> ""%string ->
  p_parts (cache_user_path (Some (String.concat "/" ws)) home) = filter counts ws ++ ["shepherd_datalib"%string].
Proof.
  intros N F E. unfold cache_user_path, get_xdg_path. destruct (String.eqb _ "") eqn:Q; [apply String.eqb_eq in Q; congruence|].
  cbn [child p_parts path_of]. rewrite split_concat by assumption. now rewrite meant_counts.
Qed.
Lemma cache_root v home : v <> ""%string -> p_root (cache_user_path (Some v) home) = "/"%string \/ p_root (cache_user_path (Some v) home) = "//"%string <->
  exists s, v = ("/" ++ s)%string.
Proof.
  intros N. unfold cache_user_path, get_xdg_path. destruct (String.eqb v "") eqn:Q; [apply String.eqb_eq in Q; congruence|]. cbn [child p_root path_of].
  destruct v as [|c v]; [congruence|]. destruct (ascii_dec c "/") as [->|D].
  - split; [intros _; exists v; reflexivity|]. intros _. destruct v as [|d v]; [now left|]. destruct (ascii_dec d "/") as [->|D'].
    + destruct v as [|e v]; [now right|]. destruct (ascii_dec e "/") as [->|D'']; [now left|right].
      destruct e as [[|] [|] [|] [|] [|] [|] [|] [|]]; try reflexivity. now contradiction D''.
    + left. destruct d as [[|] [|] [|] [|] [|] [|] [|] [|]]; try reflexivity. now contradiction D'.
  - assert (R : root_of (String c v) = ""%string). { destruct c as [[|] [|] [|] [|] [|] [|] [|] [|]]; try reflexivity. now contradiction D. }
    rewrite R. split; [intros [H|H]; discriminate H|]. intros [s H]. injection H as H _. contradiction.
Qed.
Lemma cache_relative w home cwd : free w -> counts w = true ->
  absolute cwd (cache_user_path (Some w) home) = mkPath (p_root cwd) (p_parts cwd ++ [w; "shepherd_datalib"%string]).
Proof.
  intros F C. assert (N : w <> ""%string) by (intros ->; discriminate C).
  pose proof (cache_parts [w] home ltac:(discriminate) (Forall_cons _ F (Forall_nil _)) N) as P. cbn [String.concat filter] in P. rewrite C in P. cbn [app] in P.
  unfold absolute. rewrite P. assert (R : p_root (cache_user_path (Some w) home) = ""%string).
  { unfold cache_user_path, get_xdg_path. destruct (String.eqb w "") eqn:Q; [apply String.eqb_eq in Q; congruence|]. cbn [child p_root path_of].
    destruct w as [|c w]; [congruence|]. assert (D : c <> "/"%char) by (intros ->; apply F; now left).
    destruct c as [[|] [|] [|] [|] [|] [|] [|] [|]]; try reflexivity. now contradiction D. }
  rewrite R. reflexivity.
Qed.
