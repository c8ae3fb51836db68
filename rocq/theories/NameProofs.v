(** Proofs about NameModel.v. *)
From Verif Require Import PyBase NameModel NameSpec.
From Coq Require Import ZArith List Lia Bool.
Import ListNotations.
Open Scope Z_scope.

(** * Stripping *)

Lemma white_space c : white c = true <-> space c.
Proof.
  unfold white, space. split.
  - intros H. apply orb_true_iff in H. destruct H as [H|H].
    + apply orb_true_iff in H. cbn [In]. lia.
    + cbn [existsb] in H. cbn [In]. lia.
  - cbn [In]. intros H. repeat (destruct H as [<-|H]; [reflexivity|]). destruct H.
Qed.
Lemma white_no_space c : white c = false <-> ~ space c.
Proof. rewrite <- white_space. destruct (white c); intuition congruence. Qed.
Lemma scalar_encodable c : scalar c = true <-> encodable c.
Proof. unfold scalar, encodable. lia. Qed.
Lemma Forall_white s : Forall (fun c => white c = true) s <-> Forall space s.
Proof. rewrite !Forall_forall. split; intros H c Hc; apply white_space, H, Hc. Qed.

Lemma lstrip_split s : exists w, s = w ++ lstrip s /\ Forall (fun c => white c = true) w.
Proof.
  induction s as [|c s IH]; [exists []; auto|]. cbn [lstrip]. destruct (white c) eqn:E.
  - destruct IH as [w [E1 E2]]. exists (c :: w). split; [cbn; congruence|constructor; assumption].
  - exists []. auto.
Qed.

Lemma lstrip_head s c s' : lstrip s = c :: s' -> white c = false.
Proof.
  induction s as [|d s IH]; [discriminate|]. cbn [lstrip]. destruct (white d) eqn:E; [exact IH|].
  intros [= <- _]. exact E.
Qed.

Lemma lstrip_id s : (forall c s', s = c :: s' -> white c = false) -> lstrip s = s.
Proof. destruct s as [|c s]; [reflexivity|]. intros H. cbn [lstrip]. now rewrite (H c s eq_refl). Qed.

Lemma strip_split s : exists a b, s = a ++ strip s ++ b /\
  Forall (fun c => white c = true) a /\ Forall (fun c => white c = true) b.
Proof.
  destruct (lstrip_split s) as [a [E1 F1]]. destruct (lstrip_split (rev (lstrip s))) as [b [E2 F2]].
  exists a, (rev b). split; [|split; [exact F1|apply Forall_rev, F2]].
  unfold strip. rewrite <- rev_app_distr, <- E2, rev_involutive. exact E1.
Qed.

Lemma strip_trimmed s : trimmed (strip s).
Proof.
  split.
  - intros c s' E. unfold strip in E.
    destruct (lstrip_split (rev (lstrip s))) as [w [E2 _]].
    assert (X : lstrip s = (c :: s') ++ rev w).
    { rewrite <- E, <- rev_app_distr, <- E2, rev_involutive. reflexivity. }
    apply white_no_space. exact (lstrip_head s c (s' ++ rev w) X).
  - intros c s' E. unfold strip in E.
    assert (X : lstrip (rev (lstrip s)) = c :: rev s').
    { rewrite <- (rev_involutive (lstrip (rev (lstrip s)))), E, rev_app_distr. reflexivity. }
    apply white_no_space. exact (lstrip_head _ _ _ X).
Qed.

Lemma strip_id s : trimmed s -> strip s = s.
Proof.
  intros [H1 H2]. unfold strip. rewrite (lstrip_id s) by (intros c s' E; apply white_no_space, (H1 c s' E)). rewrite lstrip_id; [apply rev_involutive|].
  intros c s' E. apply white_no_space, (H2 c (rev s')). rewrite <- (rev_involutive s), E. reflexivity.
Qed.

Lemma lstrip_app a s : Forall (fun c => white c = true) a -> lstrip (a ++ s) = lstrip s.
Proof. induction 1 as [|c a H _ IH]; [reflexivity|]. cbn [app lstrip]. rewrite H. exact IH. Qed.

Lemma strip_cleaned s t : cleaned s t <-> t = strip s.
Proof.
  split.
  - intros [T [a [b [-> [Fa Fb]]]]]. apply Forall_white in Fa, Fb. unfold strip. rewrite (lstrip_app a) by exact Fa.
    destruct t as [|c t].
    { cbn [app]. pose proof (lstrip_app b [] Fb) as E. rewrite app_nil_r in E. rewrite E. reflexivity. }
    rewrite (lstrip_id ((c :: t) ++ b)).
    2:{ intros x s' E. injection E as <- _. apply white_no_space, (proj1 T c t eq_refl). }
    rewrite rev_app_distr, lstrip_app by (apply Forall_rev; exact Fb).
    rewrite lstrip_id; [symmetry; apply rev_involutive|].
    intros x s' E. apply white_no_space, (proj2 T x (rev s')). rewrite <- (rev_involutive (c :: t)), E. reflexivity.
  - intros ->. split; [apply strip_trimmed|]. destruct (strip_split s) as [a [b [E [Fa Fb]]]].
    exists a, b. split; [exact E|]. split; apply Forall_white; assumption.
Qed.

(** * Constrained texts *)

Lemma constrained_spec lo hi class s t : constrained lo hi class s = Ok t <->
  t = strip s /\ Forall (fun c => scalar c = true) s /\ (lo <= length t <= hi)%nat /\
  Forall (fun c => class c = true) t.
Proof.
  unfold constrained. split.
  - intros H. destruct (forallb scalar s) eqn:E1; [|discriminate H]. cbn zeta in H.
    destruct (Nat.leb lo (length (strip s)) && Nat.leb (length (strip s)) hi) eqn:E2; [|discriminate H].
    destruct (forallb class (strip s)) eqn:E3; [|discriminate H]. injection H as <-.
    apply andb_true_iff in E2. destruct E2 as [L1 L2]. apply Nat.leb_le in L1, L2.
    split; [reflexivity|]. split; [apply Forall_forall, forallb_forall, E1|]. split; [lia|].
    apply Forall_forall, forallb_forall, E3.
  - intros [-> [H1 [H2 H3]]].
    rewrite (proj2 (forallb_forall scalar s)) by (apply Forall_forall, H1). cbn zeta.
    rewrite (proj2 (Nat.leb_le lo (length (strip s)))) by lia.
    rewrite (proj2 (Nat.leb_le (length (strip s)) hi)) by lia. cbn [andb].
    rewrite (proj2 (forallb_forall class (strip s))) by (apply Forall_forall, H3). reflexivity.
Qed.

Lemma stripped_scalar s : Forall (fun c => scalar c = true) s -> Forall (fun c => scalar c = true) (strip s).
Proof.
  intros H. destruct (strip_split s) as [a [b [E _]]]. rewrite E in H.
  apply Forall_app in H. destruct H as [_ H]. apply Forall_app in H. tauto.
Qed.

Lemma constrained_again lo hi class s t : constrained lo hi class s = Ok t -> constrained lo hi class t = Ok t.
Proof.
  rewrite !constrained_spec. intros [-> [H1 [H2 H3]]].
  split; [symmetry; apply strip_id, strip_trimmed|]. split; [apply stripped_scalar, H1|]. auto.
Qed.

Lemma name_class_spec c : name_class c = true <-> ~ In c [60; 62; 58; 59; 44; 63; 34; 42; 124; 47; 92].
Proof.
  unfold name_class. rewrite negb_true_iff, <- not_true_iff_false, existsb_exists. split.
  - intros H HI. apply H. exists c. split; [exact HI|apply Z.eqb_refl].
  - intros H [x [HI E]]. apply Z.eqb_eq in E. subst x. contradiction.
Qed.

(** * Content *)

Lemma content_spec c d : content_model c = Ok d ->
  (c_v2group d = true \/ c_v2all d = true -> exists s, c_description d = Some s /\ s <> [] /\ trimmed s /\
     Forall (fun x => 32 <= x <= 126) s).
Proof.
  unfold content_model. intros H V.
  destruct (name_str (c_name c)) as [name|]; [|discriminate H]. cbn [bind] in H.
  destruct (optional safe_str (c_description c)) as [descr|] eqn:ED; [|discriminate H]. cbn [bind] in H.
  destruct (optional safe_str (c_comment c)) as [comment|]; [|discriminate H]. cbn [bind] in H.
  destruct (name_str (c_owner c)) as [owner|]; [|discriminate H]. cbn [bind] in H.
  destruct (name_str (c_group c)) as [group|]; [|discriminate H]. cbn [bind] in H.
  destruct (negb _) eqn:EV in H; [|discriminate H]. injection H as <-. cbn [c_v2group c_v2all c_description] in *.
  destruct descr as [s|].
  - exists s. split; [reflexivity|]. unfold optional in ED. destruct (c_description c) as [s0|]; [|discriminate ED].
    destruct (safe_str s0) as [s1|] eqn:ES; [|discriminate ED]. injection ED as ->.
    apply constrained_spec in ES. destruct ES as [-> [_ [L F]]]. split; [intros E; rewrite E in L; cbn in L; lia|].
    split; [apply strip_trimmed|]. eapply Forall_impl; [|exact F]. intros x Hx. unfold safe_class in Hx. lia.
  - exfalso. destruct V as [V|V]; rewrite V in EV; [|rewrite orb_true_r in EV]; discriminate EV.
Qed.

(** * Paths *)

Lemma split_none s acc : ~ In 47 s -> split_slash s acc = [rev acc ++ s].
Proof.
  revert acc. induction s as [|c s IH]; intros acc H; cbn [split_slash]; [now rewrite app_nil_r|].
  destruct (Z.eqb_spec c 47) as [->|N]; [elim H; left; reflexivity|].
  rewrite IH by (intros C; apply H; right; exact C). cbn [rev]. now rewrite <- app_assoc.
Qed.

Lemma split_cons a s acc : ~ In 47 a -> split_slash (a ++ 47 :: s) acc = (rev acc ++ a) :: split_slash s [].
Proof.
  revert acc. induction a as [|c a IH]; intros acc H; cbn [split_slash app]; [now rewrite app_nil_r|].
  destruct (Z.eqb_spec c 47) as [->|N]; [elim H; left; reflexivity|].
  rewrite IH by (intros C; apply H; right; exact C). cbn [rev]. now rewrite <- app_assoc.
Qed.

Lemma join_name p s : ~ In 47 s -> (1 < length s)%nat -> join p s = p ++ [s].
Proof.
  intros H L. unfold join, parts. rewrite split_none by exact H. cbn [rev app filter].
  destruct s as [|c [|d s]]; cbn in L; try lia.
  replace (is_part (c :: d :: s)) with true; [reflexivity|].
  unfold is_part. destruct c as [|c|c]; try reflexivity. repeat (destruct c; try reflexivity).
Qed.

Lemma digit_range n : 48 <= digit n <= 57.
Proof. unfold digit. pose proof (Z.mod_pos_bound n 10). lia. Qed.

Definition stamp_char (c : Z) : Prop := 48 <= c <= 57 \/ c = 45 \/ c = 95.

Lemma stamp_chars d : Forall stamp_char (stamp d) /\ length (stamp d) = 19%nat.
Proof.
  split; [|reflexivity]. unfold stamp, two.
  repeat (apply Forall_cons; [unfold stamp_char; try (left; apply digit_range); auto|]). apply Forall_nil.
Qed.

Lemma stamp_none d c : ~ stamp_char c -> ~ In c (stamp d).
Proof. intros N H. destruct (stamp_chars d) as [F _]. rewrite Forall_forall in F. exact (N (F c H)). Qed.

Lemma two_inj a b : 0 <= a < 100 -> 0 <= b < 100 -> two a = two b -> a = b.
Proof.
  intros Ha Hb. unfold two, digit. intros [= E1 E2].
  pose proof (Z.div_mod a 10). pose proof (Z.div_mod b 10).
  assert (0 <= a / 10 < 10) by (split; [apply Z.div_pos; lia|apply Z.div_lt_upper_bound; lia]).
  assert (0 <= b / 10 < 10) by (split; [apply Z.div_pos; lia|apply Z.div_lt_upper_bound; lia]).
  rewrite !(Z.mod_small (_ / 10)) in E1 by lia. lia.
Qed.

Lemma app_two n n' r r' : two n ++ r = two n' ++ r' -> two n = two n' /\ r = r'.
Proof. unfold two. cbn [app]. intros H. injection H. intros. split; congruence. Qed.
Lemma app_one (c : Z) r r' : [c] ++ r = [c] ++ r' -> r = r'.
Proof. cbn [app]. congruence. Qed.

Lemma stamp_inj a b : calendar a -> calendar b -> stamp a = stamp b -> a = b.
Proof.
  intros (A1 & A2 & A3 & A4 & A5 & A6) (B1 & B2 & B3 & B4 & B5 & B6) E.
  destruct a as [y m d h mi s], b as [y' m' d' h' mi' s']. cbn [d_year d_month d_day d_hour d_minute d_second] in *.
  unfold stamp in E. cbn [d_year d_month d_day d_hour d_minute d_second] in E.
  apply app_two in E. destruct E as [Y1 E]. apply app_two in E. destruct E as [Y2 E]. apply app_one in E.
  apply app_two in E. destruct E as [M E]. apply app_one in E. apply app_two in E. destruct E as [D E].
  apply app_one in E. apply app_two in E. destruct E as [H E]. apply app_one in E.
  apply app_two in E. destruct E as [MI E]. apply app_one in E.
  assert (YR : forall x, 1000 <= x <= 9999 -> 0 <= x / 100 < 100 /\ 0 <= x mod 100 < 100).
  { intros x Hx. split; [|apply Z.mod_pos_bound; lia]. split; [apply Z.div_pos; lia|apply Z.div_lt_upper_bound; lia]. }
  apply two_inj in Y1; try apply YR; try assumption. apply two_inj in Y2; try apply YR; try assumption.
  apply two_inj in M; try lia. apply two_inj in D; try lia. apply two_inj in H; try lia.
  apply two_inj in MI; try lia. apply two_inj in E; try lia.
  pose proof (Z.div_mod y 100). pose proof (Z.div_mod y' 100). f_equal; lia.
Qed.

Lemma size_app a b : size (a ++ b) = size a + size b.
Proof. induction a as [|c a IH]; [reflexivity|]. cbn [app size fold_right]. fold (size (a ++ b)). rewrite IH. unfold size. lia. Qed.

Lemma size_max s : size s <= 4 * Z.of_nat (length s).
Proof.
  induction s as [|c s IH]; [reflexivity|]. cbn [size fold_right length]. fold (size s).
  assert (bytes_of c <= 4) by (unfold bytes_of; repeat destruct (_ <? _); lia). lia.
Qed.

(** Accepted names. *)
Definition accepted (s : text) : Prop := name_str s = Ok s.

Lemma accepted_facts s : accepted s -> ~ In 47 s /\ (1 <= length s <= 32)%nat.
Proof.
  intros H. apply constrained_spec in H. destruct H as [_ [_ [L F]]]. split; [|exact L].
  intros C. rewrite Forall_forall in F. apply F, name_class_spec in C. apply C. cbn. tauto.
Qed.

Lemma named a name b : ~ In 47 a -> ~ In 47 b -> accepted name ->
  (1 <= length a)%nat -> (length a + length b <= 31)%nat ->
  (forall p, join p (a ++ name ++ b) = p ++ [a ++ name ++ b]) /\
  (~ In 0 name -> ~ In 0 a -> ~ In 0 b -> (3 <= length a + length b)%nat -> file_name (a ++ name ++ b)).
Proof.
  intros Ha Hb HN La L. destruct (accepted_facts name HN) as [N1 N2].
  assert (NI : ~ In 47 (a ++ name ++ b)) by (rewrite !in_app_iff; tauto).
  split.
  - intros p. apply join_name; [exact NI|]. rewrite !app_length. lia.
  - intros Z1 Z2 Z3 L3.
    assert (LL : (length (a ++ name ++ b) = length a + length name + length b)%nat) by (rewrite !app_length; lia).
    repeat split.
    + intros E. rewrite E in LL. cbn in LL. lia.
    + intros E. rewrite E in LL. cbn in LL. lia.
    + intros E. rewrite E in LL. cbn in LL. lia.
    + exact NI.
    + rewrite !in_app_iff. tauto.
    + pose proof (size_max (a ++ name ++ b)). lia.
Qed.

Theorem xp_dir base name t : accepted name ->
  root_path base name t = base ++ [experiments_; name ++ [95] ++ stamp t].
Proof.
  intros H. destruct (accepted_facts name H) as [N1 N2]. unfold root_path, join, parts. f_equal.
  change (experiments_ ++ [47] ++ ?x) with (experiments_ ++ 47 :: x).
  rewrite split_cons by (cbn; intuition discriminate).
  assert (NI : ~ In 47 (name ++ [95] ++ stamp t)).
  { rewrite in_app_iff. intros [C|[C|C]]; [contradiction|discriminate C|]. revert C. apply stamp_none.
    unfold stamp_char. lia. }
  rewrite split_none by exact NI. cbn [rev app filter]. 
  replace (is_part experiments_) with true by reflexivity. f_equal.
  assert (LS : (2 <= length (name ++ 95%Z :: stamp t))%nat).
  { rewrite app_length. cbn [length]. destruct (stamp_chars t) as [_ ->]. lia. }
  destruct (name ++ 95 :: stamp t) as [|c [|d r]]; cbn in LS; try lia.
  replace (is_part (c :: d :: r)) with true; [reflexivity|].
  unfold is_part. destruct c as [|c|c]; try reflexivity. repeat (destruct c; try reflexivity).
Qed.

Theorem xp_file_name name t : accepted name -> ~ In 0 name -> file_name (name ++ [95] ++ stamp t).
Proof.
  intros H HZ. destruct (accepted_facts name H) as [N1 N2]. destruct (stamp_chars t) as [_ LS].
  assert (LL : (length (name ++ [95%Z] ++ stamp t) = length name + 20)%nat).
  { rewrite !app_length. cbn [length]. lia. }
  repeat split.
  - intros E. rewrite E in LL. cbn in LL. lia.
  - intros E. rewrite E in LL. cbn in LL. lia.
  - intros E. rewrite E in LL. cbn in LL. lia.
  - rewrite in_app_iff. intros [C|[C|C]]; [contradiction|discriminate C|]. revert C. apply stamp_none. unfold stamp_char. lia.
  - rewrite in_app_iff. intros [C|[C|C]]; [contradiction|discriminate C|]. revert C. apply stamp_none. unfold stamp_char. lia.
  - pose proof (size_max (name ++ [95] ++ stamp t)). lia.
Qed.

Theorem xp_distinct base n1 n2 t1 t2 : accepted n1 -> accepted n2 -> calendar t1 -> calendar t2 ->
  root_path base n1 t1 = root_path base n2 t2 -> n1 = n2 /\ t1 = t2.
Proof.
  intros A1 A2 C1 C2 E. rewrite !xp_dir in E by assumption. apply app_inv_head in E.
  pose proof (stamp_inj t1 t2 C1 C2) as SI.
  destruct (stamp_chars t1) as [_ L1]. destruct (stamp_chars t2) as [_ L2].
  revert E SI L1 L2. generalize (stamp t1) (stamp t2). intros s1 s2 E SI L1 L2. injection E as E.
  assert (LN : length n1 = length n2).
  { apply (f_equal (@length Z)) in E. rewrite !app_length in E. cbn [length] in E. lia. }
  assert (X : forall (a b c d : text), length a = length b -> a ++ c = b ++ d -> a = b /\ c = d).
  { induction a as [|x a IH]; intros [|y b] c d L EE; try discriminate L; [auto|].
    cbn in EE. injection EE as -> EE. injection L as L. destruct (IH b c d L EE) as [-> ->]. auto. }
  destruct (X _ _ _ _ LN E) as [-> E2]. split; [reflexivity|]. apply SI. congruence.
Qed.

Lemma join_inj p a b n1 n2 : ~ In 47 a -> ~ In 47 b -> (1 <= length a)%nat -> (length a + length b <= 31)%nat ->
  accepted n1 -> accepted n2 -> join p (a ++ n1 ++ b) = join p (a ++ n2 ++ b) -> n1 = n2.
Proof.
  intros Ha Hb La L A1 A2 E.
  rewrite (proj1 (named a n1 b Ha Hb A1 La L)), (proj1 (named a n2 b Ha Hb A2 La L)) in E.
  apply app_inv_head in E. injection E as E. apply app_inv_head, app_inv_tail in E. exact E.
Qed.

Lemma no_slash_fw i : ~ In 47 [102; 119; digit i; 95].
Proof. pose proof (digit_range i). cbn [In]. intros C. repeat destruct C as [C|C]; try lia; contradiction. Qed.
Lemma no_nul_fw i : ~ In 0 [102; 119; digit i; 95].
Proof. pose proof (digit_range i). cbn [In]. intros C. repeat destruct C as [C|C]; try lia; contradiction. Qed.
