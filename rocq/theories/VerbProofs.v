(** Proofs about VerbModel.v. *)
From Coq Require Import String.
From Verif Require Import PyBase VerbModel VerbSpec.
From Coq Require Import Lia.
Open Scope Z_scope.
Open Scope list_scope.

Lemma name_eqb_refl n : name_eqb n n = true.
Proof. unfold name_eqb. destruct (list_eq_dec _ n n); congruence. Qed.
Lemma name_eqb_neq a b : a <> b -> name_eqb a b = false.
Proof. unfold name_eqb. destruct (list_eq_dec _ a b); congruence. Qed.

Lemma own_same n v s : own_level n (set_level n v s) = Some v.
Proof. unfold own_level. cbn. rewrite name_eqb_refl. reflexivity. Qed.
Lemma own_other n m v s : m <> n -> own_level n (set_level m v s) = own_level n s.
Proof. intros H. unfold own_level. cbn. rewrite name_eqb_neq by exact H. reflexivity. Qed.
Lemma own_source n s : own_level n (no_source s) = own_level n s.
Proof. reflexivity. Qed.
Lemma own_verbose n v s : own_level n (set_verbose v s) = own_level n s.
Proof. reflexivity. Qed.

Lemma set_verbose_level_other n m v s : m <> n -> own_level n (set_log_verbose_level m v s) = own_level n s.
Proof.
  intros H. unfold set_log_verbose_level.
  destruct (v =? 0), (v =? 1), (v =? 2), (2 <? v), (v <? 3); cbn zeta; rewrite ?own_source, ?own_other by exact H; reflexivity.
Qed.

Lemma set_verbose_level_same n v l s : documented v l -> own_level n (set_log_verbose_level n v s) = Some l.
Proof.
  intros D; destruct D as [| | |v0 H]; [exact (own_same n 40 s)|exact (own_same n 30 s)|exact (own_same n 20 s)|].
  unfold set_log_verbose_level. replace (v0 =? 0) with false by lia. replace (v0 =? 1) with false by lia. replace (v0 =? 2) with false by lia.
  replace (2 <? v0) with true by lia. cbn zeta. replace (v0 <? 3) with false by lia. apply own_same.
Qed.

Lemma set_verbose_level_neg n m v s : v < 0 -> own_level n (set_log_verbose_level m v s) = own_level n s.
Proof.
  intros H. unfold set_log_verbose_level. replace (v =? 0) with false by lia. replace (v =? 1) with false by lia.
  replace (v =? 2) with false by lia. replace (2 <? v) with false by lia. cbn zeta. destruct (v <? 3); reflexivity.
Qed.

Lemma level_set n v s : l_verbose (set_log_verbose_level n v s) = l_verbose s.
Proof.
  unfold set_log_verbose_level. destruct (v =? 0), (v =? 1), (v =? 2), (2 <? v), (v <? 3); reflexivity.
Qed.
Lemma level_open n v s : l_verbose (open_with n v s) = l_verbose s.
Proof. destruct v; reflexivity. Qed.
Lemma level_cli v k s : l_verbose (cli v k s) = l_verbose s.
Proof.
  unfold cli. cbn zeta. rewrite level_set. rewrite <- (level_set data_cli (if v then 3 else 2) s) at 2.
  generalize (2 <? l_verbose s). intros b. induction k as [|k IH]; [reflexivity|]. cbn [Nat.iter nat_rect].
  unfold Nat.iter in IH. rewrite level_open. exact IH.
Qed.
Lemma level_increase v s : 2 <= l_verbose s <= 3 ->
  l_verbose (increase_verbose_level v s) = if 3 <=? v then 3 else l_verbose s.
Proof.
  intros H. unfold increase_verbose_level. destruct (l_verbose s <=? v) eqn:E.
  - cbn zeta. rewrite level_set. cbn [set_verbose l_verbose]. destruct (3 <=? v) eqn:E'; lia.
  - destruct (3 <=? v) eqn:E'; lia.
Qed.

(** ** Invariant: the level is 3 if it was raised, or else 2 *)
Lemma level_step s o : 2 <= l_verbose s <= 3 ->
  l_verbose (step s o) = match o with Increase v => if 3 <=? v then 3 else l_verbose s | _ => l_verbose s end.
Proof.
  intros H. destruct o as [v|n v|v|v|v|v k]; cbn [step].
  - apply level_increase, H.
  - apply level_set.
  - apply level_open.
  - apply level_open.
  - reflexivity.
  - apply level_cli.
Qed.

Lemma level_stays : forall ops s, l_verbose s = 3 -> l_verbose (fold_left step ops s) = 3.
Proof.
  induction ops as [|o ops IH]; intros s H; [exact H|]. cbn [fold_left]. apply IH.
  rewrite level_step by lia. destruct o; try exact H. destruct (3 <=? verbose); [reflexivity|exact H].
Qed.

Lemma level_fold : forall ops s, 2 <= l_verbose s <= 3 ->
  (raised ops -> l_verbose (fold_left step ops s) = 3) /\
  (~ raised ops -> l_verbose (fold_left step ops s) = l_verbose s).
Proof.
  induction ops as [|o ops IH]; intros s H; cbn [fold_left].
  - split; [intros [v [[] _]]|reflexivity].
  - pose proof (level_step s o H) as E.
    assert (H' : 2 <= l_verbose (step s o) <= 3).
    { rewrite E. destruct o; try exact H. destruct (3 <=? verbose); lia. }
    specialize (IH (step s o) H'). destruct IH as [IH1 IH2].
    split.
    + intros [v [[->|HI] Hv]].
      * replace (3 <=? v) with true in E by lia. apply level_stays, E.
      * apply IH1. exists v. auto.
    + intros N. assert (N' : ~ raised ops) by (intros [v [HI Hv]]; apply N; exists v; split; [right; exact HI|exact Hv]).
      rewrite (IH2 N'), E. destruct o; try reflexivity. destruct (3 <=? verbose) eqn:E'; [|reflexivity].
      elim N. exists verbose. split; [left; reflexivity|lia].
Qed.

Lemma level_run ops : (raised ops -> l_verbose (run ops) = 3) /\ (~ raised ops -> l_verbose (run ops) = 2).
Proof. apply (level_fold ops imported). vm_compute. split; discriminate. Qed.

Lemma level_range ops : 2 <= l_verbose (run ops) <= 3.
Proof.
  unfold run. assert (H : 2 <= l_verbose imported <= 3) by (vm_compute; split; discriminate). revert H. generalize imported.
  induction ops as [|o ops IH]; intros s H; [exact H|]. cbn [fold_left]. apply IH. rewrite level_step by exact H.
  destruct o; try exact H. destruct (3 <=? verbose); lia.
Qed.

Lemma level_never_lower ops more : l_verbose (run ops) <= l_verbose (run (ops ++ more)).
Proof.
  unfold run. rewrite fold_left_app. pose proof (level_range ops) as H. unfold run in H. revert H.
  generalize (fold_left step ops imported). intros s H.
  assert (X : forall more t, 2 <= l_verbose t <= 3 -> l_verbose t <= l_verbose (fold_left step more t)).
  { clear. induction more as [|o more IH]; intros t H; [cbn; lia|]. cbn [fold_left].
    assert (E : l_verbose t <= l_verbose (step t o) <= 3).
    { rewrite level_step by exact H. destruct o; try lia. destruct (3 <=? verbose); lia. }
    specialize (IH (step t o)). lia. }
  apply X, H.
Qed.

(** ** The logger of the package follows the level *)
Lemma own_open n m v s : m <> n -> own_level n (open_with m v s) = own_level n s.
Proof. intros H. destruct v; [apply own_other, H|reflexivity]. Qed.
Lemma own_iter n m b k s : m <> n -> own_level n (Nat.iter k (open_with m (Some b)) s) = own_level n s.
Proof.
  intros H. induction k as [|k IH]; [reflexivity|]. cbn [Nat.iter nat_rect]. unfold Nat.iter in IH. rewrite own_open by exact H. exact IH.
Qed.

Definition of_level (v : Z) : Z := if v =? 3 then 10 else 20.

Lemma core_step s o : 2 <= l_verbose s <= 3 -> own_level core s = Some (of_level (l_verbose s)) ->
  (forall v, o <> SetVerbose core v) -> own_level core (step s o) = Some (of_level (l_verbose (step s o))).
Proof.
  intros H HC N. rewrite level_step by exact H. destruct o as [v|n v|v|v|v|v k]; cbn [step].
  - unfold increase_verbose_level. destruct (l_verbose s <=? v) eqn:E.
    + cbn zeta. apply set_verbose_level_same. unfold of_level. destruct (3 <=? v) eqn:E'.
      * replace (Z.min (Z.max v 0) 3) with 3 by lia. cbn. constructor. lia.
      * replace (Z.min (Z.max v 0) 3) with 2 by lia. replace (l_verbose s) with 2 by lia. cbn. constructor.
    + replace (3 <=? v) with false by lia. exact HC.
  - rewrite set_verbose_level_other; [exact HC|]. intros ->. exact (N v eq_refl).
  - rewrite own_open by discriminate. exact HC.
  - rewrite own_open by discriminate. exact HC.
  - unfold open_ivonne. rewrite own_other by discriminate. exact HC.
  - unfold cli. cbn zeta. rewrite own_iter by discriminate. rewrite set_verbose_level_other by discriminate. exact HC.
Qed.

Lemma core_run ops root : untouched core ops ->
  (raised ops -> effective root core (run ops) = 10) /\ (~ raised ops -> effective root core (run ops) = 20).
Proof.
  intros HU. assert (X : own_level core (run ops) = Some (of_level (l_verbose (run ops)))).
  { unfold run. assert (H : 2 <= l_verbose imported <= 3) by (vm_compute; split; discriminate).
    assert (HC : own_level core imported = Some (of_level (l_verbose imported))) by reflexivity.
    revert H HC HU. generalize imported. induction ops as [|o ops IH]; intros s H HC HU; [exact HC|]. cbn [fold_left]. apply IH.
    - rewrite level_step by exact H. destruct o; try exact H. destruct (3 <=? verbose); lia.
    - apply core_step; [exact H|exact HC|]. intros v ->. exact (HU v (or_introl eq_refl)).
    - intros v HI. exact (HU v (or_intror HI)). }
  destruct (level_run ops) as [L1 L2]. cbn [effective core]. fold core. rewrite X. unfold of_level.
  split; intros R; [rewrite (L1 R)|rewrite (L2 R)]; reflexivity.
Qed.

(** ** Readers of the cli *)
Lemma cli_readers ops v k root : (0 < k)%nat ->
  (raised ops -> effective root core_reader (run (ops ++ [Cli v k])) = 10) /\
  (~ raised ops -> effective root core_reader (run (ops ++ [Cli v k])) = 20).
Proof.
  intros K. destruct (level_run ops) as [L1 L2]. unfold run. rewrite fold_left_app. cbn [fold_left step].
  fold (run ops). unfold cli. cbn zeta. rewrite level_set. destruct k as [|k]; [lia|]. cbn [Nat.iter nat_rect open_with effective core_reader].
  fold core_reader. rewrite own_same. split; intros R; [rewrite (L1 R)|rewrite (L2 R)]; reflexivity.
Qed.

Lemma cli_own ops v k root : effective root data_cli (run (ops ++ [Cli v k])) = if v then 10 else 20.
Proof.
  unfold run. rewrite fold_left_app. cbn [fold_left step]. unfold cli. cbn zeta. cbn [effective data_cli]. fold data_cli.
  rewrite own_iter by discriminate. destruct v; (erewrite set_verbose_level_same; [reflexivity|]); constructor. lia.
Qed.

(** ** Loggers are shared *)
Lemma reader_last ops b root : effective root core_reader (run (ops ++ [OpenReader (Some b)])) = if b then 10 else 20.
Proof.
  unfold run. rewrite fold_left_app. cbn [fold_left step open_with effective core_reader]. fold core_reader.
  rewrite own_same. destruct b; reflexivity.
Qed.

(** ** Where a message comes from *)
Lemma source_set n v s : l_source s = false -> l_source (set_log_verbose_level n v s) = false.
Proof.
  intros H. unfold set_log_verbose_level.
  destruct (v =? 0), (v =? 1), (v =? 2), (2 <? v), (v <? 3); cbn; try reflexivity; exact H.
Qed.
Lemma source_open n v s : l_source (open_with n v s) = l_source s.
Proof. destruct v; reflexivity. Qed.
Lemma source_iter n v k s : l_source (Nat.iter k (open_with n v) s) = l_source s.
Proof. induction k as [|k IH]; [reflexivity|]. cbn [Nat.iter nat_rect]. unfold Nat.iter in IH. rewrite source_open. exact IH. Qed.

Lemma source_lost ops : l_source (run ops) = false.
Proof.
  unfold run. assert (H : l_source imported = false) by reflexivity. revert H. generalize imported.
  induction ops as [|o ops IH]; intros s H; [exact H|]. cbn [fold_left]. apply IH.
  destruct o as [v|n v|v|v|v|v k]; cbn [step].
  - unfold increase_verbose_level. destruct (l_verbose s <=? v); [|exact H]. apply source_set, H.
  - apply source_set, H.
  - rewrite source_open. exact H.
  - rewrite source_open. exact H.
  - exact H.
  - unfold cli. cbn zeta. rewrite source_iter. apply source_set, H.
Qed.

Definition details (s : logs) : bool * bool * bool := (l_source s, l_threads s, l_processes s).
Lemma details_set n v s : details s = (false, false, false) -> details (set_log_verbose_level n v s) = (false, false, false).
Proof.
  intros H. unfold set_log_verbose_level.
  destruct (v =? 0), (v =? 1), (v =? 2), (2 <? v), (v <? 3); cbn; try reflexivity; exact H.
Qed.
Lemma details_open n v s : details (open_with n v s) = details s.
Proof. destruct v; reflexivity. Qed.
Lemma details_iter n v k s : details (Nat.iter k (open_with n v) s) = details s.
Proof. induction k as [|k IH]; [reflexivity|]. cbn [Nat.iter nat_rect]. unfold Nat.iter in IH. rewrite details_open. exact IH. Qed.

Lemma details_lost ops : details (run ops) = (false, false, false).
Proof.
  unfold run. assert (H : details imported = (false, false, false)) by reflexivity. revert H. generalize imported.
  induction ops as [|o ops IH]; intros s H; [exact H|]. cbn [fold_left]. apply IH.
  destruct o as [v|n v|v|v|v|v k]; cbn [step].
  - unfold increase_verbose_level. destruct (l_verbose s <=? v); [|exact H]. apply details_set, H.
  - apply details_set, H.
  - rewrite details_open. exact H.
  - rewrite details_open. exact H.
  - exact H.
  - unfold cli. cbn zeta. rewrite details_iter. apply details_set, H.
Qed.

Lemma ivonne_last ops b root : effective root data_ivonne (run (ops ++ [OpenIvonne b])) = if b then 20 else 30.
Proof.
  unfold run. rewrite fold_left_app. cbn [fold_left step open_ivonne effective data_ivonne]. fold data_ivonne.
  unfold open_ivonne. rewrite own_same. destruct b; reflexivity.
Qed.

(** ** What readers show until the next reader is opened *)
Definition leaves_readers (o : op) : Prop :=
  (forall v, o <> SetVerbose core_reader v) /\ (forall b, o <> OpenReader (Some b)) /\ (forall b k, o <> Cli b (S k)).

Lemma reader_step s o : leaves_readers o -> own_level core_reader (step s o) = own_level core_reader s.
Proof.
  intros [H1 [H2 H3]]. destruct o as [v|n v|v|v|v|v k]; cbn [step].
  - unfold increase_verbose_level. destruct (l_verbose s <=? v); [|reflexivity]. cbn zeta.
    rewrite set_verbose_level_other by discriminate. apply own_verbose.
  - apply set_verbose_level_other. intros ->. exact (H1 v eq_refl).
  - destruct v as [b|]; [elim (H2 b eq_refl)|reflexivity].
  - apply own_open. discriminate.
  - apply own_other. discriminate.
  - destruct k as [|k]; [|elim (H3 v k eq_refl)]. cbn. apply (set_verbose_level_other core_reader data_cli). discriminate.
Qed.

Lemma reader_kept ops b more root :
  Forall (fun o => (forall v, o <> SetVerbose core_reader v) /\ (forall b, o <> OpenReader (Some b)) /\ (forall b k, o <> Cli b (S k))) more ->
  effective root core_reader (run (ops ++ OpenReader (Some b) :: more)) = if b then 10 else 20.
Proof.
  intros H. assert (X : own_level core_reader (run (ops ++ OpenReader (Some b) :: more)) = Some (if b then 10 else 20)).
  { unfold run. rewrite fold_left_app. cbn [fold_left].
    assert (E : own_level core_reader (step (fold_left step ops imported) (OpenReader (Some b))) = Some (if b then 10 else 20))
      by (cbn [step open_with]; rewrite own_same; destruct b; reflexivity).
    revert E. generalize (step (fold_left step ops imported) (OpenReader (Some b))).
    induction H as [|o more Ho _ IH]; intros s E; [exact E|]. cbn [fold_left]. apply IH. rewrite reader_step by exact Ho. exact E. }
  cbn [effective core_reader]. fold core_reader. rewrite X. reflexivity.
Qed.

(** ** Loggers by their names *)
Lemma writer_last ops b root : effective root core_writer (run (ops ++ [OpenWriter (Some b)])) = if b then 10 else 20.
Proof.
  unfold run. rewrite fold_left_app. cbn [fold_left step open_with effective core_writer]. fold core_writer.
  rewrite own_same. destruct b; reflexivity.
Qed.
