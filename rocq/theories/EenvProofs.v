(** Proofs about EenvModel.v. *)
From Coq Require Import QArith Qabs Lqa Lia.
From Verif Require Import PyBase FixModel EenvModel EenvSpec.
From Verif Require FixProofs FileSiProofs UartModel.
Open Scope Z_scope.
Open Scope list_scope.

Lemma name_eqb_spec a b : name_eqb a b = true <-> a = b.
Proof.
  destruct a as [[a1 a2] a3], b as [[b1 b2] b3]. unfold name_eqb. rewrite !andb_true_iff, !Z.eqb_eq.
  split; [intros [[-> ->] ->]; reflexivity|intros [= -> -> ->]; auto].
Qed.

Section Dict.
Context {A : Set}.
Lemma put_absent n (x : A) d : ~ In n (map fst d) -> put name_eqb n x d = d ++ [(n, x)].
Proof.
  induction d as [|[k y] d IH]; intros H; [reflexivity|]. cbn [map fst In] in H. cbn [put].
  destruct (name_eqb n k) eqn:E; [apply name_eqb_spec in E; subst; intuition|]. rewrite IH by intuition. reflexivity.
Qed.
Lemma absent n (d : assoc name A) : ~ In n (map fst d) <-> get name_eqb n d = None.
Proof. symmetry. apply FixProofs.get_none, name_eqb_spec. Qed.
End Dict.

(** * Names *)
Lemma round_far a b : (1 < Qabs (a - b))%Q -> UartModel.qround a <> UartModel.qround b.
Proof.
  intros H E. pose proof (FileSiProofs.qround_half a) as A. pose proof (FileSiProofs.qround_half b) as B. rewrite E in A.
  apply Qabs_Qle_condition in A, B. destruct A as [A1 A2], B as [B1 B2].
  revert H. apply Qle_not_lt. apply Qabs_Qle_condition. split; lra.
Qed.

Lemma times_far a b : (1 # 1000 < Qabs (a - b))%Q -> (1 < Qabs (a * 1000 - b * 1000))%Q.
Proof.
  intros H. setoid_replace (a * 1000 - b * 1000)%Q with ((a - b) * 1000)%Q by ring. rewrite Qabs_Qmult.
  change (Qabs 1000)%Q with 1000%Q. lra.
Qed.

Section Config.
Variable energy : recording -> Q.
Variable duration_s : Z.
Variable repetitions : nat.
Notation name_of := (name_of duration_s repetitions).
Notation run := (run energy duration_s repetitions).
Notation runs := (runs energy duration_s repetitions).
Notation gen_file := (gen_file duration_s repetitions).
Notation gen_meta := (gen_meta energy duration_s repetitions).

Lemma far_names a b : far a b -> name_of (fst a) (snd a) <> name_of (fst b) (snd b).
Proof.
  intros [H|H] E; injection E as E1 E2; apply times_far, round_far in H; contradiction.
Qed.

Definition names (pairs : list (Q * Q)) := map (fun p => name_of (fst p) (snd p)) pairs.

Lemma usable_names pairs : ForallOrdPairs far pairs -> NoDup (names pairs).
Proof.
  induction 1 as [|a l H _ IH]; [constructor|]. cbn [names map]. constructor; [|exact IH].
  intros I'. apply in_map_iff in I'. destruct I' as [b [E I]]. rewrite Forall_forall in H. apply (far_names a b (H b I)). auto.
Qed.

(** * One run *)
Definition new_files (pairs : list (Q * Q)) := map (fun p => (name_of (fst p) (snd p), mkRec (fst p) (snd p) repetitions)) pairs.
Definition new_metas (pairs : list (Q * Q)) :=
  map (fun p => (name_of (fst p) (snd p), mkMeta (duration_s * Z.of_nat repetitions) (energy (mkRec (fst p) (snd p) repetitions)))) pairs.

Lemma run_full : 0 < duration_s -> (0 < repetitions)%nat -> sane energy -> forall pairs s,
  Forall (fun p => 0 < fst p /\ 0 < snd p)%Q pairs -> NoDup (names pairs) ->
  (forall n, In n (names pairs) -> ~ In n (map fst (s_files s)) /\ ~ In n (map fst (s_metas s))) ->
  run pairs None s = (mkState (s_files s ++ new_files pairs) (s_metas s ++ new_metas pairs), Goes None).
Proof.
  intros Hd Hr [_ Hs]. induction pairs as [|[v c] pairs IH]; intros s P N D.
  - cbn. rewrite !app_nil_r. destruct s; reflexivity.
  - inversion P as [|? ? [Pv Pc] P']; subst. inversion N as [|? ? N1 N2]; subst. cbn [fst snd] in *.
    destruct (D (name_of v c)) as [D1 D2]; [left; reflexivity|].
    cbn [EenvModel.run]. unfold EenvModel.gen_file. rewrite (proj1 (absent _ _) D1). cbn [spend].
    unfold EenvModel.gen_meta. cbn [s_files s_metas]. rewrite (proj1 (absent _ _) D2).
    rewrite FixProofs.get_put by apply name_eqb_spec. rewrite (proj2 (name_eqb_spec _ _) eq_refl). cbv zeta.
    assert (E : Qle_bool (energy (mkRec v c repetitions)) 0 || (duration_s * Z.of_nat repetitions <=? 0) = false).
    { apply orb_false_iff. split.
      - destruct (Qle_bool _ 0) eqn:E; [|reflexivity]. apply Qle_bool_iff in E. specialize (Hs v c repetitions Pv Pc Hr). lra.
      - apply Z.leb_gt. nia. }
    rewrite E. cbn [spend]. rewrite IH.
    + cbn [s_files s_metas]. rewrite !put_absent by assumption. cbn [new_files new_metas map fst snd]. rewrite <- !app_assoc. reflexivity.
    + exact P'.
    + exact N2.
    + intros n I. cbn [s_files s_metas]. rewrite !put_absent by assumption. rewrite !map_app, !in_app_iff. cbn [map fst In].
      destruct (D n) as [F1 F2]; [right; exact I|]. split; intros [X|[X|[]]]; try contradiction; subst n; contradiction.
Qed.

Lemma full_spec pairs : 0 < duration_s -> (0 < repetitions)%nat -> sane energy -> usable pairs ->
  exists s, run pairs None empty = (s, Goes None) /\ (forall p, In p pairs -> complete energy duration_s repetitions p s) /\
  List.length (s_files s) = List.length pairs /\ List.length (s_metas s) = List.length pairs /\ tells_duration duration_s s.
Proof.
  intros Hd Hr Hs [U1 U2]. rewrite (run_full Hd Hr Hs pairs empty U2 (usable_names _ U1)) by (intros n _; cbn; auto).
  eexists. split; [reflexivity|]. cbn [s_files s_metas empty app]. split; [|split; [|split]].
  - intros p I. exists (name_of (fst p) (snd p)). split; unfold new_files, new_metas; cbn [s_files s_metas];
      apply in_map_iff; exists p; auto.
  - apply map_length.
  - apply map_length.
  - intros n m r Im Ir. cbn [s_files s_metas] in *. apply in_map_iff in Im, Ir. destruct Im as [p [Ep _]], Ir as [q [Eq _]].
    injection Ep as _ <-. injection Eq as _ <-. reflexivity.
Qed.

(** * Runs on what is there *)
Definition has (s : state) (p : Q * Q) : Prop :=
  get name_eqb (name_of (fst p) (snd p)) (s_files s) <> None /\ get name_eqb (name_of (fst p) (snd p)) (s_metas s) <> None.

Lemma run_done pairs steps s : Forall (has s) pairs -> run pairs steps s = (s, Goes steps).
Proof.
  induction pairs as [|[v c] pairs IH]; intros H; [reflexivity|]. inversion H as [|? ? [H1 H2] H']; subst. cbn [fst snd] in *.
  cbn [EenvModel.run]. unfold EenvModel.gen_file. destruct (get name_eqb _ (s_files s)); [|contradiction].
  unfold EenvModel.gen_meta. destruct (get name_eqb _ (s_metas s)); [|contradiction]. apply IH, H'.
Qed.

Lemma put_keeps {A : Set} n k (x : A) d : get name_eqb n d <> None -> get name_eqb n (put name_eqb k x d) <> None.
Proof. intros H. rewrite FixProofs.get_put by apply name_eqb_spec. destruct (name_eqb n k); [discriminate|exact H]. Qed.

Lemma has_put_file p n r s : has s p -> has (mkState (put name_eqb n r (s_files s)) (s_metas s)) p.
Proof. intros [H1 H2]. split; cbn [s_files s_metas]; [apply put_keeps, H1|exact H2]. Qed.
Lemma has_put_meta p n r s : has s p -> has (mkState (s_files s) (put name_eqb n r (s_metas s))) p.
Proof. intros [H1 H2]. split; cbn [s_files s_metas]; [exact H1|apply put_keeps, H2]. Qed.

Lemma file_keeps v c steps s p : has s p -> has (fst (gen_file v c steps s)) p.
Proof.
  intros H. unfold EenvModel.gen_file. destruct (get _ _ _); [exact H|]. destruct (spend _ steps) as [st|[|k]]; cbn [fst]; try exact H; apply has_put_file, H.
Qed.
Lemma meta_keeps v c steps s p : has s p -> has (fst (gen_meta v c steps s)) p.
Proof.
  intros H. unfold EenvModel.gen_meta. destruct (get _ _ (s_metas s)); [exact H|]. destruct (get _ _ (s_files s)); [|exact H]. cbv zeta.
  destruct (_ || _); [exact H|]. destruct (spend 1 steps); cbn [fst]; [apply has_put_meta, H|exact H].
Qed.
Lemma run_keeps pairs : forall steps s p, has s p -> has (fst (run pairs steps s)) p.
Proof.
  induction pairs as [|[v c] pairs IH]; intros steps s p H; [exact H|]. cbn [EenvModel.run].
  pose proof (file_keeps v c steps s p H) as F. destruct (gen_file v c steps s) as [s1 [st| |e]]; cbn [fst] in *; try exact F.
  pose proof (meta_keeps v c st s1 p F) as M. destruct (gen_meta v c st s1) as [s2 [st'| |e]]; cbn [fst] in *; try exact M.
  apply IH, M.
Qed.

Lemma file_there v c steps s s' st : gen_file v c steps s = (s', Goes st) -> get name_eqb (name_of v c) (s_files s') <> None.
Proof.
  unfold EenvModel.gen_file. destruct (get name_eqb (name_of v c) (s_files s)) eqn:E.
  - intros [= <- _]. rewrite E. discriminate.
  - destruct (spend _ steps) as [x|[|k]]; intros [= <- _]. cbn [s_files].
    rewrite FixProofs.get_put by apply name_eqb_spec. rewrite (proj2 (name_eqb_spec _ _) eq_refl). discriminate.
Qed.
Lemma meta_there v c steps s s' st : get name_eqb (name_of v c) (s_files s) <> None -> gen_meta v c steps s = (s', Goes st) -> has s' (v, c).
Proof.
  intros F. unfold EenvModel.gen_meta. destruct (get name_eqb (name_of v c) (s_metas s)) eqn:E.
  - intros [= <- _]. split; cbn [fst snd]; [exact F|rewrite E; discriminate].
  - destruct (get _ _ (s_files s)) eqn:EF; [|discriminate]. cbv zeta. destruct (_ || _); [discriminate|].
    destruct (spend 1 steps); [|discriminate]. intros [= <- _]. split; cbn [fst snd s_files s_metas]; [rewrite EF; discriminate|].
    rewrite FixProofs.get_put by apply name_eqb_spec. rewrite (proj2 (name_eqb_spec _ _) eq_refl). discriminate.
Qed.

Lemma run_has pairs : forall steps s s' st, run pairs steps s = (s', Goes st) -> Forall (has s') pairs.
Proof.
  induction pairs as [|[v c] pairs IH]; intros steps s s' st H; [constructor|]. cbn [EenvModel.run] in H.
  destruct (gen_file v c steps s) as [s1 [st1| |e]] eqn:E1; try discriminate H.
  destruct (gen_meta v c st1 s1) as [s2 [st2| |e]] eqn:E2; try discriminate H.
  constructor; [|apply (IH _ _ _ _ H)].
  pose proof (run_keeps pairs st2 s2 (v, c) (meta_there _ _ _ _ _ _ (file_there _ _ _ _ _ _ E1) E2)) as K. rewrite H in K. exact K.
Qed.

Lemma again_spec pairs steps s s' st : run pairs steps s = (s', Goes st) -> forall steps', run pairs steps' s' = (s', Goes steps').
Proof. intros H steps'. apply run_done, (run_has _ _ _ _ _ H). Qed.

(** * Any history *)
Definition truthful (pairs : list (Q * Q)) (s : state) : Prop :=
  NoDup (map fst (s_files s)) /\ NoDup (map fst (s_metas s)) /\
  (forall n r, In (n, r) (s_files s) -> In (r_voltage r, r_current r) pairs /\ n = name_of (r_voltage r) (r_current r) /\ (r_reps r <= repetitions)%nat) /\
  (forall n m, In (n, m) (s_metas s) -> m_duration m = duration_s * Z.of_nat repetitions /\
     exists r, In (n, r) (s_files s) /\ m_energy m = energy r /\ (0 < m_energy m)%Q).

Lemma truth_file pairs v c steps s : In (v, c) pairs -> truthful pairs s -> truthful pairs (fst (gen_file v c steps s)).
Proof.
  intros I T. unfold EenvModel.gen_file. destruct (get name_eqb (name_of v c) (s_files s)) eqn:E; [exact T|].
  assert (K : forall k, (k <= repetitions)%nat -> truthful pairs (mkState (put name_eqb (name_of v c) (mkRec v c k) (s_files s)) (s_metas s))).
  { intros k Hk. apply absent in E. destruct T as [T1 [T2 [T3 T4]]]. split; [|split; [exact T2|split]]; cbn [s_files s_metas].
    - apply FixProofs.put_nodup; [apply name_eqb_spec|exact T1].
    - rewrite put_absent by exact E. intros n r In1. apply in_app_iff in In1. destruct In1 as [In1|[In1|[]]]; [apply T3, In1|].
      injection In1 as <- <-. cbn. auto.
    - intros n m In1. destruct (T4 n m In1) as [M1 [r [M2 [M3 M4]]]]. split; [exact M1|]. exists r. rewrite put_absent by exact E.
      split; [apply in_or_app; auto|auto]. }
  destruct steps as [k|]; cbn [spend]; [|apply K; lia]. destruct (Nat.leb_spec (S repetitions) k); cbn [fst]; [apply K; lia|].
  destruct k as [|k]; [exact T|]. apply K. lia.
Qed.

Lemma get_In n (d : assoc name recording) r : get name_eqb n d = Some r -> In (n, r) d.
Proof. apply FixProofs.get_in, name_eqb_spec. Qed.

Lemma truth_meta pairs v c steps s : truthful pairs s -> truthful pairs (fst (gen_meta v c steps s)).
Proof.
  intros T. unfold EenvModel.gen_meta. destruct (get name_eqb (name_of v c) (s_metas s)) eqn:E; [exact T|].
  destruct (get name_eqb (name_of v c) (s_files s)) as [r|] eqn:EF; [|exact T]. cbv zeta.
  destruct (Qle_bool (energy r) 0 || _) eqn:EB; [exact T|]. destruct (spend 1 steps) as [st|k]; cbn [fst]; [|exact T].
  apply absent in E. apply get_In in EF. apply orb_false_iff in EB. destruct EB as [EB _].
  destruct T as [T1 [T2 [T3 T4]]]. split; [exact T1|split; [|split; [exact T3|]]]; cbn [s_files s_metas].
  - apply FixProofs.put_nodup; [apply name_eqb_spec|exact T2].
  - rewrite put_absent by exact E. intros n m In1. apply in_app_iff in In1. destruct In1 as [In1|[In1|[]]]; [apply T4, In1|].
    injection In1 as <- <-. cbn [m_duration m_energy]. split; [reflexivity|]. exists r. split; [exact EF|]. split; [reflexivity|].
    apply Qnot_le_lt. intros C. apply Qle_bool_iff in C. rewrite C in EB. discriminate EB.
Qed.

Lemma truth_run all : forall pairs steps s, incl pairs all -> truthful all s -> truthful all (fst (run pairs steps s)).
Proof.
  induction pairs as [|[v c] pairs IH]; intros steps s I T; [exact T|]. cbn [EenvModel.run].
  pose proof (truth_file all v c steps s (I _ (or_introl eq_refl)) T) as F. destruct (gen_file v c steps s) as [s1 [st| |e]]; cbn [fst] in *; try exact F.
  pose proof (truth_meta all v c st s1 F) as M. destruct (gen_meta v c st s1) as [s2 [st'| |e]]; cbn [fst] in *; try exact M.
  apply IH; [|exact M]. intros x Hx. apply I. right. exact Hx.
Qed.

Lemma truth_runs pairs history : truthful pairs (runs pairs history empty).
Proof.
  unfold EenvModel.runs.
  assert (T : truthful pairs empty) by (split; [constructor|split; [constructor|split; intros ? ? []]]).
  revert T. generalize empty. induction history as [|h history IH]; intros s T; [exact T|]. cbn [fold_left]. apply IH, truth_run; [apply incl_refl|exact T].
Qed.

(** * Interrupted runs *)
Lemma interrupted v c pairs k : (k < repetitions)%nat ->
  run ((v, c) :: pairs) (Some (S k)) empty = (mkState [(name_of v c, mkRec v c k)] [], Interrupted).
Proof.
  intros H. cbn [EenvModel.run]. unfold EenvModel.gen_file. cbn [get s_files empty spend].
  destruct (Nat.leb_spec (S repetitions) (S k)); [lia|]. reflexivity.
Qed.

Lemma short_spec v c pairs k : (0 < k < repetitions)%nat -> 0 < duration_s -> (0 < energy (mkRec v c k))%Q ->
  let s := runs ((v, c) :: pairs) [Some (S k); None] empty in
  In (name_of v c, mkRec v c k) (s_files s) /\
  In (name_of v c, mkMeta (duration_s * Z.of_nat repetitions) (energy (mkRec v c k))) (s_metas s).
Proof.
  intros H Hd He s. unfold s, EenvModel.runs. cbn [fold_left]. rewrite interrupted by lia. cbn [fst].
  cbn [EenvModel.run]. unfold EenvModel.gen_file, EenvModel.gen_meta. cbn [get put s_files s_metas].
  rewrite (proj2 (name_eqb_spec _ _) eq_refl). cbn [get s_files s_metas].
  rewrite (proj2 (name_eqb_spec _ _) eq_refl). cbv zeta.
  assert (E : Qle_bool (energy (mkRec v c k)) 0 || (duration_s * Z.of_nat repetitions <=? 0) = false).
  { apply orb_false_iff. split; [|apply Z.leb_gt; nia]. destruct (Qle_bool _ 0) eqn:E; [|reflexivity]. apply Qle_bool_iff in E. lra. }
  rewrite E. cbn [spend put].
  set (s1 := mkState [(name_of v c, mkRec v c k)] [(name_of v c, mkMeta (duration_s * Z.of_nat repetitions) (energy (mkRec v c k)))]).
  assert (K : forall pairs steps s, In (name_of v c, mkRec v c k) (s_files s) ->
    In (name_of v c, mkMeta (duration_s * Z.of_nat repetitions) (energy (mkRec v c k))) (s_metas s) -> NoDup (map fst (s_files s)) -> NoDup (map fst (s_metas s)) ->
    In (name_of v c, mkRec v c k) (s_files (fst (run pairs steps s))) /\
    In (name_of v c, mkMeta (duration_s * Z.of_nat repetitions) (energy (mkRec v c k))) (s_metas (fst (run pairs steps s)))).
  { clear. induction pairs as [|[v' c'] pairs IH]; intros steps s H1 H2 N1 N2; [split; assumption|]. cbn [EenvModel.run].
    assert (F : In (name_of v c, mkRec v c k) (s_files (fst (gen_file v' c' steps s))) /\ s_metas (fst (gen_file v' c' steps s)) = s_metas s /\
      NoDup (map fst (s_files (fst (gen_file v' c' steps s))))).
    { unfold EenvModel.gen_file. destruct (get name_eqb (name_of v' c') (s_files s)) eqn:E; [auto|]. apply absent in E.
      destruct (spend _ steps) as [x|[|j]]; cbn [fst s_files s_metas]; [|auto|];
        (split; [rewrite put_absent by exact E; apply in_or_app; auto|split; [reflexivity|apply FixProofs.put_nodup; [apply name_eqb_spec|exact N1]]]). }
    destruct F as [F1 [F2 F3]]. destruct (gen_file v' c' steps s) as [s1 [st| |e]]; cbn [fst] in *; try (rewrite F2; split; assumption).
    assert (M : s_files (fst (gen_meta v' c' st s1)) = s_files s1 /\
      In (name_of v c, mkMeta (duration_s * Z.of_nat repetitions) (energy (mkRec v c k))) (s_metas (fst (gen_meta v' c' st s1))) /\
      NoDup (map fst (s_metas (fst (gen_meta v' c' st s1))))).
    { rewrite <- F2 in H2, N2. unfold EenvModel.gen_meta. destruct (get name_eqb (name_of v' c') (s_metas s1)) eqn:E; [auto|]. apply absent in E.
      destruct (get _ _ (s_files s1)); [|auto]. cbv zeta. destruct (_ || _); [auto|]. destruct (spend 1 st); [|auto]. cbn [fst s_files s_metas].
      split; [reflexivity|]. split; [rewrite put_absent by exact E; apply in_or_app; auto|apply FixProofs.put_nodup; [apply name_eqb_spec|exact N2]]. }
    destruct M as [M1 [M2 M3]]. destruct (gen_meta v' c' st s1) as [s2 [st'| |e]]; cbn [fst] in *; try (rewrite M1; split; assumption).
    apply IH; try rewrite M1; assumption. }
  apply K; cbn; auto; (constructor; [intros []|constructor]).
Qed.

Lemma stuck_run v c pairs steps : (energy (mkRec v c 0) == 0)%Q ->
  run ((v, c) :: pairs) steps (mkState [(name_of v c, mkRec v c 0)] []) = (mkState [(name_of v c, mkRec v c 0)] [], Failed ValueError).
Proof.
  intros H. cbn [EenvModel.run]. unfold EenvModel.gen_file, EenvModel.gen_meta. cbn [get put s_files s_metas].
  rewrite (proj2 (name_eqb_spec _ _) eq_refl). cbn [get s_files s_metas]. rewrite (proj2 (name_eqb_spec _ _) eq_refl). cbv zeta.
  assert (E : Qle_bool (energy (mkRec v c 0)) 0 = true) by (apply Qle_bool_iff; rewrite H; apply Qle_refl). rewrite E. reflexivity.
Qed.

Lemma stuck_spec v c pairs history : (0 < repetitions)%nat -> (energy (mkRec v c 0) == 0)%Q ->
  runs ((v, c) :: pairs) (Some 1%nat :: history) empty = mkState [(name_of v c, mkRec v c 0)] [].
Proof.
  intros Hr H. unfold EenvModel.runs. cbn [fold_left]. rewrite interrupted by exact Hr. cbn [fst].
  induction history as [|h history IH]; [reflexivity|]. cbn [fold_left]. rewrite stuck_run by exact H. exact IH.
Qed.

(** * Names that are printed the same *)
Lemma same_name v c v' c' s steps : name_of v c = name_of v' c' -> has s (v, c) ->
  gen_file v' c' steps s = (s, Goes steps) /\ gen_meta v' c' steps s = (s, Goes steps).
Proof.
  intros E [H1 H2]. cbn [fst snd] in *. rewrite E in H1, H2. unfold EenvModel.gen_file, EenvModel.gen_meta.
  destruct (get _ _ (s_files s)); [|contradiction]. destruct (get _ _ (s_metas s)); [|contradiction]. auto.
Qed.
End Config.

Lemma same_name_spec energy duration_s repetitions a b : 0 < duration_s -> (0 < repetitions)%nat -> sane energy ->
  (0 < fst a /\ 0 < snd a)%Q -> name_of duration_s repetitions (fst a) (snd a) = name_of duration_s repetitions (fst b) (snd b) ->
  run energy duration_s repetitions [a; b] None empty = run energy duration_s repetitions [a] None empty.
Proof.
  intros Hd Hr Hs Pa E. destruct (full_spec energy duration_s repetitions [a] Hd Hr Hs) as [s [F _]].
  { split; [repeat constructor|repeat constructor; apply Pa]. }
  pose proof (run_has _ _ _ _ _ _ _ _ F) as H. inversion H as [|? ? Ha _]; subst. rewrite F.
  destruct a as [v c], b as [v' c']. cbn [fst snd] in *. cbn [run] in F |- *.
  destruct (gen_file duration_s repetitions v c None empty) as [s1 [st| |e]]; try discriminate F.
  destruct (gen_meta energy duration_s repetitions v c st s1) as [s2 [st'| |e]]; try discriminate F.
  injection F as -> ->. destruct (same_name energy duration_s repetitions v c v' c' s None E Ha) as [E1 E2].
  rewrite E1, E2. reflexivity.
Qed.

(** * Steps *)
Lemma work_file n v c k s : get name_eqb n (s_files s) = None ->
  work (mkState (put name_eqb n (mkRec v c k) (s_files s)) (s_metas s)) = (S k + work s)%nat.
Proof.
  intros E. apply absent in E. unfold work. cbn [s_files s_metas]. rewrite put_absent by exact E. rewrite fold_right_app. cbn [fold_right snd r_reps].
  assert (G : forall (l : assoc name recording) a, (fold_right (fun e n => S (r_reps (snd e)) + n) a l = a + fold_right (fun e n => S (r_reps (snd e)) + n) 0 l)%nat).
  { induction l as [|e l IH]; intros a; cbn [fold_right]; [lia|]. rewrite IH. lia. }
  rewrite (G _ (S k + 0)%nat). lia.
Qed.
Lemma work_meta n m s : get name_eqb n (s_metas s) = None ->
  work (mkState (s_files s) (put name_eqb n m (s_metas s))) = S (work s).
Proof. intros E. apply absent in E. unfold work. cbn [s_files s_metas]. rewrite put_absent by exact E. rewrite app_length. cbn. lia. Qed.

Definition counted (s : state) (k : nat) (r : state * outcome) : Prop :=
  match snd r with
  | Goes (Some j) => (work (fst r) + j = work s + k)%nat
  | Goes None => False
  | Interrupted => (work (fst r) = work s + k)%nat
  | Failed _ => (work (fst r) <= work s + k)%nat
  end.

Lemma counted_file d n v c k s : counted s k (gen_file d n v c (Some k) s).
Proof.
  unfold gen_file. destruct (get _ _ _) eqn:E; [unfold counted; cbn [fst snd]; lia|]. cbn [spend].
  destruct (Nat.leb_spec (S n) k) as [L|L].
  - unfold counted. cbn [fst snd]. rewrite work_file by exact E. lia.
  - destruct k as [|k]; unfold counted; cbn [fst snd]; [lia|]. rewrite work_file by exact E. lia.
Qed.
Lemma counted_meta energy d n v c k s : counted s k (gen_meta energy d n v c (Some k) s).
Proof.
  unfold gen_meta. destruct (get _ _ (s_metas s)) eqn:E; [unfold counted; cbn [fst snd]; lia|].
  destruct (get _ _ (s_files s)); [|unfold counted; cbn [fst snd]; lia]. cbv zeta.
  destruct (_ || _); [unfold counted; cbn [fst snd]; lia|]. cbn [spend]. destruct (Nat.leb_spec 1 k) as [L|L].
  - unfold counted. cbn [fst snd]. rewrite work_meta by exact E. lia.
  - unfold counted. cbn [fst snd]. lia.
Qed.
Lemma counted_run energy d n : forall pairs k s, counted s k (run energy d n pairs (Some k) s).
Proof.
  induction pairs as [|[v c] pairs IH]; intros k s; [unfold counted; cbn; lia|]. cbn [run].
  pose proof (counted_file d n v c k s) as F. destruct (gen_file d n v c (Some k) s) as [s1 [[j|]| |e]]; try exact F; [|destruct F].
  unfold counted in F. cbn [fst snd] in F.
  pose proof (counted_meta energy d n v c j s1) as M. destruct (gen_meta energy d n v c (Some j) s1) as [s2 [[i|]| |e]]; unfold counted in M |- *; cbn [fst snd] in M |- *; try lia; try (destruct M; fail).
  specialize (IH i s2). unfold counted in IH. destruct (snd (run energy d n pairs (Some i) s2)) as [[h|]| |e]; try lia.
Qed.
