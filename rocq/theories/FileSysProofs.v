(** Proofs about Writer construction and the file system. *)
From Coq Require Import QArith String Ascii DecimalString DecimalNat FinFun.
From Verif Require Import PyBase UartModel FileModel FileSpec.
From RecordUpdate Require Import RecordUpdate.
Open Scope Z_scope.

Lemma path_eqb_eq a b : path_eqb a b = true <-> a = b.
Proof.
  unfold path_eqb. rewrite andb_true_iff, !String.eqb_eq. destruct a, b; cbn. split.
  - intros [-> ->]; reflexivity.
  - intros [= -> ->]; auto.
Qed.
Lemma path_eqb_refl a : path_eqb a a = true.
Proof. apply path_eqb_eq; reflexivity. Qed.

Lemma lookup_store d p n q :
  lookup (store d p n) q = if path_eqb p q then Some n else lookup d q.
Proof. reflexivity. Qed.

Lemma exists_spec d p : exists_ d p = true <-> lookup d p <> None.
Proof. unfold exists_. destruct (lookup d p); split; congruence. Qed.
Lemma not_exists_spec d p : exists_ d p = false <-> lookup d p = None.
Proof. unfold exists_. destruct (lookup d p); split; congruence. Qed.

(* ------------------------------------------------------------------ counters *)

Lemma dec_inj a b : dec a = dec b -> a = b.
Proof.
  unfold dec. intros H.
  assert (E : NilEmpty.uint_of_string (NilEmpty.string_of_uint (Nat.to_uint a))
              = NilEmpty.uint_of_string (NilEmpty.string_of_uint (Nat.to_uint b))) by now rewrite H.
  rewrite !NilEmpty.usu in E. injection E as E.
  rewrite <- (Unsigned.of_to a), <- (Unsigned.of_to b), E. reflexivity.
Qed.

Lemma length_append s t : String.length (s ++ t) = (String.length s + String.length t)%nat.
Proof. induction s; cbn; congruence. Qed.
Lemma append_assoc s t u : ((s ++ t) ++ u = s ++ t ++ u)%string.
Proof. induction s; cbn; congruence. Qed.
Lemma append_nil s : (s ++ "" = s)%string.
Proof. induction s; cbn; congruence. Qed.
Lemma append_inj_l s t u : (s ++ t = s ++ u)%string -> t = u.
Proof. induction s as [|c s IH]; cbn; intros H; [exact H | injection H as H; auto]. Qed.
Lemma append_inj_r s t u : (s ++ u = t ++ u)%string -> s = t.
Proof.
  revert t. induction s as [|c s IH]; intros [|c' t] H; cbn in H; auto.
  - exfalso. apply (f_equal String.length) in H. cbn in H. rewrite length_append in H. lia.
  - exfalso. apply (f_equal String.length) in H. cbn in H. rewrite length_append in H. lia.
  - injection H as -> H. f_equal. eauto.
Qed.

Lemma candidate_inj p a b : candidate p a = candidate p b -> a = b.
Proof.
  unfold candidate. intros [= H]. apply append_inj_l in H. injection H as H.
  apply append_inj_r in H. apply dec_inj; exact H.
Qed.

Lemma unique_path_spec d p fuel c q :
  unique_path d p fuel c = Some q ->
  lookup d q = None
  /\ exists k, (c <= k)%nat /\ q = candidate p k
     /\ forall j, (c <= j < k)%nat -> lookup d (candidate p j) <> None.
Proof.
  revert c. induction fuel as [|fuel IH]; cbn; intros c H; [discriminate|].
  destruct (exists_ d (candidate p c)) eqn:E.
  - destruct (IH _ H) as (H1 & k & H2 & H3 & H4). split; [exact H1|]. exists k.
    split; [lia|]. split; [exact H3|]. intros j Hj.
    destruct (Nat.eq_dec j c) as [->|]; [now apply exists_spec | apply H4; lia].
  - injection H as <-. split; [now apply not_exists_spec|]. exists c.
    repeat split; [lia|]. intros; lia.
Qed.

(** If the loop gives up, all candidates it tried exist. *)
Lemma unique_path_none d p fuel c :
  unique_path d p fuel c = None ->
  forall j, (c <= j < c + fuel)%nat -> lookup d (candidate p j) <> None.
Proof.
  revert c. induction fuel as [|fuel IH]; cbn; intros c H j Hj; [lia|].
  destruct (exists_ d (candidate p c)) eqn:E; [|discriminate].
  destruct (Nat.eq_dec j c) as [->|]; [now apply exists_spec | apply (IH _ H); lia].
Qed.

Lemma lookup_in d p n : lookup d p = Some n -> In p (map fst d).
Proof.
  induction d as [|[q m] d IH]; cbn; [discriminate|].
  destruct (path_eqb q p) eqn:E; intros H; [left; now apply path_eqb_eq | right; auto].
Qed.

(** The loop ends: among length + 1 different names one is unused. *)
Lemma unique_path_total d p : unique_path d p (S (length d)) 0 <> None.
Proof.
  intros H. pose proof (unique_path_none _ _ _ _ H) as A.
  assert (Hincl : incl (map (candidate p) (seq 0 (S (length d)))) (map fst d)).
  { intros q Hq. apply in_map_iff in Hq. destruct Hq as (j & <- & Hj). apply in_seq in Hj.
    destruct (lookup d (candidate p j)) eqn:E; [now apply lookup_in in E|].
    exfalso. apply (A j); [lia | exact E]. }
  assert (Hnd : NoDup (map (candidate p) (seq 0 (S (length d))))).
  { apply Injective_map_NoDup; [|apply seq_NoDup]. intros a b. apply candidate_inj. }
  pose proof (NoDup_incl_length Hnd Hincl) as L. rewrite !map_length, seq_length in L. lia.
Qed.

(* ------------------------------------------------------------------ names *)

Lemma last_dot_none s : no_dot s -> forall n, last_dot n s = None.
Proof.
  induction s as [|c s IH]; cbn; intros H n; [reflexivity|].
  destruct H as [Hc Hs]. rewrite (IH Hs). destruct (Ascii.eqb_spec c "."%char); congruence.
Qed.

Lemma last_dot_app s t : no_dot t -> forall n,
  last_dot n (s ++ String "." t) = Some (n + String.length s)%nat.
Proof.
  intros Ht. induction s as [|c s IH]; cbn; intros n.
  - rewrite (last_dot_none _ Ht). f_equal; lia.
  - rewrite IH. f_equal; lia.
Qed.

Lemma substring_prefix s t : substring 0 (String.length s) (s ++ t) = s.
Proof. induction s; cbn; [destruct t; reflexivity | congruence]. Qed.
Lemma substring_all s : substring 0 (String.length s) s = s.
Proof. rewrite <- (append_nil s) at 2. apply substring_prefix. Qed.
Lemma substring_suffix s t : substring (String.length s) (String.length t) (s ++ t) = t.
Proof. induction s; cbn; [apply substring_all | auto]. Qed.

Lemma split_plain s t : s <> EmptyString -> t <> EmptyString -> no_dot t ->
  split_name (s ++ String "." t) = (s, String "." t).
Proof.
  intros Hs Ht Hd. unfold split_name. rewrite (last_dot_app _ _ Hd). cbn [Nat.add].
  rewrite length_append. cbn [String.length].
  assert (Ls : (0 < String.length s)%nat) by (destruct s; cbn; [congruence | lia]).
  assert (Lt : (0 < String.length t)%nat) by (destruct t; cbn; [congruence | lia]).
  destruct (Nat.ltb_spec 0 (String.length s)); [|lia].
  destruct (Nat.ltb_spec (S (String.length s)) (String.length s + S (String.length t))); [|lia].
  cbn [andb]. f_equal; [apply substring_prefix|].
  replace (String.length s + S (String.length t) - String.length s)%nat
    with (String.length (String "." t)) by (cbn; lia).
  apply substring_suffix.
Qed.

Lemma stem_nodot s : no_dot s -> stem s = s.
Proof. intros H. unfold stem, split_name. now rewrite (last_dot_none _ H). Qed.

Lemma candidate_plain dir s t k : s <> EmptyString -> t <> EmptyString -> no_dot s -> no_dot t ->
  candidate (dir, (s ++ "." ++ t)%string) k = (dir, (s ++ "." ++ dec k ++ "." ++ t)%string).
Proof.
  intros Hs Ht Ds Dt. unfold candidate, stem at 2, suffix. cbn [fst snd].
  change ("." ++ t)%string with (String "." t). rewrite (split_plain s t Hs Ht Dt). cbn [fst snd].
  rewrite (stem_nodot s Ds). reflexivity.
Qed.

(* ------------------------------------------------------------------ construction *)

Lemma choose_new a d p q :
  a_modify a = false -> a_overwrite a = false -> choose_path a d p = Ok q ->
  lookup d q = None
  /\ (lookup d p = None -> q = p)
  /\ (lookup d p <> None -> exists k, q = candidate p k
        /\ forall j, (j < k)%nat -> lookup d (candidate p j) <> None).
Proof.
  intros Hm Ho. unfold choose_path. rewrite Hm, Ho. cbn [orb].
  destruct (exists_ d p) eqn:E; cbn [negb].
  - intros H. assert (Hx : lookup d p <> None) by now apply exists_spec.
    destruct (lookup d p) as [[f| |]|] eqn:L; try congruence.
    + destruct (unique_path d p _ 0) eqn:U; [|discriminate]. injection H as <-.
      destruct (unique_path_spec _ _ _ _ _ U) as (H1 & k & _ & H3 & H4).
      repeat split; [exact H1 | congruence |]. intros _. exists k. split; [exact H3|].
      intros j Hj. apply H4. lia.
    + destruct (unique_path d p _ 0) eqn:U; [|discriminate]. injection H as <-.
      destruct (unique_path_spec _ _ _ _ _ U) as (H1 & k & _ & H3 & H4).
      repeat split; [exact H1 | congruence |]. intros _. exists k. split; [exact H3|].
      intros j Hj. apply H4. lia.
  - intros [= <-]. apply not_exists_spec in E. repeat split; auto. congruence.
Qed.

Lemma writer_init_new a d p d' r :
  a_modify a = false -> a_overwrite a = false -> writer_init a d p = (d', r) ->
  preserved d d'
  /\ forall q w, r = Ok (q, w) ->
     lookup d q = None
     /\ (lookup d p = None -> q = p)
     /\ (lookup d p <> None -> exists k, q = candidate p k
           /\ forall j, (j < k)%nat -> lookup d (candidate p j) <> None).
Proof.
  intros Hm Ho. unfold writer_init. rewrite Hm.
  destruct (choose_path a d p) as [q|e] eqn:C.
  - destruct (choose_new _ _ _ _ Hm Ho C) as (H1 & H2 & H3).
    rewrite H1. destruct (configure a skeleton) as [f' r'] eqn:K.
    intros [= <- <-]. split.
    + intros p' n Hn. rewrite lookup_store. destruct (path_eqb q p') eqn:E; [|exact Hn].
      apply path_eqb_eq in E. congruence.
    + intros q0 w Hr. destruct r' as [w'|e']; [|discriminate]. injection Hr as <- <-. auto.
  - intros [= <- <-]. split; [intros ? ?; auto | discriminate].
Qed.

(** A path that names a file is always accepted when nothing forces the name. *)
Lemma choose_ok a d p : lookup d p <> Some NDir -> exists q, choose_path a d p = Ok q.
Proof.
  intros H. unfold choose_path. destruct (_ || _ || _); [eauto|].
  destruct (lookup d p) as [[f| |]|]; try congruence;
    (destruct (unique_path d p _ 0) eqn:U; [eauto | exfalso; exact (unique_path_total _ _ U)]).
Qed.

(* ------------------------------------------------------------------ configuration of a new file *)

(** The content of a freshly configured file. *)
Definition fresh (mode : string) (d : dtype) (w : Z) (c : series) : h5 :=
  let ds p := Some (mkDset (Some (gain p)) (Some (offset p)) []) in
  mkH5 (Some mode) None None
    (Some (mkGrp (Some (dtype_name d)) (Some w) None (ds (c_time c)) (ds (c_voltage c)) (ds (c_current c)))).

Definition pos_series (c : series) : Prop :=
  (0 < gain (c_voltage c) /\ 0 < gain (c_current c) /\ 0 < gain (c_time c))%Q.

Lemma dtype_roundtrip d : dtype_of_name (dtype_name d) = Some d.
Proof. destruct d; reflexivity. Qed.

Lemma configure_skeleton a f r :
  configure a skeleton = (f, Ok r) ->
  exists mode d w,
    f = fresh mode d w (match a_cal a with Some c => c | None => series_default end)
    /\ r = mkReader f (match a_cal a with Some c => c | None => series_default end) stats_init 4000000
    /\ (exists l, mode_dtypes mode = Some l /\ dtype_in (Some d) l = true)
    /\ (d = ivcurve -> 1 <= w)
    /\ pos_series (match a_cal a with Some c => c | None => series_default end)
    /\ (forall m, a_mode a = Some m -> mode = m)
    /\ (forall s, a_datatype a = Some s -> dtype_of_name s = Some d)
    /\ (forall x, a_window a = Some x -> w = x).
Proof.
  destruct a as [am ad aw ac amod aov]. cbn [a_mode a_datatype a_window a_cal]. unfold configure.
  cbn [a_mode a_datatype a_window a_cal].
  set (mode := match am with Some m => m | None => "harvester"%string end).
  assert (S1 : step_mode am skeleton =
    match mode_dtypes mode with
    | None => (skeleton, Err ValueError)
    | Some l => (skeleton <| f_mode := Some mode |>, Ok l)
    end) by (destruct am as [m|]; reflexivity).
  rewrite S1; clear S1. destruct (mode_dtypes mode) as [l|] eqn:Em; [|discriminate].
  set (dt := match ad with Some s => dtype_of_name s | None => Some ivsample end).
  unfold step_datatype. destruct ad as [s|] eqn:Ead.
  - destruct (dtype_of_name s) as [d|] eqn:Es; [|discriminate].
    destruct (dtype_in (Some d) l) eqn:Ed; cbn [negb]; [|discriminate].
    cbn -[dtype_in dtype_of_name dtype_name step_window step_cal reader_init].
    rewrite dtype_roundtrip, Ed.
    unfold step_window. cbn -[dtype_in dtype_of_name dtype_name step_cal reader_init].
    set (w := match aw with Some x => x | None => 0 end).
    destruct (match d with ivcurve => true | _ => false end && (w <? 1)) eqn:Ew.
    { destruct aw; subst w; cbn -[dtype_name reader_init] in *; rewrite Ew; discriminate. }
    intros H. exists mode, d, w.
    assert (Hf : f = fresh mode d w (match ac with Some c => c | None => series_default end)
                 /\ reader_init f = Ok r).
    { destruct aw; subst w; cbn -[dtype_name reader_init] in *; rewrite Ew in H;
        destruct ac; cbn -[dtype_name reader_init] in H; apply pair_equal_spec in H; destruct H as [<- H]; (split; [reflexivity | exact H]). }
    destruct Hf as [Hf Hr]. rewrite Hf in Hr. split; [exact Hf|].
    unfold reader_init, pair_from in Hr.
    cbn -[Qle_bool stats_init dtype_name] in Hr.
    destruct (Qle_bool (gain (c_current _)) 0) eqn:G1 in Hr; [discriminate|].
    cbn -[Qle_bool stats_init dtype_name] in Hr.
    destruct (Qle_bool (gain (c_voltage _)) 0) eqn:G2 in Hr; [discriminate|].
    cbn -[Qle_bool stats_init dtype_name] in Hr.
    destruct (Qle_bool (gain (c_time _)) 0) eqn:G3 in Hr; [discriminate|].
    cbn -[Qle_bool stats_init dtype_name] in Hr. injection Hr as <-.
    assert (P : forall q, Qle_bool q 0 = false -> (0 < q)%Q).
    { intros q Hq. apply Qnot_le_lt. intros C. apply Qle_bool_iff in C. congruence. }
    split.
    { rewrite Hf. destruct ac as [[[? ?] [? ?] [? ?]]|]; reflexivity. }
    split; [exists l; auto|]. split.
    { intros ->. cbn in Ew. destruct (Z.ltb_spec w 1); [discriminate | lia]. }
    split; [repeat split; apply P; assumption|].
    split; [intros m Hm; unfold mode; rewrite Hm; reflexivity|].
    split; [intros s' [= <-]; exact Es|].
    intros x Hx; unfold w; rewrite Hx; reflexivity.
  - cbn -[dtype_in dtype_of_name dtype_name step_window step_cal reader_init].
    rewrite dtype_roundtrip.
    destruct (dtype_in (Some ivsample) l) eqn:Ed; [|discriminate].
    unfold step_window. cbn -[dtype_in dtype_of_name dtype_name step_cal reader_init].
    set (w := match aw with Some x => x | None => 0 end).
    intros H. exists mode, ivsample, w.
    assert (Hf : f = fresh mode ivsample w (match ac with Some c => c | None => series_default end)
                 /\ reader_init f = Ok r).
    { destruct aw; cbn -[dtype_name reader_init] in *;
        destruct ac; cbn -[dtype_name reader_init] in H; apply pair_equal_spec in H; destruct H as [<- H]; (split; [reflexivity | exact H]). }
    destruct Hf as [Hf Hr]. rewrite Hf in Hr. split; [exact Hf|].
    unfold reader_init, pair_from in Hr.
    cbn -[Qle_bool stats_init dtype_name] in Hr.
    destruct (Qle_bool (gain (c_current _)) 0) eqn:G1 in Hr; [discriminate|].
    cbn -[Qle_bool stats_init dtype_name] in Hr.
    destruct (Qle_bool (gain (c_voltage _)) 0) eqn:G2 in Hr; [discriminate|].
    cbn -[Qle_bool stats_init dtype_name] in Hr.
    destruct (Qle_bool (gain (c_time _)) 0) eqn:G3 in Hr; [discriminate|].
    cbn -[Qle_bool stats_init dtype_name] in Hr. injection Hr as <-.
    assert (P : forall q, Qle_bool q 0 = false -> (0 < q)%Q).
    { intros q Hq. apply Qnot_le_lt. intros C. apply Qle_bool_iff in C. congruence. }
    split.
    { rewrite Hf. destruct ac as [[[? ?] [? ?] [? ?]]|]; reflexivity. }
    split; [exists l; auto|]. split; [discriminate|].
    split; [repeat split; apply P; assumption|].
    split; [intros m Hm; unfold mode; rewrite Hm; reflexivity|].
    split; [discriminate|].
    intros x Hx; unfold w; rewrite Hx; reflexivity.
Qed.

(** A successful construction that does not modify an existing file starts from the skeleton. *)
Lemma writer_init_fresh a d p d' q w :
  a_modify a = false -> writer_init a d p = (d', Ok (q, w)) ->
  configure a skeleton = (r_file w, Ok w) /\ lookup d' q = Some (NFile (r_file w)).
Proof.
  intros Hm. unfold writer_init. rewrite Hm.
  destruct (choose_path a d p) as [q'|e]; [|discriminate].
  assert (H : (match lookup d q' with Some NDir => Err OSError | _ => Ok skeleton end = Err OSError)
           \/ (match lookup d q' with Some NDir => Err OSError | _ => Ok skeleton end = Ok skeleton)).
  { destruct (lookup d q') as [[| |]|]; auto. }
  destruct H as [-> | ->]; [discriminate|].
  destruct (configure a skeleton) as [f' r'] eqn:K. intros H.
  destruct r' as [w'|]; [|discriminate]. injection H as <- <- <-.
  destruct (configure_skeleton _ _ _ K) as (mode & dt & wn & Hf & Hr & _).
  subst w'. cbn [r_file]. split; [reflexivity|].
  rewrite lookup_store, path_eqb_refl. reflexivity.
Qed.
