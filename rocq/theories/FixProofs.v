(** Proofs about the fixture database. *)
From Coq Require Import String Ascii Relations ListDec.
From Verif Require Import PyBase FixModel FixSpec.
Open Scope list_scope.

(** * Text *)

Lemma value_eqb_spec a b : value_eqb a b = true <-> a = b.
Proof.
  destruct a, b; cbn; try (split; [discriminate|intros H; discriminate H]).
  - rewrite String.eqb_eq. split; congruence.
  - rewrite Z.eqb_eq. split; congruence.
  - rewrite String.eqb_eq. split; congruence.
Qed.

Lemma lower_ascii_cases c :
  (letter_of_case c (lower_ascii c)) \/
  (lower_ascii c = c /\ ~ (65 <= nat_of_ascii c <= 90)%nat).
Proof.
  unfold lower_ascii, letter_of_case.
  destruct ((65 <=? nat_of_ascii c)%nat && (nat_of_ascii c <=? 90)%nat) eqn:E.
  - left. apply andb_true_iff in E. rewrite !Nat.leb_le in E. split; [lia|].
    rewrite nat_ascii_embedding; lia.
  - right. split; [reflexivity|]. intros H. apply andb_false_iff in E.
    rewrite !Nat.leb_gt in E. lia.
Qed.

Lemma nat_of_ascii_inj c d : nat_of_ascii c = nat_of_ascii d -> c = d.
Proof. intros H. rewrite <- (ascii_nat_embedding c), <- (ascii_nat_embedding d), H. reflexivity. Qed.

Lemma letter_lower c d : letter_of_case c d -> lower_ascii c = lower_ascii d.
Proof.
  intros H. unfold letter_of_case in H.
  destruct (lower_ascii_cases c) as [A|A]; [|tauto].
  destruct (lower_ascii_cases d) as [B|[B1 B2]]; unfold letter_of_case in *; [lia|].
  rewrite B1. apply nat_of_ascii_inj. lia.
Qed.

Lemma lower_same s t : same_text s t -> lower s = lower t.
Proof.
  induction 1; cbn; [reflexivity| | |]; f_equal; auto using letter_lower.
  symmetry. auto using letter_lower.
Qed.

Lemma same_lower s t : lower s = lower t -> same_text s t.
Proof.
  revert t. induction s as [|c s IH]; intros [|d t]; cbn; intros H; try discriminate.
  - constructor.
  - injection H as Hc Hs. apply IH in Hs.
    destruct (lower_ascii_cases c) as [A|[A1 A2]], (lower_ascii_cases d) as [B|[B1 B2]].
    + rewrite Hc in A. unfold letter_of_case in A, B.
      assert (c = d) as -> by (apply nat_of_ascii_inj; lia). constructor. exact Hs.
    + rewrite Hc, B1 in A. apply same_up; assumption.
    + rewrite A1 in Hc. rewrite <- Hc in B. apply same_down; assumption.
    + assert (c = d) as -> by congruence. constructor. exact Hs.
Qed.

Lemma same_iff s t : same_text s t <-> lower s = lower t.
Proof. split; [apply lower_same|apply same_lower]. Qed.

Lemma lower_lower s : lower (lower s) = lower s.
Proof.
  induction s as [|c s IH]; cbn; [reflexivity|]. f_equal; [|exact IH].
  destruct (lower_ascii_cases c) as [A|[A1 A2]].
  - symmetry. exact (letter_lower _ _ A).
  - rewrite A1. exact A1.
Qed.

Lemma lower_digit c : (48 <= nat_of_ascii c <= 57)%nat -> lower_ascii c = c.
Proof.
  intros H. destruct (lower_ascii_cases c) as [A|[A1 A2]]; [unfold letter_of_case in A; lia|exact A1].
Qed.

Lemma digits_fold s acc :
  Forall (fun c => 48 <= nat_of_ascii c <= 57)%nat (list_ascii_of_string s) ->
  digits s acc =
  Some (fold_left (fun n c => 10 * n + (Z.of_nat (nat_of_ascii c) - 48))%Z
                  (list_ascii_of_string s) acc).
Proof.
  revert acc. induction s as [|c s IH]; intros acc H; cbn [digits list_ascii_of_string fold_left];
    [reflexivity|].
  cbn [list_ascii_of_string] in H. inversion H as [|? ? H1 H2]; subst.
  unfold digit. replace ((48 <=? nat_of_ascii c)%nat && (nat_of_ascii c <=? 57)%nat) with true
    by (symmetry; apply andb_true_iff; rewrite !Nat.leb_le; lia).
  rewrite IH by exact H2. do 2 f_equal. lia.
Qed.

Lemma digits_none s acc :
  ~ Forall (fun c => 48 <= nat_of_ascii c <= 57)%nat (list_ascii_of_string s) ->
  digits s acc = None.
Proof.
  revert acc. induction s as [|c s IH]; intros acc H; cbn [digits list_ascii_of_string] in *.
  - exfalso. apply H. constructor.
  - unfold digit. destruct ((48 <=? nat_of_ascii c)%nat && (nat_of_ascii c <=? 57)%nat) eqn:E;
      [|reflexivity].
    apply andb_true_iff in E. rewrite !Nat.leb_le in E. apply IH. intros F. apply H.
    constructor; [lia|exact F].
Qed.

Lemma lower_digits s :
  Forall (fun c => 48 <= nat_of_ascii c <= 57)%nat (list_ascii_of_string s) -> lower s = s.
Proof.
  induction s as [|c s IH]; cbn; [reflexivity|]. intros H. inversion H; subst.
  rewrite lower_digit by lia. rewrite IH by assumption. reflexivity.
Qed.

Lemma digits_lower s :
  Forall (fun c => 48 <= nat_of_ascii c <= 57)%nat (list_ascii_of_string (lower s)) ->
  Forall (fun c => 48 <= nat_of_ascii c <= 57)%nat (list_ascii_of_string s).
Proof.
  induction s as [|c s IH]; cbn; [auto|]. intros H. inversion H as [|? ? H1 H2]; subst.
  constructor; [|auto].
  destruct (lower_ascii_cases c) as [A|[A1 A2]]; [unfold letter_of_case in A; lia|].
  rewrite A1 in H1. exact H1.
Qed.

Lemma int_of_key_digits s : all_digits s -> int_of_key (lower s) = Some (number s).
Proof.
  intros [Hne H]. rewrite lower_digits by exact H.
  destruct s as [|c s]; [contradiction|]. unfold int_of_key, number.
  rewrite digits_fold by exact H. reflexivity.
Qed.

Lemma int_of_key_none s : ~ all_digits s -> int_of_key (lower s) = None.
Proof.
  intros H. destruct s as [|c s]; [reflexivity|].
  change (digits (lower (String c s)) 0 = None). apply digits_none. intros F. apply H.
  split; [discriminate|]. apply digits_lower. exact F.
Qed.

(** * Dictionaries *)

Section DictFacts.
  Context {K A : Set} (eqb : K -> K -> bool) (eqb_spec : forall a b, eqb a b = true <-> a = b).

  Lemma eqb_refl' k : eqb k k = true.
  Proof. apply eqb_spec. reflexivity. Qed.

  Lemma eqb_neq' a b : a <> b -> eqb a b = false.
  Proof. intros H. destruct (eqb a b) eqn:E; [|reflexivity]. apply eqb_spec in E. contradiction. Qed.

  Lemma get_put k k' (v : A) d :
    get eqb k (put eqb k' v d) = if eqb k k' then Some v else get eqb k d.
  Proof.
    induction d as [|[k2 v2] d IH]; cbn; [reflexivity|].
    destruct (eqb k' k2) eqn:E; cbn.
    - apply eqb_spec in E. subst k2. destruct (eqb k k'); reflexivity.
    - destruct (eqb k k2) eqn:E2.
      + apply eqb_spec in E2. subst k2. rewrite eqb_neq'; [reflexivity|].
        intros ->. rewrite eqb_refl' in E. discriminate.
      + exact IH.
  Qed.

  Lemma get_del k k' (d : assoc K A) :
    get eqb k (del eqb k' d) = if eqb k k' then None else get eqb k d.
  Proof.
    induction d as [|[k2 v2] d IH]; cbn; [destruct (eqb k k'); reflexivity|].
    destruct (eqb k' k2) eqn:E; cbn.
    - rewrite IH. apply eqb_spec in E. subst k2. destruct (eqb k k'); reflexivity.
    - destruct (eqb k k2) eqn:E2; [|exact IH].
      apply eqb_spec in E2. subst k2. rewrite eqb_neq'; [reflexivity|].
      intros ->. rewrite eqb_refl' in E. discriminate.
  Qed.

  Lemma put_keys k (v : A) d x : In x (map fst (put eqb k v d)) <-> x = k \/ In x (map fst d).
  Proof.
    induction d as [|[k2 v2] d IH]; cbn; [intuition|].
    destruct (eqb k k2) eqn:E; cbn.
    - apply eqb_spec in E. subst. intuition.
    - rewrite IH. intuition.
  Qed.

  Lemma put_nodup k (v : A) d : NoDup (map fst d) -> NoDup (map fst (put eqb k v d)).
  Proof.
    induction d as [|[k2 v2] d IH]; cbn; intros H; [constructor; [intros []|constructor]|].
    inversion H as [|? ? H1 H2]; subst. destruct (eqb k k2) eqn:E; cbn.
    - constructor; assumption.
    - constructor; [|auto]. intros F. apply put_keys in F. destruct F as [->|F]; [|contradiction].
      rewrite eqb_refl' in E. discriminate.
  Qed.

  Lemma del_nodup k (d : assoc K A) : NoDup (map fst d) -> NoDup (map fst (del eqb k d)).
  Proof.
    assert (Hin : forall x, In x (map fst (del eqb k d)) -> In x (map fst d)).
    { induction d as [|[k2 v2] d IH]; cbn; [auto|]. intros x.
      destruct (eqb k k2); cbn; intuition. }
    induction d as [|[k2 v2] d IH]; cbn; intros H; [constructor|].
    inversion H as [|? ? H1 H2]; subst.
    assert (Hin' : forall x, In x (map fst (del eqb k d)) -> In x (map fst d)).
    { clear -d. induction d as [|[k2 v2] d IH]; cbn; [auto|]. intros x.
      destruct (eqb k k2); cbn; intuition. }
    destruct (eqb k k2); cbn; [auto|]. constructor; auto.
  Qed.

  Lemma get_in k (d : assoc K A) v : get eqb k d = Some v -> In (k, v) d.
  Proof.
    induction d as [|[k2 v2] d IH]; cbn; [discriminate|].
    destruct (eqb k k2) eqn:E; [|auto]. intros H. injection H as <-.
    apply eqb_spec in E. subst. auto.
  Qed.

  Lemma get_none k (d : assoc K A) : get eqb k d = None <-> ~ In k (map fst d).
  Proof.
    induction d as [|[k2 v2] d IH]; cbn; [intuition|].
    destruct (eqb k k2) eqn:E.
    - apply eqb_spec in E. subst. split; [discriminate|intuition].
    - rewrite IH. split; [|intuition]. intros H [->|F]; [|contradiction].
      rewrite eqb_refl' in E. discriminate.
  Qed.
End DictFacts.

Lemma dget_entry k d : dget k d = entry k d.
Proof.
  unfold dget, entry. induction d as [|[k2 v2] d IH]; cbn; [reflexivity|].
  rewrite (String.eqb_sym k2 k). destruct (String.eqb k k2); [reflexivity|exact IH].
Qed.

Lemma entry_put k k' v d :
  entry k (dput k' v d) = if String.eqb k k' then Some v else entry k d.
Proof. rewrite <- !dget_entry. apply get_put. apply String.eqb_eq. Qed.

Lemma entry_del k k' d :
  entry k (ddel k' d) = if String.eqb k k' then None else entry k d.
Proof. rewrite <- !dget_entry. apply get_del. apply String.eqb_eq. Qed.

Lemma entry_cons k k' v d :
  entry k ((k', v) :: d) = if String.eqb k k' then Some v else entry k d.
Proof. rewrite <- !dget_entry. reflexivity. Qed.

(** Filling: the new values win. *)
Lemma entry_fill k values : forall base, python_dict values ->
  entry k (fill base values) = match entry k values with Some v => Some v | None => entry k base end.
Proof.
  unfold fill. induction values as [|[k2 v2] values IH]; intros base H; cbn [fold_left fst snd];
    [reflexivity|].
  inversion H as [|? ? H1 H2]; subst. rewrite IH by exact H2. rewrite entry_cons, entry_put.
  destruct (String.eqb k k2) eqn:E; [|reflexivity].
  apply String.eqb_eq in E. subst k2.
  replace (entry k values) with (@None value); [reflexivity|].
  symmetry. rewrite <- dget_entry. apply (get_none String.eqb String.eqb_eq). exact H1.
Qed.

Lemma fill_dict values : forall base, python_dict base -> python_dict (fill base values).
Proof.
  unfold fill. induction values as [|[k2 v2] values IH]; intros base H; cbn; [exact H|].
  apply IH. apply put_nodup; [apply String.eqb_eq|exact H].
Qed.

Lemma put_dict k v d : python_dict d -> python_dict (dput k v d).
Proof. apply put_nodup. apply String.eqb_eq. Qed.
Lemma del_dict k d : python_dict d -> python_dict (ddel k d).
Proof. apply del_nodup. Qed.

(** * Inserts *)

(** Boolean forms of the conditions on inserted objects. *)
Definition has (k : string) (d : dict) : bool :=
  match entry k d with Some _ => true | None => false end.
Definition of_typeb (ty : string) (w : wrapper) : bool :=
  String.eqb (lower (w_type w)) (lower ty) && has "name" (w_params w).
Definition namedb (ty s : string) (w : wrapper) : bool :=
  of_typeb ty w &&
  match entry "name" (w_params w) with Some n => String.eqb (lower (str n)) (lower s) | None => false end.
Definition with_idb (ty : string) (i : value) (w : wrapper) : bool :=
  of_typeb ty w &&
  match entry "id" (w_params w) with Some j => value_eqb i j | None => false end.

Lemma of_typeb_spec ty w : of_typeb ty w = true <-> of_type ty w.
Proof.
  unfold of_typeb, of_type, has. rewrite andb_true_iff, String.eqb_eq, same_iff.
  destruct (entry "name" (w_params w)); split; intros [H1 H2]; split; auto; try discriminate.
Qed.

Lemma namedb_spec ty s w : namedb ty s w = true <-> named ty s w.
Proof.
  unfold namedb, named. rewrite andb_true_iff, of_typeb_spec.
  destruct (entry "name" (w_params w)) as [n|]; split.
  - intros [H1 H2]. split; [exact H1|]. exists n. split; [reflexivity|].
    apply same_iff. apply String.eqb_eq. exact H2.
  - intros [H1 [m [H2 H3]]]. injection H2 as <-. split; [exact H1|].
    apply String.eqb_eq. apply same_iff. exact H3.
  - intros [_ H]. discriminate.
  - intros [_ [m [H _]]]. discriminate.
Qed.

Lemma with_idb_spec ty i w : with_idb ty i w = true <-> with_id ty i w.
Proof.
  unfold with_idb, with_id. rewrite andb_true_iff, of_typeb_spec.
  destruct (entry "id" (w_params w)) as [j|]; split.
  - intros [H1 H2]. apply value_eqb_spec in H2. subst. auto.
  - intros [H1 H2]. injection H2 as ->. split; [exact H1|]. apply value_eqb_spec. reflexivity.
  - intros [_ H]. discriminate.
  - intros [_ H]. discriminate.
Qed.

(** What the database holds after the inserts [ws], read backwards. *)
Definition last_name ty s ws : option dict :=
  option_map w_params (find (namedb ty s) (rev ws)).
Definition last_id ty i ws : option dict :=
  option_map w_params (find (with_idb ty i) (rev ws)).

Definition mirrors (ws : list wrapper) (x : fixtures) : Prop :=
  forall ty,
    match get String.eqb (lower ty) x with
    | Some f =>
      x_type f = lower ty /\
      (forall s, get String.eqb (lower s) (x_names f) = last_name ty s ws) /\
      (forall i, get value_eqb i (x_ids f) = last_id ty i ws) /\
      Forall (fun e => exists w, In w ws /\ snd e = w_params w /\ entry "name" (w_params w) <> None) (x_names f) /\
      Forall (fun e => exists w, In w ws /\ snd e = w_params w /\ entry "name" (w_params w) <> None) (x_ids f)
    | None => Forall (fun w => ~ same_text (w_type w) ty) ws
    end.

Lemma find_none_all {A} (p : A -> bool) l : Forall (fun x => p x = false) l -> find p l = None.
Proof. induction 1 as [|a l H _ IH]; cbn; [reflexivity|]. rewrite H. exact IH. Qed.

Lemma other_type_none ty p ws :
  (forall w, of_typeb ty w = false -> p w = false) ->
  Forall (fun w => ~ same_text (w_type w) ty) ws -> find p (rev ws) = None.
Proof.
  intros Hp H. apply find_none_all. apply Forall_rev. eapply Forall_impl; [|exact H].
  cbn. intros w Hw. apply Hp. destruct (of_typeb ty w) eqn:E; [|reflexivity].
  apply of_typeb_spec in E. destruct E as [E _]. contradiction.
Qed.

Lemma namedb_type ty s w : of_typeb ty w = false -> namedb ty s w = false.
Proof. unfold namedb. intros ->. reflexivity. Qed.
Lemma with_idb_type ty s w : of_typeb ty w = false -> with_idb ty s w = false.
Proof. unfold with_idb. intros ->. reflexivity. Qed.

Lemma forall_put {K : Set} (eqb : K -> K -> bool) (P : K * dict -> Prop) k v d :
  (forall k', P (k', v)) -> Forall P d -> Forall P (put eqb k v d).
Proof.
  intros Hv H. induction H as [|[k2 v2] d H1 H2 IH]; cbn; [auto|].
  destruct (eqb k k2); constructor; auto.
Qed.

Lemma insert_model_mirrors ws x w x' :
  mirrors ws x -> insert_model x w = Ok x' -> mirrors (ws ++ [w]) x'.
Proof.
  intros HM H. unfold insert_model in H.
  set (f0 := match get String.eqb (lower (w_type w)) x with
             | Some f => f | None => new_fixture (lower (w_type w)) end) in H.
  assert (Hf0 : x_type f0 = lower (w_type w) /\
      (forall s, get String.eqb (lower s) (x_names f0) = last_name (w_type w) s ws) /\
      (forall i, get value_eqb i (x_ids f0) = last_id (w_type w) i ws) /\
      Forall (fun e => exists w, In w ws /\ snd e = w_params w /\ entry "name" (w_params w) <> None) (x_names f0) /\
      Forall (fun e => exists w, In w ws /\ snd e = w_params w /\ entry "name" (w_params w) <> None) (x_ids f0)).
  { pose proof (HM (w_type w)) as HT. unfold f0.
    destruct (get String.eqb (lower (w_type w)) x) as [f|]; [exact HT|].
    cbn. rewrite lower_lower. split; [reflexivity|]. split; [|split; [|split; constructor]].
    - intros s. unfold last_name.
      rewrite (other_type_none (w_type w)); [reflexivity|apply namedb_type|exact HT].
    - intros i. unfold last_id.
      rewrite (other_type_none (w_type w)); [reflexivity|apply with_idb_type|exact HT]. }
  clearbody f0. destruct Hf0 as [HT0 [HN0 [HI0 [HFN HFI]]]].
  destruct (insert f0 w) as [f1|] eqn:E; [|discriminate]. injection H as <-.
  intros ty. rewrite (get_put String.eqb String.eqb_eq).
  assert (Hweak : forall (K : Set) (l : assoc K dict),
     Forall (fun e => exists w, In w ws /\ snd e = w_params w /\ entry "name" (w_params w) <> None) l ->
     Forall (fun e => exists w0, In w0 (ws ++ [w]) /\ snd e = w_params w0 /\
       entry "name" (w_params w0) <> None) l).
  { intros K l Hl. eapply Forall_impl; [|exact Hl]. cbn. intros e [w1 [H1 H2]].
    exists w1. rewrite in_app_iff. auto. }
  destruct (String.eqb (lower ty) (lower (w_type w))) eqn:Ety.
  - apply String.eqb_eq in Ety.
    unfold insert in E. rewrite HT0, lower_lower, String.eqb_refl in E. cbn [negb] in E.
    assert (Hof : of_typeb ty w = has "name" (w_params w)).
    { unfold of_typeb. rewrite Ety, String.eqb_refl. reflexivity. }
    assert (HN : forall s, last_name (w_type w) s ws = last_name ty s ws).
    { intros s. unfold last_name, namedb, of_typeb. rewrite Ety. reflexivity. }
    assert (HI : forall s, last_id (w_type w) s ws = last_id ty s ws).
    { intros s. unfold last_id, with_idb, of_typeb. rewrite Ety. reflexivity. }
    destruct (dget "name" (w_params w)) as [n|] eqn:En.
    + rewrite dget_entry in En.
      destruct (dget "id" (w_params w)) as [i0|] eqn:Ei; [|discriminate].
      rewrite dget_entry in Ei. injection E as <-. cbn [x_type x_names x_ids].
      split; [congruence|]. split; [|split; [|split]].
      * intros s. rewrite (get_put String.eqb String.eqb_eq), HN0, HN. unfold last_name.
        rewrite rev_unit. cbn [find]. unfold namedb at 2.
        rewrite Hof, En. unfold has. rewrite En. cbn [andb].
        rewrite (String.eqb_sym (lower s)). destruct (String.eqb (lower (str n)) (lower s)); reflexivity.
      * intros i. rewrite (get_put value_eqb value_eqb_spec), HI0, HI. unfold last_id.
        rewrite rev_unit. cbn [find]. unfold with_idb at 2.
        rewrite Hof, Ei. unfold has. rewrite En. cbn [andb].
        destruct (value_eqb i i0); reflexivity.
      * apply forall_put; [|apply Hweak; exact HFN]. intros k'. exists w. rewrite in_app_iff. cbn. rewrite En. intuition discriminate.
      * apply forall_put; [|apply Hweak; exact HFI]. intros k'. exists w. rewrite in_app_iff. cbn. rewrite En. intuition discriminate.
    + injection E as <-. rewrite dget_entry in En.
      split; [congruence|]. split; [|split; [|split]].
      * intros s. rewrite HN0, HN. unfold last_name. rewrite rev_unit. cbn [find].
        rewrite namedb_type; [reflexivity|]. rewrite Hof. unfold has. rewrite En. reflexivity.
      * intros i. rewrite HI0, HI. unfold last_id. rewrite rev_unit. cbn [find].
        rewrite with_idb_type; [reflexivity|]. rewrite Hof. unfold has. rewrite En. reflexivity.
      * apply Hweak. exact HFN.
      * apply Hweak. exact HFI.
  - pose proof (HM ty) as HT.
    assert (Hof : of_typeb ty w = false).
    { unfold of_typeb. rewrite String.eqb_sym, Ety. reflexivity. }
    destruct (get String.eqb (lower ty) x) as [f|].
    + destruct HT as [H1 [H2 [H3 [H4 H5]]]]. split; [exact H1|]. split; [|split; [|split]].
      * intros s. rewrite H2. unfold last_name. rewrite rev_unit. cbn [find].
        rewrite namedb_type by exact Hof. reflexivity.
      * intros i. rewrite H3. unfold last_id. rewrite rev_unit. cbn [find].
        rewrite with_idb_type by exact Hof. reflexivity.
      * apply Hweak. exact H4.
      * apply Hweak. exact H5.
    + apply Forall_app. split; [exact HT|]. constructor; [|constructor].
      rewrite same_iff. intros F. rewrite F, String.eqb_refl in Ety. discriminate.
Qed.

Lemma insert_all_mirrors ws x' : insert_all [] ws = Ok x' -> mirrors ws x'.
Proof.
  assert (G : forall ws0 x, mirrors ws0 x -> insert_all x ws = Ok x' -> mirrors (ws0 ++ ws) x').
  { induction ws as [|w ws IH]; intros ws0 x HM H.
    - cbn in H. injection H as <-. rewrite app_nil_r. exact HM.
    - cbn [insert_all] in H. destruct (insert_model x w) as [x1|] eqn:E; [|discriminate].
      cbn [bind] in H. replace (ws0 ++ w :: ws) with ((ws0 ++ [w]) ++ ws)
        by (rewrite <- app_assoc; reflexivity).
      apply (IH _ x1); [|exact H]. apply (insert_model_mirrors _ x); assumption. }
  intros H. apply (G [] []); [|exact H]. intros ty. cbn. constructor.
Qed.

(** Reading backwards finds the last one. *)
Lemma find_last p (P : wrapper -> Prop) ws :
  (forall w, p w = true <-> P w) ->
  match find p (rev ws) with
  | Some w => last_with P ws w
  | None => Forall (fun w => ~ P w) ws
  end.
Proof.
  intros Hp. induction ws as [|w ws IH] using rev_ind; [constructor|].
  rewrite rev_unit. cbn [find]. destruct (p w) eqn:E.
  - exists ws, []. split; [reflexivity|]. split; [apply Hp; exact E|constructor].
  - assert (Hn : ~ P w) by (intros F; apply Hp in F; congruence).
    destruct (find p (rev ws)) as [w'|].
    + destruct IH as [l1 [l2 [-> [H1 H2]]]]. exists l1, (l2 ++ [w]).
      split; [rewrite <- app_assoc; reflexivity|]. split; [exact H1|].
      apply Forall_app. auto.
    + apply Forall_app. auto.
Qed.

Lemma answers_of p P ws r :
  (forall w, p w = true <-> P w) ->
  r = match option_map w_params (find p (rev ws)) with Some d => Ok d | None => Err ValueError end ->
  answers P ws r.
Proof.
  intros Hp ->. pose proof (find_last p P ws Hp) as H.
  destruct (find p (rev ws)) as [w|]; cbn; [left; eauto|right; auto].
Qed.

Lemma filled_mirrors ws ty f :
  filled ws ty f ->
  x_type f = lower ty /\
  (forall s, get String.eqb (lower s) (x_names f) = last_name ty s ws) /\
  (forall i, get value_eqb i (x_ids f) = last_id ty i ws) /\
  Forall (fun e => exists w, In w ws /\ snd e = w_params w /\ entry "name" (w_params w) <> None) (x_names f) /\
  Forall (fun e => exists w, In w ws /\ snd e = w_params w /\ entry "name" (w_params w) <> None) (x_ids f).
Proof.
  intros [x [H1 H2]]. apply insert_all_mirrors in H1. pose proof (H1 ty) as H.
  unfold component in H2. destruct (get String.eqb (lower ty) x) as [f'|]; [|discriminate].
  injection H2 as ->. exact H.
Qed.

Lemma query_name_answers ws ty f s :
  filled ws ty f -> answers (named ty s) ws (query_name f (VStr s)).
Proof.
  intros H. apply filled_mirrors in H. destruct H as [_ [H _]].
  apply (answers_of (namedb ty s)); [apply namedb_spec|]. cbn. rewrite H. reflexivity.
Qed.

Lemma query_id_answers ws ty f z :
  filled ws ty f -> answers (with_id ty (VInt z)) ws (query_id f (VInt z)).
Proof.
  intros H. apply filled_mirrors in H. destruct H as [_ [_ [H _]]].
  apply (answers_of (with_idb ty (VInt z))); [apply with_idb_spec|]. unfold query_id.
  rewrite H. reflexivity.
Qed.

Lemma getitem_int_answers ws ty f z :
  filled ws ty f -> answers (with_id ty (VInt z)) ws (getitem f (VInt z)).
Proof.
  intros H. apply filled_mirrors in H. destruct H as [_ [_ [H _]]].
  apply (answers_of (with_idb ty (VInt z))); [apply with_idb_spec|].
  unfold getitem, getitem_id. rewrite H. reflexivity.
Qed.

Lemma getitem_name ws ty f s :
  filled ws ty f -> Exists (named ty s) ws -> answers (named ty s) ws (getitem f (VStr s)).
Proof.
  intros H HE. apply filled_mirrors in H. destruct H as [_ [H _]].
  pose proof (find_last (namedb ty s) (named ty s) ws (namedb_spec ty s)) as HF.
  unfold getitem. rewrite H. unfold last_name.
  destruct (find (namedb ty s) (rev ws)) as [w|]; cbn.
  - left. eauto.
  - exfalso. apply Exists_exists in HE. destruct HE as [w [H1 H2]].
    rewrite Forall_forall in HF. exact (HF w H1 H2).
Qed.

Lemma getitem_number ws ty f s :
  filled ws ty f -> Forall (fun w => ~ named ty s w) ws -> all_digits s ->
  answers (with_id ty (VInt (number s))) ws (getitem f (VStr s)).
Proof.
  intros HF HN HD. pose proof (filled_mirrors _ _ _ HF) as [_ [H _]].
  pose proof (find_last (namedb ty s) (named ty s) ws (namedb_spec ty s)) as HL.
  unfold getitem. rewrite H. unfold last_name.
  destruct (find (namedb ty s) (rev ws)) as [w|]; cbn.
  - exfalso. destruct HL as [l1 [l2 [-> [H1 _]]]]. apply Forall_app in HN. destruct HN as [_ HN].
    inversion HN; contradiction.
  - rewrite int_of_key_digits by exact HD. exact (getitem_int_answers ws ty f (number s) HF).
Qed.

Lemma getitem_unknown ws ty f s :
  filled ws ty f -> Forall (fun w => ~ named ty s w) ws -> ~ all_digits s ->
  exists e, getitem f (VStr s) = Err e.
Proof.
  intros HF HN HD. pose proof (filled_mirrors _ _ _ HF) as [_ [H [H' _]]].
  pose proof (find_last (namedb ty s) (named ty s) ws (namedb_spec ty s)) as HL.
  unfold getitem. rewrite H. unfold last_name.
  destruct (find (namedb ty s) (rev ws)) as [w|]; cbn.
  - exfalso. destruct HL as [l1 [l2 [-> [H1 _]]]]. apply Forall_app in HN. destruct HN as [_ HN].
    inversion HN; contradiction.
  - rewrite int_of_key_none by exact HD. unfold getitem_id.
    destruct (get value_eqb none_ (x_ids f)); cbn; eauto.
Qed.

(** Inserting succeeds exactly if every object with a name has an id. *)
Lemma insert_model_ok x w :
  (exists x', insert_model x w = Ok x') <->
  (entry "name" (w_params w) = None \/ entry "id" (w_params w) <> None \/
   exists f, get String.eqb (lower (w_type w)) x = Some f /\
             lower (w_type w) <> lower (x_type f)).
Proof.
  unfold insert_model, insert.
  destruct (get String.eqb (lower (w_type w)) x) as [f|] eqn:E.
  - destruct (String.eqb (lower (w_type w)) (lower (x_type f))) eqn:Et; cbn [negb].
    + apply String.eqb_eq in Et. rewrite !dget_entry.
      destruct (entry "name" (w_params w)), (entry "id" (w_params w)); split; eauto.
      * intros _. right. left. discriminate.
      * intros [x' H]. discriminate.
      * intros [H|[H|[f' [H1 H2]]]]; [discriminate|contradiction|].
        injection H1 as <-. contradiction.
    + split; eauto. intros _. right. right. exists f. split; [reflexivity|].
      intros F. rewrite F, String.eqb_refl in Et. discriminate.
  - cbn [x_type new_fixture]. rewrite !lower_lower, String.eqb_refl. cbn [negb].
    rewrite !dget_entry.
    destruct (entry "name" (w_params w)), (entry "id" (w_params w)); split; eauto.
    + intros _. right. left. discriminate.
    + intros [x' H]. discriminate.
    + intros [H|[H|[f' [H1 H2]]]]; [discriminate|contradiction|discriminate].
Qed.

Lemma insert_all_ok ws :
  (exists x, insert_all [] ws = Ok x) <->
  Forall (fun w => entry "name" (w_params w) <> None -> entry "id" (w_params w) <> None) ws.
Proof.
  assert (G : forall ws0 x, mirrors ws0 x ->
    ((exists x', insert_all x ws = Ok x') <->
     Forall (fun w => entry "name" (w_params w) <> None -> entry "id" (w_params w) <> None) ws)).
  { induction ws as [|w ws IH]; intros ws0 x HM; [split; [constructor|cbn; eauto]|].
    cbn [insert_all]. pose proof (insert_model_ok x w) as HO.
    assert (Hty : ~ exists f, get String.eqb (lower (w_type w)) x = Some f /\
             lower (w_type w) <> lower (x_type f)).
    { intros [f [H1 H2]]. pose proof (HM (w_type w)) as H. rewrite H1 in H.
      destruct H as [H _]. rewrite H, lower_lower in H2. contradiction. }
    destruct (insert_model x w) as [x1|] eqn:E; cbn [bind].
    - rewrite (IH (ws0 ++ [w]) x1 (insert_model_mirrors _ _ _ _ HM E)).
      split; intros H; [constructor; [|exact H]|inversion H; assumption].
      intros Hn. destruct (proj1 HO) as [F|[F|F]]; [eauto|contradiction|exact F|contradiction].
    - split; [intros [x' H]; discriminate|]. intros H. exfalso. inversion H as [|? ? H1 H2]; subst.
      destruct (proj2 HO) as [x' F]; [|discriminate].
      destruct (entry "name" (w_params w)) eqn:En; [|auto]. right. left. apply H1. discriminate. }
  apply (G [] []). intros ty. cbn. constructor.
Qed.

(** * Inheritance *)

Definition elements (f : fixture) : list dict := map snd (x_names f) ++ map snd (x_ids f).

(** What holds for every database built by inserts of Python dictionaries. *)
Definition well (f : fixture) : Prop :=
  (forall i d, get value_eqb i (x_ids f) = Some d -> entry "id" d = Some i) /\
  (forall d, In d (elements f) -> python_dict d /\ entry "name" d <> None).

Lemma filled_well ws ty f :
  filled ws ty f -> Forall (fun w => python_dict (w_params w)) ws -> well f.
Proof.
  intros HF HD. pose proof (filled_mirrors _ _ _ HF) as [_ [HN [HI [H1 H2]]]].
  split.
  - intros i d H. rewrite HI in H. unfold last_id in H.
    destruct (find (with_idb ty i) (rev ws)) as [w|] eqn:E; [|discriminate].
    injection H as <-. apply find_some in E. destruct E as [_ E]. apply with_idb_spec in E.
    apply E.
  - intros d H. unfold elements in H. rewrite in_app_iff, !in_map_iff in H.
    rewrite Forall_forall in H1, H2, HD.
    assert (HP : exists w, In w ws /\ d = w_params w /\ entry "name" (w_params w) <> None).
    { destruct H as [[e [<- H]]|[e [<- H]]]; [exact (H1 e H)|exact (H2 e H)]. }
    destruct HP as [w [Hw [-> Hn]]]. auto.
Qed.

Lemma getitem_element f k b : getitem f k = Ok b -> In b (elements f).
Proof.
  unfold elements. rewrite in_app_iff.
  assert (HI : forall k, getitem_id f k = Ok b -> In b (map snd (x_ids f))).
  { intros i. unfold getitem_id. destruct (get value_eqb i (x_ids f)) as [d|] eqn:E; [|discriminate].
    destruct i; try discriminate. intros H. injection H as ->.
    apply (get_in value_eqb value_eqb_spec) in E. apply in_map_iff. eexists. split; [|exact E].
    reflexivity. }
  destruct k as [s|z|r]; cbn [getitem]; [|right; eauto|right; eauto].
  destruct (get String.eqb (lower s) (x_names f)) as [d|] eqn:E.
  - intros H. injection H as ->. left. apply (get_in String.eqb String.eqb_eq) in E.
    apply in_map_iff. eexists. split; [|exact E]. reflexivity.
  - destruct (int_of_key (lower s)); intros H; right; eauto.
Qed.

(** A parent that was found and named after its key finds itself again. *)
Lemma self_base_found f s b :
  well f -> getitem f (VStr s) = Ok b -> self_base f (dput "name" (VStr s) b) = Ok (Some b).
Proof.
  intros [W1 W2] H. unfold self_base. rewrite !dget_entry, !entry_put. cbn [String.eqb Ascii.eqb Bool.eqb].
  cbn [getitem] in H. destruct (get String.eqb (lower s) (x_names f)) as [d|]; [congruence|].
  destruct (int_of_key (lower s)) as [z|].
  - unfold getitem_id in H. destruct (get value_eqb (VInt z) (x_ids f)) as [d|] eqn:E; [|discriminate].
    injection H as ->. rewrite (W1 _ _ E). rewrite E. reflexivity.
  - unfold getitem_id in H. destruct (get value_eqb none_ (x_ids f)); discriminate.
Qed.

Lemma entry_renamed k kb :
  entry k (renamed kb) = if String.eqb k "name" then Some (fst kb) else entry k (snd kb).
Proof. apply entry_cons. Qed.

Lemma start_chain_on values k chain : chain <> [] -> start_chain values k chain = Ok chain.
Proof.
  intros H. unfold start_chain. destruct chain as [|c l]; [contradiction|].
  destruct (dget "name" values); reflexivity.
Qed.

Lemma last_by_name_tail a anc : anc <> [] -> last_by_name (a :: anc) -> last_by_name anc.
Proof. intros _ H l k b E. apply (H (a :: l) k b). rewrite E. reflexivity. Qed.

(** Resolving a parent; the chain is not empty any more. *)
Lemma resolve_parent f : well f ->
  forall anc k b chain depth,
    getitem f k = Ok b -> ancestry f (entry "inherit_from" b) anc ->
    last_by_name ((k, b) :: anc) -> chain <> [] -> (List.length anc < depth)%nat ->
    exists r,
      inheritance depth f (dput "name" k b) chain = Ok (r, chain ++ map fst anc) /\
      python_dict r /\ entry "inherit_from" r = None /\
      forall key, key <> "inherit_from"%string ->
        entry key r = nearest key (map renamed ((k, b) :: anc)).
Proof.
  intros W. induction anc as [|[k2 b2] anc IH]; intros k b chain depth Hk HA HL HC HD;
    (destruct depth as [|depth]; [cbn in HD; lia|]); cbn [inheritance].
  - inversion HA as [HN|]; subst.
    destruct (HL [] k b eq_refl) as [s ->].
    pose proof (proj2 W _ (getitem_element _ _ _ Hk)) as [Hd _].
    rewrite dget_entry, entry_put. cbn [String.eqb Ascii.eqb Bool.eqb]. rewrite <- HN.
    rewrite (self_base_found f s b W Hk). cbn [bind].
    assert (HE : forall key, entry key (fill b (dput "name" (VStr s) b)) =
                        entry key (renamed (VStr s, b))).
    { intros key. rewrite entry_fill by (apply put_dict; exact Hd).
      rewrite entry_put, entry_renamed. cbn [fst snd].
      destruct (String.eqb key "name"); [reflexivity|]. destruct (entry key b); reflexivity. }
    rewrite dget_entry, HE, entry_renamed. cbn [String.eqb Ascii.eqb Bool.eqb fst snd].
    rewrite <- HN. exists (fill b (dput "name" (VStr s) b)).
    split; [rewrite app_nil_r; reflexivity|]. split; [apply fill_dict; exact Hd|].
    split; [rewrite HE, entry_renamed; cbn [String.eqb Ascii.eqb Bool.eqb fst snd]; auto|].
    intros key _. rewrite HE. cbn [map nearest]. destruct (entry key (renamed (VStr s, b))); reflexivity.
  - inversion HA as [|? ? ? Hk2 HA2 HR]; subst.
    pose proof (proj2 W _ (getitem_element _ _ _ Hk)) as [Hd _].
    rewrite dget_entry, entry_put. cbn [String.eqb Ascii.eqb Bool.eqb]. rewrite <- HR.
    rewrite start_chain_on by exact HC. cbn [bind]. rewrite Hk2. cbn [bind].
    destruct (IH k2 b2 (chain ++ [k2]) depth) as [r [H1 [H2 [H3 H4]]]]; auto.
    { eapply last_by_name_tail; [discriminate|exact HL]. }
    { intros F. apply app_eq_nil in F. destruct F; discriminate. }
    { cbn in HD. lia. }
    rewrite H1. cbn [bind fst snd]. eexists. split; [rewrite <- app_assoc; reflexivity|].
    assert (Hdel : python_dict (ddel "inherit_from" (dput "name" k b)))
      by (apply del_dict, put_dict; exact Hd).
    split; [apply fill_dict; exact H2|].
    split; [rewrite entry_fill, entry_del by exact Hdel; cbn [String.eqb Ascii.eqb Bool.eqb]; exact H3|].
    intros key Hkey. rewrite entry_fill, entry_del by exact Hdel.
    rewrite (proj2 (String.eqb_neq _ _) Hkey). rewrite entry_put.
    cbn [map nearest]. rewrite entry_renamed. cbn [fst snd].
    destruct (String.eqb key "name"); [reflexivity|].
    destruct (entry key b); [reflexivity|]. exact (H4 key Hkey).
Qed.

Lemma self_base_own f values own :
  entry "inherit_from" values = None -> own_element f values own ->
  self_base f values = Ok (hd_error own) /\ (List.length own <= 1)%nat.
Proof.
  intros HN H. unfold own_element in H. rewrite HN in H. unfold self_base. rewrite !dget_entry.
  set (by_id := get value_eqb _ (x_ids f)) in *.
  assert (G : match by_id with Some d => own = [d] | None => own = [] end ->
              Ok by_id = Ok (hd_error own) /\ (List.length own <= 1)%nat).
  { intros G. destruct by_id; subst; cbn; auto. }
  destruct (entry "name" values) as [n|]; [|auto].
  destruct H as [s [-> H]]. cbn [query_name] in H.
  destruct (get String.eqb (lower s) (x_names f)) as [d|]; [subst; cbn; auto|auto].
Qed.

Lemma own_elements f values own d :
  entry "inherit_from" values = None -> own_element f values own -> In d own -> In d (elements f).
Proof.
  intros HN H Hd. unfold own_element in H. rewrite HN in H. unfold elements. rewrite in_app_iff.
  set (by_id := get value_eqb _ (x_ids f)) in *.
  assert (G : match by_id with Some d => own = [d] | None => own = [] end ->
              In d (map snd (x_ids f))).
  { intros G. destruct by_id as [d'|] eqn:E; subst own; [|contradiction].
    destruct Hd as [<-|[]]. apply (get_in value_eqb value_eqb_spec) in E.
    apply in_map_iff. eexists. split; [|exact E]. reflexivity. }
  destruct (entry "name" values) as [n|]; [|auto].
  destruct H as [s [-> H]]. cbn [query_name] in H.
  destruct (get String.eqb (lower s) (x_names f)) as [d'|] eqn:E; [|auto].
  subst own. destruct Hd as [<-|[]]. left. apply (get_in String.eqb String.eqb_eq) in E.
  apply in_map_iff. eexists. split; [|exact E]. reflexivity.
Qed.

(** The whole resolution. *)
Theorem resolve f values own anc depth :
  well f -> python_dict values -> own_element f values own ->
  ancestry f (nearest "inherit_from" (values :: own)) anc -> last_by_name anc ->
  (forall k, entry "inherit_from" values = Some k -> entry "name" values <> Some k) ->
  (List.length anc + 1 < depth)%nat ->
  exists r,
    inheritance depth f values [] = Ok (r, chain_of (values :: own) anc) /\
    python_dict r /\ entry "inherit_from" r = None /\
    forall key, key <> "inherit_from"%string ->
      entry key r = nearest key (values :: own ++ map renamed anc).
Proof.
  intros W HV HO HA HL HS HD. destruct depth as [|depth]; [lia|].
  cbn [inheritance]. rewrite dget_entry.
  destruct (entry "inherit_from" values) as [k|] eqn:EI.
  - assert (own = []) as -> by (unfold own_element in HO; rewrite EI in HO; exact HO).
    cbn [nearest] in HA. rewrite EI in HA. inversion HA as [|? b anc' Hk HA2]; subst.
    assert (HC : start_chain (ddel "inherit_from" values) k [] =
                 Ok (match entry "name" values with Some n => [n] | None => [] end)).
    { unfold start_chain. rewrite dget_entry, entry_del. cbn [String.eqb Ascii.eqb Bool.eqb].
      destruct (entry "name" values) as [n|] eqn:En; [|reflexivity].
      cbn [List.length Nat.ltb Nat.leb existsb].
      destruct (value_eqb n k) eqn:E; [|reflexivity].
      apply value_eqb_spec in E. subst. exfalso. exact (HS k eq_refl eq_refl). }
    rewrite HC. cbn [bind]. rewrite Hk. cbn [bind].
    destruct (resolve_parent f W anc' k b
                (match entry "name" values with Some n => [n] | None => [] end ++ [k]) depth)
      as [r [H1 [H2 [H3 H4]]]]; auto.
    { intros F. apply app_eq_nil in F. destruct F; discriminate. }
    { cbn in HD. lia. }
    rewrite H1. cbn [bind fst snd].
    assert (Hdel : python_dict (ddel "inherit_from" values)) by (apply del_dict; exact HV).
    eexists. split; [|split; [apply fill_dict; exact H2|split]].
    + do 2 f_equal. unfold chain_of. cbn [nearest]. rewrite EI.
      destruct (entry "name" values); cbn; reflexivity.
    + rewrite entry_fill, entry_del by exact Hdel. cbn [String.eqb Ascii.eqb Bool.eqb]. exact H3.
    + intros key Hkey. rewrite entry_fill, entry_del by exact Hdel.
      rewrite (proj2 (String.eqb_neq _ _) Hkey). cbn [app].
      change (nearest key (values :: map renamed ((k, b) :: anc')))
        with (match entry key values with Some v => Some v
              | None => nearest key (map renamed ((k, b) :: anc')) end).
      destruct (entry key values); [reflexivity|]. exact (H4 key Hkey).
  - destruct (self_base_own f values own EI HO) as [HB Hlen]. rewrite HB. cbn [bind].
    destruct own as [|d own]; cbn [hd_error].
    + cbn [nearest] in HA. rewrite EI in HA. inversion HA; subst.
      exists values. split; [|split; [exact HV|split; [exact EI|]]].
      * unfold chain_of. cbn [nearest]. rewrite EI. reflexivity.
      * intros key _. cbn. destruct (entry key values); reflexivity.
    + destruct own as [|]; [|cbn in Hlen; lia].
      pose proof (own_elements f values [d] d EI HO (or_introl eq_refl)) as Hel.
      pose proof (proj2 W _ Hel) as [Hd Hname].
      assert (HE : forall key, entry key (fill d values) = nearest key (values :: [d])).
      { intros key. rewrite entry_fill by exact HV. cbn.
        destruct (entry key values); [reflexivity|]. destruct (entry key d); reflexivity. }
      assert (HF : python_dict (fill d values)) by (apply fill_dict; exact Hd).
      rewrite !dget_entry, !HE.
      destruct (nearest "inherit_from" (values :: [d])) as [k|] eqn:EN.
      * inversion HA as [|? b anc' Hk HA2]; subst.
        destruct (nearest "name" (values :: [d])) as [n|] eqn:Enm.
        2:{ exfalso. cbn [nearest] in Enm. destruct (entry "name" values); [discriminate|].
            destruct (entry "name" d); [discriminate|contradiction]. }
        cbn [app]. destruct depth as [|depth]; [lia|].
        cbn [inheritance]. rewrite dget_entry, HE, EN.
        rewrite start_chain_on by discriminate. cbn [bind]. rewrite Hk. cbn [bind app].
        destruct (resolve_parent f W anc' k b [n; k] depth)
          as [r [H1 [H2 [H3 H4]]]]; auto.
        { discriminate. }
        { cbn in HD. lia. }
        rewrite H1. cbn [bind fst snd].
        assert (Hdel : python_dict (ddel "inherit_from" (fill d values)))
          by (apply del_dict; exact HF).
        eexists. split; [|split; [apply fill_dict; exact H2|split]].
        -- do 2 f_equal. unfold chain_of. rewrite EN, Enm. reflexivity.
        -- rewrite entry_fill, entry_del by exact Hdel. cbn [String.eqb Ascii.eqb Bool.eqb]. exact H3.
        -- intros key Hkey. rewrite entry_fill, entry_del by exact Hdel.
           rewrite (proj2 (String.eqb_neq _ _) Hkey), HE.
           change (nearest key (values :: [d] ++ map renamed ((k, b) :: anc')))
             with (match entry key values with Some v => Some v
                   | None => match entry key d with Some v => Some v
                     | None => nearest key (map renamed ((k, b) :: anc')) end end).
           cbn [nearest]. destruct (entry key values); [reflexivity|].
           destruct (entry key d); [reflexivity|]. exact (H4 key Hkey).
      * inversion HA; subst. exists (fill d values).
        split; [|split; [exact HF|split; [rewrite HE; exact EN|]]].
        -- unfold chain_of. rewrite EN. reflexivity.
        -- intros key _. rewrite HE. reflexivity.
Qed.

(** * Circles *)

(** A reference without end: at every depth there is a further reference. *)
Lemma circular_next f k : circular f k -> exists b k', getitem f k = Ok b /\
  entry "inherit_from" b = Some k' /\ circular f k'.
Proof.
  intros [e [H1 H2]].
  assert (G : exists k', refers f k k' /\ clos_refl_trans value (refers f) k' e).
  { apply clos_rt_rt1n in H1. inversion H1 as [E|k' e' Hs Hr E]; subst.
    - apply clos_trans_t1n in H2. inversion H2 as [? Hs|k' ? Hs Hr]; subst.
      + exists e. split; [exact Hs|apply rt_refl].
      + exists k'. split; [exact Hs|]. apply clos_t1n_trans in Hr.
        clear -Hr. induction Hr; [apply rt_step; assumption|eapply rt_trans; eauto].
    - exists k'. split; [exact Hs|]. apply clos_rt1n_rt. exact Hr. }
  destruct G as [k' [[b [G1 G2]] G3]]. exists b, k'. split; [exact G1|]. split; [exact G2|].
  exists e. auto.
Qed.

Lemma circular_parent f : forall depth k b k' chain,
  getitem f k = Ok b -> entry "inherit_from" b = Some k' -> circular f k' -> chain <> [] ->
  inheritance depth f (dput "name" k b) chain = Err RecursionError.
Proof.
  induction depth as [|depth IH]; intros k b k' chain Hk HI HC Hch; [reflexivity|].
  cbn [inheritance]. rewrite dget_entry, entry_put. cbn [String.eqb Ascii.eqb Bool.eqb].
  rewrite HI. rewrite start_chain_on by exact Hch. cbn [bind].
  destruct (circular_next f k' HC) as [b' [k2 [H1 [H2 H3]]]]. rewrite H1. cbn [bind].
  rewrite (IH k' b' k2); auto. intros F. apply app_eq_nil in F. destruct F; discriminate.
Qed.

Theorem resolve_circular f values own k depth :
  well f -> python_dict values -> own_element f values own ->
  nearest "inherit_from" (values :: own) = Some k -> circular f k ->
  (forall k, entry "inherit_from" values = Some k -> entry "name" values <> Some k) ->
  inheritance depth f values [] = Err RecursionError.
Proof.
  intros W HV HO HN HC HS. destruct depth as [|depth]; [reflexivity|].
  cbn [inheritance]. rewrite dget_entry.
  destruct (circular_next f k HC) as [b [k2 [H1 [H2 H3]]]].
  destruct (entry "inherit_from" values) as [k0|] eqn:EI.
  - cbn [nearest] in HN. rewrite EI in HN. injection HN as ->.
    assert (HCh : exists c, start_chain (ddel "inherit_from" values) k [] = Ok c).
    { unfold start_chain. rewrite dget_entry, entry_del. cbn [String.eqb Ascii.eqb Bool.eqb].
      destruct (entry "name" values) as [n|] eqn:En; [|eauto].
      cbn [List.length Nat.ltb Nat.leb existsb].
      destruct (value_eqb n k) eqn:E; [|eauto].
      apply value_eqb_spec in E. subst. exfalso. exact (HS k eq_refl eq_refl). }
    destruct HCh as [c HCh]. rewrite HCh. cbn [bind]. rewrite H1. cbn [bind].
    rewrite (circular_parent f depth k b k2); auto.
    intros F. apply app_eq_nil in F. destruct F; discriminate.
  - destruct (self_base_own f values own EI HO) as [HB Hlen]. rewrite HB. cbn [bind].
    destruct own as [|d own]; cbn [hd_error].
    + cbn [nearest] in HN. rewrite EI in HN. discriminate.
    + destruct own as [|]; [|cbn in Hlen; lia].
      pose proof (own_elements f values [d] d EI HO (or_introl eq_refl)) as Hel.
      pose proof (proj2 W _ Hel) as [Hd Hname].
      assert (HE : forall key, entry key (fill d values) = nearest key (values :: [d])).
      { intros key. rewrite entry_fill by exact HV. cbn.
        destruct (entry key values); [reflexivity|]. destruct (entry key d); reflexivity. }
      rewrite !dget_entry, !HE, HN.
      destruct (nearest "name" (values :: [d])) as [n|] eqn:Enm.
      2:{ exfalso. cbn [nearest] in Enm. destruct (entry "name" values); [discriminate|].
          destruct (entry "name" d); [discriminate|contradiction]. }
      destruct depth as [|depth]; [reflexivity|]. cbn [inheritance app].
      rewrite dget_entry, HE, HN. rewrite start_chain_on by discriminate. cbn [bind].
      rewrite H1. cbn [bind]. rewrite (circular_parent f depth k b k2); auto. discriminate.
Qed.

(** Directly inheriting from itself is noticed. *)
Theorem resolve_self f values k depth :
  entry "inherit_from" values = Some k -> entry "name" values = Some k ->
  inheritance (S depth) f values [] = Err ValueError.
Proof.
  intros HI HN. cbn [inheritance]. rewrite dget_entry, HI. unfold start_chain.
  rewrite dget_entry, entry_del. cbn [String.eqb Ascii.eqb Bool.eqb]. rewrite HN.
  cbn [List.length Nat.ltb Nat.leb existsb].
  rewrite (proj2 (value_eqb_spec k k) eq_refl). reflexivity.
Qed.

(** * Every reference ends, breaks or is circular *)

Lemma value_dec (a b : value) : {a = b} + {a <> b}.
Proof. decide equality; [apply string_dec|apply Z.eq_dec|apply string_dec]. Qed.
Lemma dict_dec (a b : dict) : {a = b} + {a <> b}.
Proof. apply list_eq_dec. intros [k v] [k' v']. destruct (string_dec k k'), (value_dec v v');
  subst; (left; reflexivity) || (right; congruence). Qed.

(** The keys and elements met within [n] steps. *)
Fixpoint walk (f : fixture) (n : nat) (k : option value) : list (value * dict) :=
  match n, k with
  | S n, Some k =>
    match getitem f k with
    | Ok b => (k, b) :: walk f n (entry "inherit_from" b)
    | Err _ => []
    end
  | _, _ => []
  end.

Definition broken (f : fixture) (k : value) : Prop :=
  exists e err, clos_refl_trans value (refers f) k e /\ getitem f e = Err err.

Lemma walk_cases f n : forall k,
  ancestry f (Some k) (walk f n (Some k)) \/ broken f k \/ List.length (walk f n (Some k)) = n.
Proof.
  induction n as [|n IH]; intros k; cbn [walk]; [auto|].
  destruct (getitem f k) as [b|e] eqn:E.
  - destruct (entry "inherit_from" b) as [k2|] eqn:EI.
    + destruct (IH k2) as [H|[H|H]].
      * left. constructor; [exact E|]. rewrite EI. exact H.
      * right. left. destruct H as [e [err [H1 H2]]]. exists e, err. split; [|exact H2].
        eapply rt_trans; [apply rt_step|exact H1]. exists b. auto.
      * right. right. cbn. rewrite H. reflexivity.
    + left. constructor; [exact E|]. rewrite EI. destruct n; constructor.
  - right. left. exists k, e. split; [apply rt_refl|exact E].
Qed.

Lemma walk_elements f n : forall k, incl (map snd (walk f n k)) (elements f).
Proof.
  induction n as [|n IH]; intros k; cbn [walk]; [intros x []|].
  destruct k as [k|]; [|intros x []]. destruct (getitem f k) as [b|] eqn:E; [|intros x []].
  cbn. intros x [<-|H]; [exact (getitem_element _ _ _ E)|exact (IH _ _ H)].
Qed.

Lemma walk_reach f n : forall k x b, In (x, b) (walk f n (Some k)) ->
  clos_refl_trans value (refers f) k x /\ getitem f x = Ok b.
Proof.
  induction n as [|n IH]; intros k x b; cbn [walk]; [intros []|].
  destruct (getitem f k) as [b0|] eqn:E; [|intros []].
  intros [H|H].
  - injection H as <- <-. split; [apply rt_refl|exact E].
  - destruct (entry "inherit_from" b0) as [k2|] eqn:EI; [|destruct n; contradiction].
    apply IH in H. destruct H as [H1 H2]. split; [|exact H2].
    eapply rt_trans; [apply rt_step|exact H1]. exists b0. auto.
Qed.

(** A repeated element in the walk is a circle. *)
Lemma walk_repeat f n : forall k, ~ NoDup (map snd (walk f n (Some k))) -> circular f k.
Proof.
  induction n as [|n IH]; intros k H; [exfalso; apply H; constructor|].
  cbn [walk] in H. destruct (getitem f k) as [b|] eqn:E; [|exfalso; apply H; constructor].
  destruct (entry "inherit_from" b) as [k2|] eqn:EI.
  - assert (Hk : refers f k k2) by (exists b; auto).
    cbn [map snd] in H. destruct (in_dec dict_dec b (map snd (walk f n (Some k2)))) as [Hin|Hin].
    + apply in_map_iff in Hin. destruct Hin as [[x b'] [Hb Hin]]. cbn in Hb. subst b'.
      apply walk_reach in Hin. destruct Hin as [H1 H2].
      exists k2. split; [apply rt_step; exact Hk|].
      assert (Hx : refers f x k2) by (exists b; auto).
      apply clos_rt_rtn1 in H1. eapply clos_rt_t; [apply clos_rtn1_rt; exact H1|].
      apply t_step. exact Hx.
    + destruct (IH k2) as [e [H1 H2]].
      { intros F. apply H. constructor; assumption. }
      exists e. split; [|exact H2]. eapply rt_trans; [apply rt_step; exact Hk|exact H1].
  - exfalso. apply H. destruct n; cbn; (constructor; [intros []|constructor]).
Qed.

Theorem reference_cases f k :
  (exists anc, ancestry f (Some k) anc /\ (List.length anc <= List.length (elements f))%nat) \/
  broken f k \/ circular f k.
Proof.
  set (N := S (List.length (elements f))).
  destruct (NoDup_dec dict_dec (map snd (walk f N (Some k)))) as [HN|HN];
    [|right; right; exact (walk_repeat _ _ _ HN)].
  pose proof (NoDup_incl_length HN (walk_elements f N (Some k))) as HL.
  rewrite map_length in HL.
  destruct (walk_cases f N k) as [H|[H|H]]; [left; eauto|auto|].
  exfalso. rewrite H in HL. subst N. lia.
Qed.

(** * The recursion limit is reached by circles only *)

Lemma getitem_err f k e : getitem f k = Err e -> e <> RecursionError.
Proof.
  assert (G : forall k, getitem_id f k = Err e -> e <> RecursionError).
  { intros i. unfold getitem_id. destruct (get value_eqb i (x_ids f)); [destruct i|];
      intros H; try discriminate; injection H as <-; discriminate. }
  destruct k as [s|z|r]; cbn [getitem]; [|apply G|apply G].
  destruct (get String.eqb (lower s) (x_names f)); [discriminate|].
  destruct (int_of_key (lower s)); apply G.
Qed.

Lemma recursion_deep f : well f -> forall depth k b chain,
  getitem f k = Ok b -> chain <> [] ->
  inheritance depth f (dput "name" k b) chain = Err RecursionError ->
  List.length (walk f depth (Some k)) = depth.
Proof.
  intros W. induction depth as [|depth IH]; intros k b chain Hk HC H; [reflexivity|].
  cbn [walk]. rewrite Hk. cbn [inheritance] in H.
  rewrite dget_entry, entry_put in H. cbn [String.eqb Ascii.eqb Bool.eqb] in H.
  destruct (entry "inherit_from" b) as [k2|] eqn:EI.
  - rewrite start_chain_on in H by exact HC. cbn [bind] in H.
    destruct (getitem f k2) as [b2|e] eqn:E2; cbn [bind] in H.
    + destruct (inheritance depth f (dput "name" k2 b2) (chain ++ [k2])) as [r|e] eqn:E3;
        cbn [bind] in H; [discriminate|].
      injection H as ->. apply IH in E3; [|exact E2|intros F; apply app_eq_nil in F; destruct F; discriminate].
      change (List.length ((k, b) :: walk f depth (Some k2))) with (S (List.length (walk f depth (Some k2)))).
      rewrite E3. reflexivity.
    + apply getitem_err in E2. injection H as ->. contradiction.
  - exfalso. destruct k as [s|z|r].
    + rewrite (self_base_found f s b W Hk) in H. cbn [bind] in H.
      pose proof (proj2 W _ (getitem_element _ _ _ Hk)) as [Hd _].
      rewrite dget_entry, entry_fill, entry_put in H by (apply put_dict; exact Hd).
      cbn [String.eqb Ascii.eqb Bool.eqb] in H. rewrite EI in H. discriminate.
    + unfold self_base in H. rewrite dget_entry, entry_put in H.
      cbn [String.eqb Ascii.eqb Bool.eqb bind] in H. discriminate.
    + unfold self_base in H. rewrite dget_entry, entry_put in H.
      cbn [String.eqb Ascii.eqb Bool.eqb bind] in H. discriminate.
Qed.

Lemma deep_circular f k n :
  (List.length (elements f) < n)%nat -> List.length (walk f n (Some k)) = n -> circular f k.
Proof.
  intros Hn HL. apply (walk_repeat f n). intros HN.
  pose proof (NoDup_incl_length HN (walk_elements f n (Some k))) as H.
  rewrite map_length in H. lia.
Qed.

Theorem limit_circular f values depth :
  well f -> python_dict values -> (List.length (elements f) + 2 < depth)%nat ->
  inheritance depth f values [] = Err RecursionError ->
  exists own k, own_element f values own /\
    nearest "inherit_from" (values :: own) = Some k /\ circular f k.
Proof.
  intros W HV HD H. destruct depth as [|depth]; [lia|].
  cbn [inheritance] in H. rewrite dget_entry in H.
  destruct (entry "inherit_from" values) as [k|] eqn:EI.
  - exists [], k. split; [unfold own_element; rewrite EI; reflexivity|].
    split; [cbn; rewrite EI; reflexivity|].
    destruct (start_chain (ddel "inherit_from" values) k []) as [c|e] eqn:EC; cbn [bind] in H.
    2:{ exfalso. unfold start_chain in EC. destruct (dget "name" _); [|discriminate].
        cbn in EC. destruct (value_eqb v k); [|discriminate]. injection EC as <-. discriminate. }
    destruct (getitem f k) as [b|e] eqn:E; cbn [bind] in H.
    2:{ exfalso. apply getitem_err in E. injection H as ->. contradiction. }
    destruct (inheritance depth f (dput "name" k b) (c ++ [k])) as [r|e] eqn:E2;
      cbn [bind] in H; [discriminate|]. injection H as ->.
    apply (recursion_deep f W) in E2;
      [|exact E|intros F; apply app_eq_nil in F; destruct F; discriminate].
    apply (deep_circular f k depth); [lia|exact E2].
  - destruct (self_base f values) as [[d|]|e] eqn:ES; cbn [bind] in H;
      [|discriminate|exfalso; unfold self_base in ES;
        destruct (dget "name" values) as [[| |]|]; try discriminate;
        (destruct (get String.eqb (lower s) (x_names f)); discriminate) ||
        (injection ES as <-; discriminate)].
    assert (HO : own_element f values [d]).
    { unfold own_element. rewrite EI. unfold self_base in ES. rewrite !dget_entry in ES.
      destruct (entry "name" values) as [[s|z|r]|]; try discriminate.
      - exists s. split; [reflexivity|]. cbn [query_name].
        destruct (get String.eqb (lower s) (x_names f)) as [d'|]; [injection ES as ->; reflexivity|].
        injection ES as ->. reflexivity.
      - injection ES as ->. reflexivity. }
    pose proof (own_elements f values [d] d EI HO (or_introl eq_refl)) as Hel.
    pose proof (proj2 W _ Hel) as [Hd Hname].
    assert (HE : forall key, entry key (fill d values) = nearest key (values :: [d])).
    { intros key. rewrite entry_fill by exact HV. cbn.
      destruct (entry key values); [reflexivity|]. destruct (entry key d); reflexivity. }
    rewrite !dget_entry, !HE in H.
    destruct (nearest "inherit_from" (values :: [d])) as [k|] eqn:EN; [|discriminate].
    exists [d], k. split; [exact HO|]. split; [exact EN|].
    destruct (nearest "name" (values :: [d])) as [n|]; [|discriminate].
    destruct depth as [|depth]; [lia|]. cbn [inheritance app] in H.
    rewrite dget_entry, HE, EN in H. rewrite start_chain_on in H by discriminate.
    cbn [bind] in H.
    destruct (getitem f k) as [b|e] eqn:E; cbn [bind] in H.
    2:{ exfalso. apply getitem_err in E. injection H as ->. contradiction. }
    destruct (inheritance depth f (dput "name" k b) ([n] ++ [k])) as [r|e] eqn:E2;
      cbn [bind] in H; [discriminate|]. injection H as ->.
    apply (recursion_deep f W) in E2; [|exact E|discriminate].
    apply (deep_circular f k depth); [lia|exact E2].
Qed.

Lemma elements_length f :
  List.length (elements f) = (List.length (x_names f) + List.length (x_ids f))%nat.
Proof. unfold elements. rewrite app_length, !map_length. reflexivity. Qed.

(** Asking for an item by its name. *)
Theorem complete_by_name ws ty x s w n anc depth :
  insert_all [] ws = Ok x -> Forall (fun w => python_dict (w_params w)) ws ->
  last_with (named ty s) ws w -> entry "name" (w_params w) = Some (VStr n) ->
  (exists f, component x ty = Ok f /\
     ancestry f (entry "inherit_from" (w_params w)) anc) ->
  last_by_name anc -> entry "inherit_from" (w_params w) <> Some (VStr n) ->
  (List.length anc + 1 < depth)%nat ->
  exists r,
    try_completing_model depth x ty [("name"%string, VStr s)] =
      Ok (r, match anc with [] => [] | _ => VStr n :: map fst anc end) /\
    python_dict r /\ entry "inherit_from" r = None /\
    forall key, key <> "inherit_from"%string ->
      entry key r = nearest key (w_params w :: map renamed anc).
Proof.
  intros HX HP HW HN [f [HF HA]] HL HS HD.
  assert (HFi : filled ws ty f) by (exists x; auto).
  pose proof (filled_well ws ty f HFi HP) as W.
  pose proof (filled_mirrors ws ty f HFi) as [_ [HG _]].
  assert (Hfind : find (namedb ty s) (rev ws) = Some w).
  { pose proof (find_last (namedb ty s) (named ty s) ws (namedb_spec ty s)) as H.
    destruct HW as [l1 [l2 [-> [H1 H2]]]].
    rewrite rev_app_distr. cbn [rev]. rewrite <- app_assoc. cbn [app].
    assert (Hr : forall l, Forall (fun w' => ~ named ty s w') l ->
                 find (namedb ty s) (l ++ w :: rev l1) = Some w).
    { induction 1 as [|a l Ha _ IH]; cbn.
      - rewrite (proj2 (namedb_spec ty s w) H1). reflexivity.
      - destruct (namedb ty s a) eqn:E; [apply namedb_spec in E; contradiction|exact IH]. }
    apply Hr. apply Forall_rev. exact H2. }
  assert (Hget : get String.eqb (lower s) (x_names f) = Some (w_params w)).
  { rewrite HG. unfold last_name. rewrite Hfind. reflexivity. }
  assert (Hns : lower n = lower s).
  { destruct HW as [l1 [l2 [_ [H1 _]]]]. destruct H1 as [_ [m [Hm H1]]].
    rewrite HN in Hm. injection Hm as <-. apply same_iff in H1. exact H1. }
  assert (HPw : python_dict (w_params w)).
  { rewrite Forall_forall in HP. apply HP. destruct HW as [l1 [l2 [-> _]]].
    rewrite in_app_iff. cbn. auto. }
  unfold try_completing_model. cbn [String.eqb Ascii.eqb Bool.eqb orb].
  assert (HQ : query_item x ty (dget "id" [("name"%string, VStr s)])
                 (dget "name" [("name"%string, VStr s)]) = Ok (w_params w)).
  { unfold query_item. cbn. rewrite HF. cbn. rewrite Hget. reflexivity. }
  rewrite HQ. cbn [bind]. rewrite HF. cbn [bind].
  set (own := match entry "inherit_from" (w_params w) with Some _ => [] | None => [w_params w] end).
  assert (HO : own_element f (w_params w) own).
  { unfold own_element, own. destruct (entry "inherit_from" (w_params w)); [reflexivity|].
    rewrite HN. exists n. split; [reflexivity|]. cbn [query_name]. rewrite Hns, Hget. reflexivity. }
  assert (HNr : nearest "inherit_from" (w_params w :: own) = entry "inherit_from" (w_params w)).
  { unfold own. cbn. destruct (entry "inherit_from" (w_params w)) eqn:E; [reflexivity|].
    cbn. rewrite E. reflexivity. }
  destruct (resolve f (w_params w) own anc depth) as [r [H1 [H2 [H3 H4]]]]; auto.
  { rewrite HNr. exact HA. }
  { intros k Hk. rewrite HN. intros F. injection F as <-. contradiction. }
  exists r. rewrite H1. split; [|split; [exact H2|split; [exact H3|]]].
  - do 2 f_equal. unfold chain_of. rewrite HNr. cbn [nearest]. rewrite HN.
    inversion HA; subst; reflexivity.
  - intros key Hkey. rewrite (H4 key Hkey). unfold own.
    destruct (entry "inherit_from" (w_params w)) eqn:E; [reflexivity|].
    cbn. destruct (entry key (w_params w)); reflexivity.
Qed.
