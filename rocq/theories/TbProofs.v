(** Proofs about testbeds, experiments and tasks. *)
From Coq Require Import QArith String Ascii.
From Verif Require Import PyBase FixModel TbModel TbSpec.
Open Scope nat_scope.
Open Scope list_scope.

Lemma printable_iff s : printable s = true <-> plain_text s.
Proof.
  unfold plain_text. induction s as [|c s IH]; cbn [printable].
  - split; [intros _ n c H; destruct n; discriminate|reflexivity].
  - rewrite !andb_true_iff, !Nat.leb_le, IH. split.
    + intros [[L U] K] [|n] d; cbn [String.get]; intros H; [injection H as <-; lia|exact (K n d H)].
    + intros K. pose proof (K O c eq_refl). split; [lia|]. intros n d H1. exact (K (S n) d H1).
Qed.

(** * Sets *)

Lemma pyset_incl {A} (eqb : A -> A -> bool) (l : list A) : incl (pyset eqb l) l.
Proof.
  induction l as [|a l IH]; simpl; [easy|].
  destruct (existsb (eqb a) (pyset eqb l)).
  - apply incl_tl, IH.
  - apply incl_cons; [now left | now apply incl_tl].
Qed.

Lemma pyset_length {A} (eqb : A -> A -> bool) (l : list A) :
  List.length (pyset eqb l) <= List.length l.
Proof.
  induction l as [|a l IH]; simpl; [lia|].
  destruct (existsb (eqb a) (pyset eqb l)); simpl; lia.
Qed.

Lemma pyset_full {A} (eqb : A -> A -> bool) (l : list A) :
  List.length l <= List.length (pyset eqb l) <->
  ForallOrdPairs (fun a b => eqb a b = false) l.
Proof.
  assert (FULL : forall l, List.length l <= List.length (pyset eqb l) -> pyset eqb l = l).
  { clear l. induction l as [|a l IH]; simpl; [easy|]. intros H.
    pose proof (pyset_length eqb l).
    destruct (existsb (eqb a) (pyset eqb l)); simpl in H; [lia|].
    f_equal. apply IH. lia. }
  induction l as [|a l IH]; simpl.
  - split; intros _; [constructor | lia].
  - split.
    + intros H. pose proof (pyset_length eqb l) as L.
      destruct (existsb (eqb a) (pyset eqb l)) eqn:E; simpl in H; [lia|].
      assert (H' : List.length l <= List.length (pyset eqb l)) by lia.
      rewrite (FULL l H') in E. constructor; [|now apply IH].
      apply Forall_forall. intros b Hb. destruct (eqb a b) eqn:F; [|reflexivity].
      assert (existsb (eqb a) l = true) by (apply existsb_exists; eauto). congruence.
    + intros H. inversion H as [|x y Ha Hl]; subst.
      apply IH in Hl. rewrite (FULL l Hl).
      destruct (existsb (eqb a) l) eqn:E; simpl; [|lia].
      apply existsb_exists in E. destruct E as [b [Hb Eb]].
      rewrite Forall_forall in Ha. rewrite (Ha b Hb) in Eb. discriminate.
Qed.

Lemma ordpairs_nodup {A} (eqb : A -> A -> bool) (l : list A) :
  (forall a b, eqb a b = true <-> a = b) ->
  ForallOrdPairs (fun a b => eqb a b = false) l <-> NoDup l.
Proof.
  intros E. induction l as [|a l IH].
  - split; constructor.
  - split; intros H; inversion H as [|x y Ha Hl]; subst.
    + constructor; [|now apply IH]. intros I. rewrite Forall_forall in Ha.
      specialize (Ha a I). rewrite (proj2 (E a a) eq_refl) in Ha. discriminate.
    + constructor; [|now apply IH]. apply Forall_forall. intros b Hb.
      destruct (eqb a b) eqn:F; [|reflexivity]. apply E in F. now subst.
Qed.

Lemma repeats_pairs {A} (eqb : A -> A -> bool) (l : list A) :
  repeats eqb l = false <-> ForallOrdPairs (fun a b => eqb a b = false) l.
Proof. unfold repeats. rewrite Nat.ltb_ge. apply pyset_full. Qed.

Lemma repeats_nodup {A} (eqb : A -> A -> bool) (l : list A) :
  (forall a b, eqb a b = true <-> a = b) -> repeats eqb l = false <-> NoDup l.
Proof. intros E. rewrite repeats_pairs. now apply ordpairs_nodup. Qed.

Lemma pyset_z_nodup l : NoDup (pyset Z.eqb l).
Proof.
  induction l as [|a l IH]; simpl; [constructor|].
  destruct (existsb (Z.eqb a) (pyset Z.eqb l)) eqn:E; [exact IH|].
  constructor; [|exact IH]. intros I.
  assert (existsb (Z.eqb a) (pyset Z.eqb l) = true)
    by (apply existsb_exists; exists a; split; [exact I | apply Z.eqb_refl]).
  congruence.
Qed.

Lemma pyset_z_in l a : In a (pyset Z.eqb l) <-> In a l.
Proof.
  induction l as [|b l IH]; simpl; [tauto|].
  destruct (existsb (Z.eqb b) (pyset Z.eqb l)) eqn:E; simpl; [|rewrite IH; tauto].
  apply existsb_exists in E. destruct E as [c [Hc Ec]]. apply Z.eqb_eq in Ec. subst c.
  rewrite IH. split; [tauto|]. intros [->|H]; [now apply IH | exact H].
Qed.

Lemma pyset_z_full l : List.length l <= List.length (pyset Z.eqb l) <-> NoDup l.
Proof. rewrite pyset_full. apply ordpairs_nodup, Z.eqb_eq. Qed.

(** Enough distinct elements. *)
Lemma pyset_z_prefix n l :
  NoDup (firstn n l) -> n <= List.length l -> n <= List.length (pyset Z.eqb l).
Proof.
  intros H L.
  assert (n = List.length (firstn n l)) as -> by (rewrite firstn_length; lia).
  apply NoDup_incl_length; [exact H|].
  intros a Ha. apply pyset_z_in. rewrite <- (firstn_skipn n l). apply in_or_app. now left.
Qed.

(** * Sequencing *)

Lemma each_spec {A B} (f : A -> res B) l bs :
  each f l = Ok bs <-> Forall2 (fun a b => f a = Ok b) l bs.
Proof.
  revert bs. induction l as [|a l IH]; intros bs; simpl.
  - split; intros H; [injection H as <-; constructor | inversion H; reflexivity].
  - destruct (f a) as [b|e] eqn:E; simpl.
    + destruct (each f l) as [bs'|e] eqn:F; simpl.
      * split; intros H.
        -- injection H as <-. constructor; [exact E | now apply IH].
        -- inversion H as [|x y la lb Hab Hr]; subst. rewrite E in Hab. injection Hab as <-.
           apply IH in Hr. now injection Hr as <-.
      * split; intros H; [discriminate|].
        inversion H as [|x y la lb Hab Hr]; subst. apply IH in Hr. discriminate.
    + split; intros H; [discriminate|].
      inversion H as [|x y la lb Hab Hr]; subst. congruence.
Qed.

Lemma each_unit {A} (f : A -> res unit) l :
  (exists u, each f l = Ok u) <-> Forall (fun a => f a = Ok tt) l.
Proof.
  split.
  - intros [u H]. apply each_spec in H. induction H as [|a b la lb Hab Hr IH]; constructor;
      [now destruct b | exact IH].
  - intros H. exists (repeat tt (List.length l)). apply each_spec.
    induction H; simpl; constructor; auto.
Qed.

Lemma forall2_impl {A B} (P Q : A -> B -> Prop) l bs :
  (forall a b, In a l -> P a b -> Q a b) -> Forall2 P l bs -> Forall2 Q l bs.
Proof.
  intros I H. induction H as [|a b la lb Hab Hr IH]; constructor.
  - apply I; [now left | exact Hab].
  - apply IH. intros a' b' Ha. apply I. now right.
Qed.

Lemma forall2_length {A B} (P : A -> B -> Prop) l bs :
  Forall2 P l bs -> List.length l = List.length bs.
Proof. induction 1; simpl; congruence. Qed.

Lemma existsb_z id l : existsb (Z.eqb id) l = true <-> In id l.
Proof.
  rewrite existsb_exists. split.
  - intros [a [Ha E]]. apply Z.eqb_eq in E. now subst.
  - intros H. exists id. split; [exact H | apply Z.eqb_refl].
Qed.

(** * Observers *)

Lemma active_with_spec id t :
  active_with id t = true <-> exists t', t = Some t' /\ t_id t' = id /\ t_active t' = true.
Proof.
  destruct t as [t|]; simpl.
  - rewrite andb_true_iff, Z.eqb_eq. split.
    + intros [H1 H2]. exists t. auto.
    + intros [t' [E [H1 H2]]]. injection E as <-. auto.
  - split; [discriminate|]. intros [t' [E _]]. discriminate.
Qed.

Lemma has_target_spec o id : has_target o id = true <-> exists p, carries o p id.
Proof.
  unfold has_target. rewrite orb_true_iff, !active_with_spec. split.
  - intros [[t H]|[t H]]; [exists PortA | exists PortB]; exists t; exact H.
  - intros [[|] [t H]]; [left | right]; exists t; exact H.
Qed.

Lemma offers_spec o id :
  offers o id <->
  o_active o = true /\ (exists c, o_cape o = Some c /\ c_active c = true) /\
  has_target o id = true.
Proof. unfold offers, usable. rewrite has_target_spec. tauto. Qed.

Lemma find_observer_ok obs id o :
  find_observer obs id = Ok o <->
  exists pre post, obs = pre ++ o :: post /\ offers o id /\
    Forall (fun q => ~ offers q id /\ ~ capeless q) pre.
Proof.
  induction obs as [|q obs IH]; simpl.
  - split; [discriminate|]. intros [pre [post [H _]]]. now destruct pre.
  - assert (SKIP : ~ offers q id /\ ~ capeless q ->
      ((exists pre post, obs = pre ++ o :: post /\ offers o id /\
          Forall (fun q => ~ offers q id /\ ~ capeless q) pre) <->
       (exists pre post, q :: obs = pre ++ o :: post /\ offers o id /\
          Forall (fun q => ~ offers q id /\ ~ capeless q) pre))).
    { intros N. split.
      - intros [pre [post [E [H F]]]]. exists (q :: pre), post. subst obs.
        repeat split; auto; apply H.
      - intros [[|q' pre] [post [E [H F]]]]; simpl in E; injection E as -> E.
        + now destruct N.
        + inversion F; subst. exists pre, post. auto. }
    destruct (o_active q) eqn:A; simpl.
    2:{ rewrite IH. apply SKIP. split.
        - rewrite offers_spec. intros [H _]. congruence.
        - intros [H _]. congruence. }
    destruct (o_cape q) as [c|] eqn:C.
    2:{ split; [discriminate|]. intros [[|q' pre] [post [E [H F]]]]; simpl in E;
          injection E as -> E.
        - destruct H as [[_ [c [H _]]] _]. congruence.
        - inversion F as [|x y Hx Hy]; subst. destruct Hx as [_ N]. exfalso. apply N. now split. }
    assert (NC : ~ capeless q) by (intros [_ H]; congruence).
    destruct (c_active c) eqn:CA; simpl.
    2:{ rewrite IH. apply SKIP. split; [|exact NC].
        rewrite offers_spec. intros [_ [[c' [H H']] _]]. congruence. }
    destruct (has_target q id) eqn:T.
    + assert (OF : offers q id) by (apply offers_spec; eauto).
      split.
      * intros H. injection H as <-. exists [], obs. auto.
      * intros [[|q' pre] [post [E [H F]]]]; simpl in E; injection E as -> E; [reflexivity|].
        inversion F as [|x y Hx Hy]; subst. now destruct Hx.
    + rewrite IH. apply SKIP. split; [|exact NC].
      rewrite offers_spec. intros [_ [_ H]]. congruence.
Qed.

Lemma find_observer_err obs id e :
  find_observer obs id = Err e ->
  (e = ValueError /\ Forall (fun q => ~ offers q id /\ ~ capeless q) obs) \/
  (e = AttributeError /\ exists pre q post, obs = pre ++ q :: post /\ capeless q /\
     Forall (fun q => ~ offers q id /\ ~ capeless q) pre).
Proof.
  induction obs as [|q obs IH]; simpl; intros H.
  - injection H as <-. left. auto.
  - assert (SKIP : ~ offers q id /\ ~ capeless q -> find_observer obs id = Err e ->
      (e = ValueError /\ Forall (fun q => ~ offers q id /\ ~ capeless q) (q :: obs)) \/
      (e = AttributeError /\ exists pre q' post, q :: obs = pre ++ q' :: post /\ capeless q' /\
         Forall (fun q => ~ offers q id /\ ~ capeless q) pre)).
    { intros N F. destruct (IH F) as [[-> G]|[-> [pre [q' [post [-> [G K]]]]]]].
      - left. auto.
      - right. split; [reflexivity|]. exists (q :: pre), q', post. auto. }
    destruct (o_active q) eqn:A; simpl in H.
    2:{ apply SKIP; [|exact H]. split.
        - rewrite offers_spec. intros [X _]. congruence.
        - intros [X _]. congruence. }
    destruct (o_cape q) as [c|] eqn:C.
    2:{ injection H as <-. right. split; [reflexivity|]. exists [], q, obs.
        split; [reflexivity|]. split; [now split | constructor]. }
    assert (NC : ~ capeless q) by (intros [_ X]; congruence).
    destruct (c_active c) eqn:CA; simpl in H.
    2:{ apply SKIP; [|exact H]. split; [|exact NC].
        rewrite offers_spec. intros [_ [[c' [X X']] _]]. congruence. }
    destruct (has_target q id) eqn:T; [discriminate|].
    apply SKIP; [|exact H]. split; [|exact NC].
    rewrite offers_spec. intros [_ [_ X]]. congruence.
Qed.

Lemma get_observer_ok tb id o : get_observer tb id = Ok o <-> reaches tb id o.
Proof. apply find_observer_ok. Qed.

Lemma get_observer_missing tb id :
  get_observer tb id = Err ValueError <->
  Forall (fun q => ~ offers q id /\ ~ capeless q) (tb_observers tb).
Proof.
  unfold get_observer. split.
  - intros H. apply find_observer_err in H. destruct H as [[_ H]|[H _]]; [exact H | discriminate].
  - intros H. destruct (find_observer (tb_observers tb) id) as [o|e] eqn:E.
    + apply find_observer_ok in E. destruct E as [pre [post [E [O _]]]].
      rewrite E in H. apply Forall_app in H. destruct H as [_ H]. inversion H; subst. tauto.
    + apply find_observer_err in E. destruct E as [[-> _]|[-> [pre [q [post [E [C _]]]]]]];
        [reflexivity|].
      rewrite E in H. apply Forall_app in H. destruct H as [_ H]. inversion H; subst. tauto.
Qed.

Lemma get_observer_crash tb id :
  get_observer tb id = Err AttributeError <->
  exists pre q post, tb_observers tb = pre ++ q :: post /\ capeless q /\
    Forall (fun q => ~ offers q id /\ ~ capeless q) pre.
Proof.
  unfold get_observer. split.
  - intros H. apply find_observer_err in H. destruct H as [[H _]|[_ H]]; [discriminate | exact H].
  - intros [pre [q [post [-> [[A C] F]]]]]. induction F as [|r pre [N1 N2] F IH]; simpl.
    + rewrite A, C. reflexivity.
    + destruct (o_active r) eqn:RA; simpl; [|exact IH].
      destruct (o_cape r) as [c|] eqn:RC; [|exfalso; apply N2; now split].
      destruct (c_active c) eqn:CA; simpl; [|exact IH].
      destruct (has_target r id) eqn:T; [|exact IH].
      exfalso. apply N1. apply offers_spec. eauto.
Qed.

Lemma get_observer_total tb id :
  (exists o, get_observer tb id = Ok o) \/ get_observer tb id = Err ValueError \/
  get_observer tb id = Err AttributeError.
Proof.
  destruct (get_observer tb id) as [o|e] eqn:E; [eauto|].
  apply find_observer_err in E. destruct E as [[-> _]|[-> _]]; auto.
Qed.

(** The port and target of a found observer. *)
Lemma port_ok o id :
  (exists p, carries o p id) ->
  exists p t, get_target_port o id = Ok p /\ get_target o id = Ok t /\ plugged o p t /\
    t_id t = id /\
    ((forall a b, o_target_a o = Some a -> o_target_b o = Some b -> t_active a = false ->
        t_id a <> t_id b) -> t_active t = true).
Proof.
  intros H. pose proof H as HT. apply has_target_spec in HT.
  unfold get_target_port, get_target. rewrite HT.
  destruct H as [p [t [P [I A]]]]. unfold id_is.
  destruct (o_target_a o) as [a|] eqn:EA.
  - destruct (Z.eqb id (t_id a)) eqn:E.
    + apply Z.eqb_eq in E. exists PortA, a. repeat split; auto.
      intros N. destruct (t_active a) eqn:AA; [reflexivity|].
      destruct p; simpl in P; [congruence|]. rewrite P in N.
      exfalso. apply (N a t eq_refl eq_refl AA). congruence.
    + apply Z.eqb_neq in E. destruct p; simpl in P; [congruence|].
      rewrite P. rewrite (proj2 (Z.eqb_eq id (t_id t))) by congruence.
      exists PortB, t. repeat split; auto.
  - destruct p; simpl in P; [congruence|]. rewrite P.
    rewrite (proj2 (Z.eqb_eq id (t_id t))) by congruence.
    exists PortB, t. repeat split; auto.
Qed.

(** * Testbed *)

Lemma testbed_ok tb :
  validate_testbed tb = Ok tt <->
  NoDup (map o_id (tb_observers tb)) /\ NoDup (map o_ip (tb_observers tb)) /\
  NoDup (map o_mac (tb_observers tb)) /\ NoDup (map o_eth (tb_observers tb)) /\
  ForallOrdPairs (fun a b => cape_eqb a b = false) (present (map o_cape (tb_observers tb))) /\
  ForallOrdPairs (fun a b => target_eqb a b = false) (flat_map targets_of (tb_observers tb)) /\
  (0 <= tb_prep_duration tb)%Z /\ tb_shared_storage tb = true.
Proof.
  unfold validate_testbed.
  rewrite <- (repeats_nodup Z.eqb (map o_id _)), <- (repeats_nodup Z.eqb (map o_ip _)),
    <- (repeats_nodup Z.eqb (map o_mac _)), <- (repeats_nodup String.eqb (map o_eth _)),
    <- !repeats_pairs by (first [apply Z.eqb_eq | apply String.eqb_eq]).
  destruct (repeats Z.eqb (map o_id (tb_observers tb)));
    [split; [discriminate | intros H; decompose [and] H; discriminate]|].
  destruct (repeats Z.eqb (map o_ip (tb_observers tb)));
    [split; [discriminate | intros H; decompose [and] H; discriminate]|].
  destruct (repeats Z.eqb (map o_mac (tb_observers tb)));
    [split; [discriminate | intros H; decompose [and] H; discriminate]|].
  destruct (repeats cape_eqb (present (map o_cape (tb_observers tb))));
    [split; [discriminate | intros H; decompose [and] H; discriminate]|].
  destruct (repeats target_eqb (flat_map targets_of (tb_observers tb)));
    [split; [discriminate | intros H; decompose [and] H; discriminate]|].
  destruct (repeats String.eqb (map o_eth (tb_observers tb)));
    [split; [discriminate | intros H; decompose [and] H; discriminate]|].
  destruct (Z.ltb_spec (tb_prep_duration tb) 0);
    [split; [discriminate | intros X; decompose [and] X; lia]|].
  destruct (tb_shared_storage tb); simpl;
    [|split; [discriminate | intros X; decompose [and] X; discriminate]].
  split; [|reflexivity]. intros _. repeat split; auto.
Qed.

Lemma observer_ok o :
  validate_observer o = Ok tt <-> (o_cape o = None -> targets_of o = []).
Proof.
  unfold validate_observer, targets_of.
  destruct (o_cape o), (o_target_a o), (o_target_b o); simpl; split; intros H;
    try reflexivity; try discriminate; try (specialize (H eq_refl)); try discriminate.
Qed.

(** * Configurations *)

Lemma check_mcu_ok db fw m : check_mcu db fw m = Ok tt <-> supplied db fw m.
Proof.
  unfold check_mcu, supplied. destruct m as [m|].
  2:{ destruct fw; (split; [intros _ m' H; discriminate | reflexivity]). }
  destruct fw as [f|].
  - destruct (Z.eqb_spec (m_id (f_mcu f)) (m_id m)) as [E|E]; simpl.
    + split; [|reflexivity]. intros _ m' H. injection H as <-. exists f. auto.
    + split; [discriminate|]. intros H. destruct (H m eq_refl) as [f' [[F|[F _]] I]];
        [|discriminate]. injection F as <-. contradiction.
  - destruct (db_firmware db (m_fw_default m)) as [d|] eqn:D.
    + destruct (Z.eqb_spec (m_id m) (m_id (f_mcu d))) as [E|E]; simpl.
      * split; [|reflexivity]. intros _ m' H. injection H as <-. exists d. auto.
      * split; [discriminate|]. intros H. destruct (H m eq_refl) as [f' [[F|[_ F]] I]];
          [discriminate|]. congruence.
    + split; [discriminate|]. intros H. destruct (H m eq_refl) as [f' [[F|[_ F]] I]];
        [discriminate|]. congruence.
Qed.

Lemma bind_unit (r : res unit) k : (let* _ := r in k) = Ok tt <-> r = Ok tt /\ k = Ok tt.
Proof.
  destruct r as [[]|e]; simpl; split; try tauto; intros H; try discriminate.
Qed.

Lemma config_ok db g :
  validate_config db g = Ok tt <->
  g_env_valid g = true /\
  (forall id, In id (g_targets g) ->
     exists t, db_target db id = Some t /\
       supplied db (Some (g_fw1 g)) (Some (t_mcu1 t)) /\ supplied db (g_fw2 g) (t_mcu2 t)) /\
  (forall c, g_customs g = Some c ->
     List.length (pyset Z.eqb (g_targets g)) <= List.length (pyset Z.eqb c)).
Proof.
  unfold validate_config. destruct (g_env_valid g); cbn [negb];
    [|split; [discriminate | intros [H _]; discriminate]].
  set (f := fun id => let* t := load_target db id in _).
  assert (F : forall id, f id = Ok tt <->
    exists t, db_target db id = Some t /\
       supplied db (Some (g_fw1 g)) (Some (t_mcu1 t)) /\ supplied db (g_fw2 g) (t_mcu2 t)).
  { intros id. unfold f, load_target. destruct (db_target db id) as [t|]; cbn [bind].
    - rewrite bind_unit, !check_mcu_ok. split.
      + intros H. exists t. auto.
      + intros [t' [E H]]. injection E as <-. exact H.
    - split; [discriminate|]. intros [t [E _]]. discriminate. }
  assert (C : (match g_customs g with
               | Some c => if Nat.ltb (List.length (pyset Z.eqb c))
                                (List.length (pyset Z.eqb (g_targets g)))
                           then Err ValueError else Ok tt
               | None => Ok tt end) = Ok tt <->
    (forall c, g_customs g = Some c ->
       List.length (pyset Z.eqb (g_targets g)) <= List.length (pyset Z.eqb c))).
  { destruct (g_customs g) as [c|].
    - destruct (Nat.ltb_spec (List.length (pyset Z.eqb c))
                  (List.length (pyset Z.eqb (g_targets g)))).
      + split; [discriminate|]. intros X. specialize (X c eq_refl). lia.
      + split; [|reflexivity]. intros _ c' E. injection E as <-. assumption.
    - split; [|reflexivity]. intros _ c E. discriminate. }
  rewrite <- C. clear C. pose proof (each_unit f (g_targets g)) as EU.
  split.
  - intros H. destruct (each f (g_targets g)) as [u|e]; [|discriminate]. cbn [bind] in H.
    split; [reflexivity|]. split; [|exact H].
    intros id I. apply F. pose proof (proj1 EU (ex_intro _ u eq_refl)) as A.
    rewrite Forall_forall in A. auto.
  - intros [_ [H1 H2]].
    assert (A : Forall (fun a => f a = Ok tt) (g_targets g))
      by (apply Forall_forall; intros id I; apply F; auto).
    apply EU in A. destruct A as [u ->]. exact H2.
Qed.

(** * Experiments *)

Lemma flat_map_length_le {A B C} (f : A -> list B) (g : A -> list C) l :
  (forall a, In a l -> List.length (f a) <= List.length (g a)) ->
  List.length (flat_map f l) <= List.length (flat_map g l).
Proof.
  induction l as [|a l IH]; simpl; intros H; [lia|].
  rewrite !app_length. pose proof (H a (or_introl eq_refl)).
  assert (List.length (flat_map f l) <= List.length (flat_map g l)) by (apply IH; auto). lia.
Qed.

Lemma nodup_app {A} (l1 l2 : list A) :
  NoDup (l1 ++ l2) -> NoDup l1 /\ NoDup l2 /\ (forall a, In a l1 -> ~ In a l2).
Proof.
  induction l1 as [|a l1 IH]; simpl; intros H.
  - split; [constructor|]. split; [exact H | intros b []].
  - inversion H as [|x y N D]; subst. destruct (IH D) as [H1 [H2 H3]].
    split; [constructor; [|exact H1]; intros I; apply N, in_or_app; now left|].
    split; [exact H2|]. intros b [->|I] J.
    + apply N, in_or_app. now right.
    + exact (H3 b I J).
Qed.

Lemma nodup_flat_part {A B} (f : A -> list B) l a :
  NoDup (flat_map f l) -> In a l -> NoDup (f a).
Proof.
  induction l as [|b l IH]; simpl; [tauto|]. intros H [->|I]; apply nodup_app in H;
    [tauto|]. apply IH; tauto.
Qed.

Lemma custom_ids_requested x : custom_ids x = flat_map requested (x_configs x).
Proof. reflexivity. Qed.

Lemma all_targets_flat x : all_targets x = get_target_ids x.
Proof. unfold all_targets, get_target_ids. symmetry. apply flat_map_concat_map. Qed.

Lemma experiment_ok db tb x :
  validate_experiment db tb x = Ok tt <->
  Forall (sound_config db) (x_configs x) /\
  NoDup (all_targets x) /\ NoDup (flat_map requested (x_configs x)) /\
  (exists obs, Forall2 (reaches tb) (all_targets x) obs /\ NoDup (map o_id obs)) /\
  (forall d, x_duration x = Some d -> 0 <= d)%Z.
Proof.
  rewrite all_targets_flat. unfold validate_experiment.
  pose proof (each_unit (validate_config db) (x_configs x)) as EU.
  split.
  - intros H.
    destruct (each (validate_config db) (x_configs x)) as [u|e]; [|discriminate]. cbn [bind] in H.
    pose proof (proj1 EU (ex_intro _ u eq_refl)) as CF. clear EU u. rewrite Forall_forall in CF.
    apply bind_unit in H. destruct H as [HT H]. apply bind_unit in H. destruct H as [HO HD].
    unfold validate_targets in HT.
    destruct (each (load_target db) (get_target_ids x)) as [ts|e]; [|discriminate].
    cbn [bind] in HT.
    destruct (Nat.ltb_spec (List.length (pyset Z.eqb (get_target_ids x)))
                (List.length (get_target_ids x))) as [|H1]; [discriminate|].
    destruct (Nat.ltb_spec (List.length (pyset Z.eqb (custom_ids x)))
                (List.length (get_target_ids x))) as [|H2]; [discriminate|]. clear HT.
    apply pyset_z_full in H1.
    unfold validate_observers in HO.
    destruct (each (get_observer tb) (get_target_ids x)) as [obs|e] eqn:EO; [|discriminate].
    cbn [bind] in HO.
    destruct (Nat.ltb_spec (List.length (pyset Z.eqb (map o_id obs)))
                (List.length (get_target_ids x))) as [|H3]; [discriminate|]. clear HO.
    apply each_spec in EO.
    assert (LC : List.length (custom_ids x) <= List.length (get_target_ids x)).
    { rewrite custom_ids_requested. apply flat_map_length_le. intros g _. unfold requested.
      destruct (g_customs g); [rewrite firstn_length|]; lia. }
    split.
    + apply Forall_forall. intros g I. destruct (proj1 (config_ok db g) (CF g I)) as [C1 [C2 C3]].
      split; [exact C1|]. split; [exact C2|]. intros c E. specialize (C3 c E).
      assert (N : NoDup (g_targets g)) by (apply (nodup_flat_part g_targets (x_configs x)); auto).
      apply pyset_z_full in N. pose proof (pyset_length Z.eqb c). lia.
    + split; [exact H1|]. split; [|split].
      * rewrite <- custom_ids_requested. apply pyset_z_full. lia.
      * exists obs. split.
        -- eapply forall2_impl; [|exact EO]. intros a b _ X. now apply get_observer_ok.
        -- apply pyset_z_full. rewrite map_length, <- (forall2_length _ _ _ EO). exact H3.
      * intros d E. rewrite E in HD. destruct (Z.ltb_spec d 0); [discriminate | assumption].
  - intros [HC [HT [HR [[obs [HO HN]] HD]]]]. rewrite Forall_forall in HC.
    assert (A : Forall (fun g => validate_config db g = Ok tt) (x_configs x)).
    { apply Forall_forall. intros g I. apply config_ok. destruct (HC g I) as [C1 [C2 C3]].
      split; [exact C1|]. split; [exact C2|]. intros c E.
      pose proof (nodup_flat_part requested _ g HR I) as N. unfold requested in N. rewrite E in N.
      pose proof (pyset_z_prefix _ _ N (C3 c E)). pose proof (pyset_length Z.eqb (g_targets g)).
      lia. }
    apply EU in A. destruct A as [u ->]. cbn [bind].
    assert (T : validate_targets db x = Ok tt).
    { unfold validate_targets.
      assert (L : exists ts, each (load_target db) (get_target_ids x) = Ok ts).
      { assert (E : forall id, In id (get_target_ids x) -> exists t, load_target db id = Ok t).
        { intros id I. apply in_flat_map in I. destruct I as [g [Ig I]].
          destruct (HC g Ig) as [_ [C2 _]]. destruct (C2 id I) as [t [E _]]. exists t.
          unfold load_target. now rewrite E. }
        clear -E. induction (get_target_ids x) as [|id l IH]; simpl; [eauto|].
        destruct (E id (or_introl eq_refl)) as [t ->]. cbn [bind].
        destruct IH as [ts ->]; [intros; apply E; now right|]. simpl. eauto. }
      destruct L as [ts ->]. cbn [bind].
      destruct (Nat.ltb_spec (List.length (pyset Z.eqb (get_target_ids x)))
                  (List.length (get_target_ids x))) as [L|_];
        [apply pyset_z_full in HT; lia|].
      destruct (Nat.ltb_spec (List.length (pyset Z.eqb (custom_ids x)))
                  (List.length (get_target_ids x))) as [L|_]; [|reflexivity].
      exfalso. rewrite custom_ids_requested in L. apply pyset_z_full in HR.
      assert (List.length (get_target_ids x) <= List.length (flat_map requested (x_configs x))).
      { apply flat_map_length_le. intros g I. unfold requested. destruct (HC g I) as [_ [_ C3]].
        destruct (g_customs g) as [c|]; [|lia]. rewrite firstn_length. specialize (C3 c eq_refl).
        lia. }
      lia. }
    rewrite T. cbn [bind].
    assert (O : validate_observers tb x = Ok tt).
    { unfold validate_observers.
      assert (E : each (get_observer tb) (get_target_ids x) = Ok obs).
      { apply each_spec. eapply forall2_impl; [|exact HO]. intros a b _ X.
        now apply get_observer_ok. }
      rewrite E. cbn [bind]. apply pyset_z_full in HN.
      rewrite map_length, <- (forall2_length _ _ _ HO) in HN.
      destruct (Nat.ltb_spec (List.length (pyset Z.eqb (map o_id obs)))
                  (List.length (get_target_ids x))); [lia | reflexivity]. }
    rewrite O. cbn [bind]. destruct (x_duration x) as [d|]; [|reflexivity].
    specialize (HD d eq_refl). destruct (Z.ltb_spec d 0); [lia | reflexivity].
Qed.

(** * Configuration of a target *)

Lemma find_config_ok gs id :
  In id (flat_map g_targets gs) -> NoDup (flat_map g_targets gs) ->
  exists pre g post, find_config gs id = Ok g /\ gs = pre ++ g :: post /\ In id (g_targets g) /\
    forall g', In g' (pre ++ post) -> ~ In id (g_targets g').
Proof.
  induction gs as [|g gs IH]; simpl; [tauto|]. intros I N.
  apply nodup_app in N. destruct N as [N1 [N2 N3]].
  destruct (existsb (Z.eqb id) (g_targets g)) eqn:E.
  - apply existsb_z in E. exists [], g, gs. repeat split; auto.
    intros g' J K. apply (N3 id E). apply in_flat_map. eauto.
  - assert (NI : ~ In id (g_targets g)) by (rewrite <- existsb_z; congruence).
    apply in_app_or in I. destruct I as [I|I]; [contradiction|].
    destruct (IH I N2) as [pre [g' [post [F [-> [J K]]]]]].
    exists (g :: pre), g', post. repeat split; auto.
    intros g'' [<-|L]; [exact NI | now apply K].
Qed.

Lemma target_config_ok x id :
  NoDup (all_targets x) -> In id (all_targets x) ->
  exists g, get_target_config x id = Ok g /\ In g (x_configs x) /\ only_config x id g.
Proof.
  rewrite all_targets_flat. intros N I.
  destruct (find_config_ok _ _ I N) as [pre [g [post [F [E [J K]]]]]].
  exists g. split; [exact F|]. split; [rewrite E; apply in_elt|].
  exists pre, post. auto.
Qed.

Lemma index_ok id l : In id l -> nth_error l (index id l) = Some id.
Proof.
  induction l as [|a l IH]; simpl; [tauto|]. intros H.
  destruct (Z.eqb_spec id a) as [->|E]; [reflexivity|]. simpl. apply IH.
  destruct H; [congruence | assumption].
Qed.

Lemma nth_error_length {A} (l : list A) k a : nth_error l k = Some a -> k < List.length l.
Proof. intros H. apply nth_error_Some. congruence. Qed.

Lemma custom_id_ok db g id :
  sound_config db g -> In id (g_targets g) ->
  match g_customs g with
  | Some c => exists k z, get_custom_id g id = Ok (Some z) /\
      nth_error (g_targets g) k = Some id /\ nth_error c k = Some z
  | None => get_custom_id g id = Ok None
  end.
Proof.
  intros [_ [_ C]] I. unfold get_custom_id. destruct (g_customs g) as [c|]; [|reflexivity].
  rewrite (proj2 (existsb_z _ _) I). pose proof (index_ok _ _ I) as X.
  pose proof (nth_error_length _ _ _ X). specialize (C c eq_refl).
  destruct (nth_error c (index id (g_targets g))) as [z|] eqn:E.
  - exists (index id (g_targets g)), z. auto.
  - apply nth_error_None in E. lia.
Qed.

(** * Tasks *)

Lemma app_string_inj_l p a b : (p ++ a)%string = (p ++ b)%string -> a = b.
Proof. induction p as [|c p IH]; simpl; [easy|]. intros H. injection H as H. auto. Qed.

Lemma app_string_length a b : String.length (a ++ b) = String.length a + String.length b.
Proof. induction a; simpl; congruence. Qed.

Lemma app_string_inj_r a b s : (a ++ s)%string = (b ++ s)%string -> a = b.
Proof.
  revert b. induction a as [|c a IH]; intros [|d b] H; simpl in *; auto.
  - apply (f_equal String.length) in H. simpl in H. rewrite app_string_length in H. lia.
  - apply (f_equal String.length) in H. simpl in H. rewrite app_string_length in H. lia.
  - injection H as -> H. f_equal. auto.
Qed.

Lemma file_name_inj p o q s : file_name p o s = file_name p q s -> o_name o = o_name q.
Proof. unfold file_name. intros H. apply app_string_inj_l, app_string_inj_r in H. exact H. Qed.

Lemma last_inj {A} (l1 l2 : list A) a b : l1 ++ [a] = l2 ++ [b] -> a = b.
Proof. intros H. apply app_inj_tail in H. tauto. Qed.

Section Tasks.
  Context (strftime : Z -> string).

  (** What one target contributes. *)
  Definition contribution (tb : testbed) (x : experiment) (id : Z) (t : observer_tasks) : Prop :=
    exists o g root m1 m2 p1 p2 e p tt z,
      get_observer tb id = Ok o /\ get_target_config x id = Ok g /\ In g (x_configs x) /\
      get_target_port o id = Ok p /\ get_target o id = Ok tt /\
      ot_observer t = o_name o /\
      get_custom_id g id = Ok z /\
      let fid := match z with Some z => z | None => t_testbed_id tt end in
      let f1 := root ++ [file_name "fw1_" o ".hex"] in
      let f2 := root ++ [file_name "fw2_" o ".hex"] in
      ot_fw1_mod t = Some m1 /\ m1 = mkMod (f_data (g_fw1 g)) (f_type (g_fw1 g)) fid f1 /\
      ot_fw2_mod t = m2 /\
      m2 = option_map (fun f => mkMod (f_data f) (f_type f) fid f2) (g_fw2 g) /\
      ot_fw1_prog t = Some p1 /\
      p1 = mkProg f1 p Mcu1 (m_name (f_mcu (g_fw1 g))) (m_voltage (f_mcu (g_fw1 g)))
             (m_datarate (f_mcu (g_fw1 g))) /\
      ot_fw2_prog t = p2 /\
      p2 = option_map (fun f => mkProg f2 p Mcu2 (m_name (f_mcu f)) (m_voltage (f_mcu f))
             (m_datarate (f_mcu f))) (g_fw2 g) /\
      ot_emulation t = Some e /\
      e = mkEmu (g_env_path g) (root ++ [file_name "emu_" o ".h5"]) (x_time_start x)
            (x_duration x) (x_abort x) (g_tracing g || g_actuation g) p p (g_rest g) /\
      ot_root t = root /\ ot_owner t = x_owner x /\ ot_abort t = x_abort x.

  Lemma mod_ok x tb id o g tt z p f file :
    get_observer tb id = Ok o -> get_target_config x id = Ok g -> get_target o id = Ok tt ->
    get_custom_id g id = Ok z -> firmware_for g p = f ->
    mod_from_xp x tb id p file =
      Ok (option_map (fun f => mkMod (f_data f) (f_type f)
            match z with Some z => z | None => t_testbed_id tt end file) f).
  Proof.
    intros HO HG HT HZ HF. unfold mod_from_xp. rewrite HG. cbn [bind]. rewrite HF.
    destruct f as [f|]; [|reflexivity]. rewrite HZ. cbn [bind].
    destruct z as [z|]; cbn [bind option_map]; [reflexivity|].
    rewrite HO. cbn [bind]. rewrite HT. reflexivity.
  Qed.

  Lemma prog_ok x tb id o g tp p f file :
    get_observer tb id = Ok o -> get_target_config x id = Ok g -> get_target_port o id = Ok tp ->
    firmware_for g p = f -> (forall f', f = Some f' -> programmable (f_mcu f')) ->
    prog_from_xp x tb id p file =
      Ok (option_map (fun f => mkProg file tp p (m_name (f_mcu f)) (m_voltage (f_mcu f))
            (m_datarate (f_mcu f))) f).
  Proof.
    intros HO HG HT HF HP. unfold prog_from_xp. rewrite HO. cbn [bind]. rewrite HG. cbn [bind].
    rewrite HF. destruct f as [f|]; [|reflexivity]. rewrite HT. cbn [bind].
    destruct (HP f eq_refl) as [P1 [P2 P3]]. rewrite (proj2 (printable_iff _) P1). cbn [negb].
    rewrite (proj2 (Qle_bool_iff _ _) P2).
    destruct (Qle_bool 5 (m_voltage (f_mcu f))) eqn:E.
    - apply Qle_bool_iff in E. exfalso. apply (Qlt_not_le _ _ P3 E).
    - reflexivity.
  Qed.

  (** What is programmed can be programmed. *)
  Lemma prog_fits x tb id p file t : prog_from_xp x tb id p file = Ok (Some t) ->
    exists g f, In g (x_configs x) /\ In id (g_targets g) /\ firmware_for g p = Some f /\ programmable (f_mcu f).
  Proof.
    unfold prog_from_xp. destruct (get_observer tb id) as [o|]; [|discriminate]. cbn [bind].
    destruct (get_target_config x id) as [g|] eqn:HG; [|discriminate]. cbn [bind].
    destruct (firmware_for g p) as [f|] eqn:HF; [|discriminate]. destruct (get_target_port o id); [|discriminate]. cbn [bind].
    destruct (printable (m_name (f_mcu f))) eqn:E1; [|discriminate]. cbn [negb].
    destruct (Qle_bool 1 (m_voltage (f_mcu f))) eqn:E2; [|discriminate].
    destruct (Qle_bool 5 (m_voltage (f_mcu f))) eqn:E3; [discriminate|]. intros _. exists g, f.
    assert (I : In g (x_configs x) /\ In id (g_targets g)).
    { clear -HG. unfold get_target_config in HG. induction (x_configs x) as [|g' gs IH]; cbn in HG; [discriminate|].
      destruct (existsb (Z.eqb id) (g_targets g')) eqn:E.
      - injection HG as <-. split; [now left|]. apply existsb_exists in E as (y & Y1 & Y2). apply Z.eqb_eq in Y2. now subst.
      - destruct (IH HG) as [I1 I2]. split; [now right|exact I2]. }
    destruct I as [I1 I2]. split; [exact I1|]. split; [exact I2|]. split; [exact HF|].
    split; [apply printable_iff; exact E1|]. split; [now apply Qle_bool_iff|].
    apply Qnot_le_lt. intros L. apply Qle_bool_iff in L. congruence.
  Qed.

  Lemma firmware_for_in g p f : firmware_for g p = Some f -> In (p, f) (firmwares g).
  Proof.
    unfold firmware_for, firmwares. destruct p; intros H.
    - injection H as <-. now left.
    - rewrite H. right. now left.
  Qed.

  Lemma observer_tasks_ok db tb x id now1 now2 :
    validate_testbed tb = Ok tt -> validate_experiment db tb x = Ok tt ->
    In id (all_targets x) ->
    (forall g p f, In g (x_configs x) -> In (p, f) (firmwares g) -> programmable (f_mcu f)) ->
    (forall g, In g (x_configs x) -> g_actuation g = false) ->
    (forall t, x_time_start x = Some t -> now2 <= t)%Z ->
    exists t, observer_from_xp strftime x tb id now1 now2 = Ok t /\ contribution tb x id t.
  Proof.
    intros VT VX I HP HA HS.
    apply testbed_ok in VT. destruct VT as [_ [_ [_ [_ [_ [_ [_ SH]]]]]]].
    apply experiment_ok in VX. destruct VX as [HC [HT [HR [[obs [HO HN]] HD]]]].
    destruct (target_config_ok x id HT I) as [g [HG [IG [pre [post [EG [JG KG]]]]]]].
    rewrite Forall_forall in HC. pose proof (HC g IG) as SC.
    assert (EO : exists o, get_observer tb id = Ok o /\ reaches tb id o).
    { clear -HO I. induction HO as [|a b la lb Hab Hr IH]; [destruct I|].
      destruct I as [->|I]; [|auto]. exists b. split; [now apply get_observer_ok | exact Hab]. }
    destruct EO as [o [EO RE]]. pose proof RE as [pr [po [_ [[_ CR] _]]]].
    destruct (port_ok o id CR) as [p [tt [TP [TG [_ [_ _]]]]]].
    assert (EZ : exists z, get_custom_id g id = Ok z).
    { pose proof (custom_id_ok db g id SC JG) as X.
      destruct (g_customs g); [destruct X as [k [z [X _]]]; eauto | eauto]. }
    destruct EZ as [z EZ].
    unfold observer_from_xp. rewrite SH. cbn [negb]. rewrite EO. cbn [bind].
    set (root := tb_data_on_observer tb ++ _).
    rewrite (mod_ok x tb id o g tt z Mcu1 (Some (g_fw1 g))) by (auto; reflexivity).
    cbn [bind].
    rewrite (mod_ok x tb id o g tt z Mcu2 (g_fw2 g)) by (auto; reflexivity).
    cbn [bind].
    rewrite (prog_ok x tb id o g p Mcu1 (Some (g_fw1 g))); auto.
    2:{ intros f E. apply (HP g Mcu1 f IG). now apply firmware_for_in. }
    cbn [bind].
    rewrite (prog_ok x tb id o g p Mcu2 (g_fw2 g)); auto.
    2:{ intros f E. apply (HP g Mcu2 f IG). now apply firmware_for_in. }
    cbn [bind]. unfold emu_from_xp. rewrite EO. cbn [bind]. rewrite HG. cbn [bind].
    rewrite TP. cbn [bind].
    assert (E1 : match x_time_start x with Some t => Z.ltb t now2 | None => false end = false).
    { destruct (x_time_start x) as [t|]; [|reflexivity]. apply Z.ltb_ge. auto. }
    rewrite E1.
    assert (E2 : match x_duration x with Some d => Z.ltb d 0 | None => false end = false).
    { destruct (x_duration x) as [t|]; [|reflexivity]. apply Z.ltb_ge. auto. }
    rewrite E2. rewrite (HA g IG). cbn [bind].
    eexists. split; [reflexivity|].
    exists o, g, root. do 5 eexists. exists p, tt, z. cbn zeta.
    rewrite (HA g IG).
    repeat match goal with |- _ /\ _ => split end; try reflexivity; auto.
  Qed.

  (** Conversely, any successful translation is of this form. *)
  Lemma observer_tasks_inv x tb id now1 now2 t :
    observer_from_xp strftime x tb id now1 now2 = Ok t -> In id (all_targets x) ->
    NoDup (all_targets x) -> contribution tb x id t.
  Proof.
    intros H I HT. unfold observer_from_xp in H.
    destruct (target_config_ok x id HT I) as [g [HG [IG [pre [post [EG [JG KG]]]]]]].
    destruct (tb_shared_storage tb); cbn [negb] in H; [|discriminate].
    destruct (get_observer tb id) as [o|] eqn:EO; cbn [bind] in H; [|discriminate].
    pose proof (proj1 (get_observer_ok _ _ _) EO) as [pr [po [_ [[_ CR] _]]]].
    destruct (port_ok o id CR) as [p [tt [TP [TG [_ [_ _]]]]]].
    set (root := tb_data_on_observer tb ++ _) in H.
    destruct (get_custom_id g id) as [z|] eqn:EZ.
    2:{ unfold mod_from_xp in H. rewrite HG in H. cbn [bind firmware_for] in H.
        rewrite EZ in H. discriminate. }
    rewrite (mod_ok x tb id o g tt z Mcu1 (Some (g_fw1 g))) in H by (auto; reflexivity).
    cbn [bind] in H.
    rewrite (mod_ok x tb id o g tt z Mcu2 (g_fw2 g)) in H by (auto; reflexivity).
    cbn [bind] in H.
    unfold prog_from_xp in H. rewrite EO in H. cbn [bind] in H. rewrite HG in H.
    cbn [bind firmware_for] in H. rewrite TP in H. cbn [bind] in H.
    destruct (printable (m_name (f_mcu (g_fw1 g)))); cbn [negb] in H; [|discriminate].
    destruct (Qle_bool 1 (m_voltage (f_mcu (g_fw1 g))) &&
              negb (Qle_bool 5 (m_voltage (f_mcu (g_fw1 g)))));
      cbn [negb bind] in H; [|discriminate].
    assert (H2 : (let* e := emu_from_xp x tb id root now2 in
       Ok (mkOt (o_name o) (x_owner x)
            (match x_time_start x with Some t => t | None => (now1 + 180)%Z end
             - tb_prep_duration tb) root (x_abort x)
            (option_map (fun f => mkMod (f_data f) (f_type f)
               match z with Some z => z | None => t_testbed_id tt end
               (root ++ [file_name "fw1_" o ".hex"])) (Some (g_fw1 g)))
            (option_map (fun f => mkMod (f_data f) (f_type f)
               match z with Some z => z | None => t_testbed_id tt end
               (root ++ [file_name "fw2_" o ".hex"])) (g_fw2 g))
            (Some (mkProg (root ++ [file_name "fw1_" o ".hex"]) p Mcu1
               (m_name (f_mcu (g_fw1 g))) (m_voltage (f_mcu (g_fw1 g)))
               (m_datarate (f_mcu (g_fw1 g)))))
            (option_map (fun f => mkProg (root ++ [file_name "fw2_" o ".hex"]) p Mcu2
               (m_name (f_mcu f)) (m_voltage (f_mcu f)) (m_datarate (f_mcu f))) (g_fw2 g))
            (Some e))) = Ok t).
    { destruct (g_fw2 g) as [f|]; cbn [bind] in H; [|exact H].
      destruct (printable (m_name (f_mcu f))); cbn [negb] in H; [|discriminate].
      destruct (Qle_bool 1 (m_voltage (f_mcu f)) && negb (Qle_bool 5 (m_voltage (f_mcu f))));
        cbn [negb bind] in H; [exact H|discriminate]. }
    clear H. unfold emu_from_xp in H2. rewrite EO in H2. cbn [bind] in H2. rewrite HG in H2.
    cbn [bind] in H2. rewrite TP in H2. cbn [bind] in H2.
    destruct (match x_time_start x with Some t => Z.ltb t now2 | None => false end);
      [discriminate|].
    destruct (match x_duration x with Some d => Z.ltb d 0 | None => false end); [discriminate|].
    destruct (g_actuation g) eqn:GA; [discriminate|]. cbn [bind] in H2.
    injection H2 as <-.
    exists o, g, root. do 5 eexists. exists p, tt, z. cbn zeta. rewrite GA.
    repeat match goal with |- _ /\ _ => split end; try reflexivity; auto.
  Qed.

  Lemma tasks_for_ok db tb x ids clock :
    validate_testbed tb = Ok tt -> validate_experiment db tb x = Ok tt ->
    incl ids (all_targets x) ->
    (forall g p f, In g (x_configs x) -> In (p, f) (firmwares g) -> programmable (f_mcu f)) ->
    (forall g, In g (x_configs x) -> g_actuation g = false) ->
    (forall t n, x_time_start x = Some t -> clock n <= t)%Z ->
    exists ts, tasks_for strftime x tb clock ids = Ok ts.
  Proof.
    intros VT VX. revert clock. induction ids as [|id ids IH]; intros clock I HP HA HS; simpl.
    - eauto.
    - destruct (observer_tasks_ok db tb x id (clock 0) (clock 1)) as [t [E _]]; auto.
      { apply I. now left. }
      rewrite E. cbn [bind].
      destruct (IH (fun n => clock (S (S n)))) as [ts ->]; auto.
      { intros a Ha. apply I. now right. }
      cbn [bind]. eauto.
  Qed.

  Lemma tasks_for_inv tb x ids clock ts :
    tasks_for strftime x tb clock ids = Ok ts -> incl ids (all_targets x) ->
    NoDup (all_targets x) -> Forall2 (contribution tb x) ids ts.
  Proof.
    revert clock ts. induction ids as [|id ids IH]; intros clock ts H I N; simpl in H.
    - injection H as <-. constructor.
    - destruct (observer_from_xp strftime x tb id (clock 0) (clock 1)) as [t|] eqn:E;
        cbn [bind] in H; [|discriminate].
      destruct (tasks_for strftime x tb _ ids) as [ts'|] eqn:F; cbn [bind] in H; [|discriminate].
      injection H as <-. constructor.
      + eapply observer_tasks_inv; eauto. apply I. now left.
      + eapply IH; eauto. intros a Ha. apply I. now right.
  Qed.

  Lemma tasks_inv db tb x clock ts :
    validate_experiment db tb x = Ok tt -> tasks_from_xp strftime x tb clock = Ok ts ->
    Forall2 (contribution tb x) (all_targets x) ts.
  Proof.
    intros VX H. apply experiment_ok in VX. destruct VX as [_ [N _]].
    unfold tasks_from_xp in H. rewrite <- all_targets_flat in H.
    eapply tasks_for_inv; eauto. apply incl_refl.
  Qed.

  (** ** Shape of the tasks of one target *)

  Lemma contribution_proper db tb x id t :
    validate_experiment db tb x = Ok tt -> In id (all_targets x) -> no_twin tb ->
    contribution tb x id t ->
    exists o g, reaches tb id o /\ only_config x id g /\ ot_observer t = o_name o /\
      proper_tasks o x g id (get_tasks t).
  Proof.
    intros VX I NT H.
    destruct H as [o [g [root [m1 [m2 [p1 [p2 [e [p [ta [z H]]]]]]]]]]].
    destruct H as [HO [HG [IG [HP [HT [HN [HZ H]]]]]]]. cbn zeta in H.
    destruct H as [E1 [D1 [E2 [D2 [E3 [D3 [E4 [D4 [E5 [D5 _]]]]]]]]]].
    apply experiment_ok in VX. destruct VX as [HC [ND _]]. rewrite Forall_forall in HC.
    destruct (target_config_ok x id ND I) as [g' [HG' [_ OC]]].
    rewrite HG in HG'. injection HG' as <-.
    apply get_observer_ok in HO. exists o, g.
    split; [exact HO|]. split; [exact OC|]. split; [exact HN|].
    destruct HO as [pr [po [EO [[US CR] _]]]].
    destruct (port_ok o id CR) as [p' [ta' [HP' [HT' [PL [TI TA]]]]]].
    rewrite HP in HP'. injection HP' as <-. rewrite HT in HT'. injection HT' as <-.
    assert (CA : carries o p id).
    { exists ta. split; [exact PL|]. split; [exact TI|]. apply TA. intros a b Ha Hb Hi.
      apply (NT o a b); auto. rewrite EO. apply in_elt. }
    destruct OC as [pre [post [_ [JG _]]]].
    set (fid := match z with Some z => z | None => t_testbed_id ta end) in *.
    assert (FI : firmware_id o g id fid).
    { unfold firmware_id. pose proof (custom_id_ok db g id (HC g IG) JG) as X.
      destruct (g_customs g) as [c|].
      - destruct X as [k [z' [X1 [X2 X3]]]]. rewrite HZ in X1. injection X1 as ->.
        exists k. auto.
      - rewrite HZ in X. injection X as ->. exists p, ta. auto. }
    assert (NF : root ++ [file_name "fw1_" o ".hex"] <> root ++ [file_name "fw2_" o ".hex"]).
    { intros X. apply last_inj in X. unfold file_name in X. simpl in X. discriminate. }
    unfold get_tasks. rewrite E1, E2, E3, E4, E5, D2, D4. unfold proper_tasks, firmwares.
    destruct (g_fw2 g) as [f2|]; cbn [option_map present].
    - do 2 eexists. exists e, p. split.
      { instantiate (2 := [_; _]). instantiate (1 := [_; _]). reflexivity. }
      split; [exact CA|]. subst m1 p1 e. cbn.
      split; [repeat constructor; exact FI|]. split; [repeat constructor|].
      split; [reflexivity|]. split.
      { constructor; [intros [X|[]]; now apply NF|]. repeat constructor. intros []. }
      repeat split; try reflexivity; intros X; [apply orb_true_iff in X|apply orb_true_iff]; exact X.
    - do 2 eexists. exists e, p. split.
      { instantiate (2 := [_]). instantiate (1 := [_]). reflexivity. }
      split; [exact CA|]. subst m1 p1 e. cbn.
      split; [repeat constructor; exact FI|]. split; [repeat constructor|].
      split; [reflexivity|]. split.
      { repeat constructor. intros []. }
      repeat split; try reflexivity; intros X; [apply orb_true_iff in X|apply orb_true_iff]; exact X.
  Qed.

  (** ** Firmware ids *)

  Definition mod_ids (ts : list observer_tasks) : list Z :=
    map fm_custom_id (present (map ot_fw1_mod ts)).

  Lemma firmware_ids db tb x ids ts :
    validate_experiment db tb x = Ok tt -> own_ids tb ->
    Forall2 (contribution tb x) ids ts -> incl ids (all_targets x) ->
    Forall2 (fun id z => exists g k, In g (x_configs x) /\ nth_error (g_targets g) k = Some id /\
               nth_error (requested g) k = Some z) ids (mod_ids ts).
  Proof.
    intros VX OW F. apply experiment_ok in VX. destruct VX as [HC [ND _]].
    rewrite Forall_forall in HC.
    induction F as [|id t ids ts H F IH]; intros IN; [constructor|].
    destruct H as [o [g [root [m1 [m2 [p1 [p2 [e [p [ta [z H]]]]]]]]]]].
    destruct H as [HO [HG [IG [HP [HT [HN [HZ H]]]]]]]. cbn zeta in H.
    destruct H as [E1 [D1 _]]. unfold mod_ids. cbn [map present]. rewrite E1. cbn [present map].
    constructor.
    2:{ apply IH. intros a Ha. apply IN. now right. }
    subst m1. cbn [fm_custom_id].
    destruct (target_config_ok x id ND (IN id (or_introl eq_refl))) as [g' [HG' [_ OC]]].
    rewrite HG in HG'. injection HG' as <-. destruct OC as [pre [post [_ [JG _]]]].
    exists g. pose proof (custom_id_ok db g id (HC g IG) JG) as X. unfold requested.
    apply get_observer_ok in HO. destruct HO as [pr [po [EO [[US CR] _]]]].
    destruct (port_ok o id CR) as [p' [ta' [HP' [HT' [PL [TI _]]]]]].
    rewrite HT in HT'. injection HT' as <-.
    destruct (g_customs g) as [c|].
    - destruct X as [k [z' [X1 [X2 X3]]]]. exists k. rewrite HZ in X1. injection X1 as ->.
      split; [exact IG|]. split; [exact X2|].
      rewrite <- X3. pose proof (nth_error_length _ _ _ X2) as L.
      rewrite <- (firstn_skipn (List.length (g_targets g)) c) at 2.
      rewrite nth_error_app1; [reflexivity|].
      rewrite firstn_length. pose proof (nth_error_length _ _ _ X3). lia.
    - rewrite HZ in X. injection X as ->. apply In_nth_error in JG. destruct JG as [k K].
      exists k. split; [exact IG|]. split; [exact K|].
      rewrite (OW o p' ta); [now rewrite TI | | exact PL]. rewrite EO. apply in_elt.
  Qed.

  Lemma nodup_flat_positions {A B} (f : A -> list B) l a1 a2 k1 k2 z :
    NoDup (flat_map f l) -> In a1 l -> In a2 l ->
    nth_error (f a1) k1 = Some z -> nth_error (f a2) k2 = Some z -> k1 = k2 /\
    a1 = a2.
  Proof.
    induction l as [|b l IH]; simpl; [tauto|]. intros N I1 I2 E1 E2.
    apply nodup_app in N. destruct N as [N1 [N2 N3]].
    assert (J1 := nth_error_In _ _ E1). assert (J2 := nth_error_In _ _ E2).
    destruct I1 as [<-|I1], I2 as [<-|I2].
    - split; [|reflexivity]. apply (proj1 (NoDup_nth_error _) N1);
        [eapply nth_error_length; eauto | congruence].
    - exfalso. apply (N3 z J1). apply in_flat_map. eauto.
    - exfalso. apply (N3 z J2). apply in_flat_map. eauto.
    - auto.
  Qed.

  Lemma firmware_ids_distinct db tb x clock ts :
    validate_experiment db tb x = Ok tt -> own_ids tb ->
    tasks_from_xp strftime x tb clock = Ok ts ->
    List.length (mod_ids ts) = List.length (all_targets x) /\ NoDup (mod_ids ts).
  Proof.
    intros VX OW H. pose proof (tasks_inv _ _ _ _ _ VX H) as F.
    pose proof (firmware_ids db tb x _ _ VX OW F (incl_refl _)) as G.
    split; [symmetry; eapply forall2_length; eauto|].
    apply experiment_ok in VX. destruct VX as [_ [ND [NR _]]].
    clear F H. induction G as [|id z ids zs H G IH]; [constructor|].
    inversion ND as [|a b NI ND']; subst. constructor; [|now apply IH].
    intros I. apply NI.
    destruct H as [g [k [IG [K1 K2]]]]. clear -G I IG K1 K2 NR.
    induction G as [|id' z' ids zs H G IH]; [destruct I|].
    destruct I as [->|I]; [left | right; now apply IH].
    destruct H as [g' [k' [IG' [K1' K2']]]].
    destruct (nodup_flat_positions requested _ g g' k k' z NR IG IG' K2 K2') as [<- <-].
    congruence.
  Qed.

  (** ** Files *)

  Lemma files_of tb x id t :
    contribution tb x id t ->
    exists o g root, get_observer tb id = Ok o /\ get_target_config x id = Ok g /\
      ot_observer t = o_name o /\
      flat_map written (get_tasks t) =
        (root ++ [file_name "fw1_" o ".hex"]) ::
        match g_fw2 g with Some _ => [root ++ [file_name "fw2_" o ".hex"]] | None => [] end ++
        [root ++ [file_name "emu_" o ".h5"]] /\
      observer_outputs t = [(o_name o, root ++ [file_name "emu_" o ".h5"])].
  Proof.
    intros H.
    destruct H as [o [g [root [m1 [m2 [p1 [p2 [e [p [ta [z H]]]]]]]]]]].
    destruct H as [HO [HG [IG [HP [HT [HN [HZ H]]]]]]]. cbn zeta in H.
    destruct H as [E1 [D1 [E2 [D2 [E3 [D3 [E4 [D4 [E5 [D5 _]]]]]]]]]].
    exists o, g, root. repeat split; auto.
    - unfold get_tasks. rewrite E1, E2, E3, E4, E5, D2, D4, D1, D5.
      destruct (g_fw2 g); reflexivity.
    - unfold observer_outputs. rewrite E5, HN, D5. reflexivity.
  Qed.

  Lemma file_from db tb x ids ts f :
    validate_experiment db tb x = Ok tt -> Forall2 (contribution tb x) ids ts ->
    In f (flat_map written (flat_map get_tasks ts)) ->
    exists id o root, In id ids /\ get_observer tb id = Ok o /\
      (f = root ++ [file_name "fw1_" o ".hex"] \/ f = root ++ [file_name "fw2_" o ".hex"] \/
       f = root ++ [file_name "emu_" o ".h5"]).
  Proof.
    intros VX F. induction F as [|id t ids ts H F IH]; simpl; [tauto|].
    rewrite flat_map_app, in_app_iff. intros [I|I].
    - destruct (files_of _ _ _ _ H) as [o [g [root [HO [_ [_ [E _]]]]]]]. rewrite E in I.
      exists id, o, root. split; [now left|]. split; [exact HO|].
      destruct (g_fw2 g); simpl in I; intuition.
    - destruct (IH I) as [id' [o [root [J H']]]]. exists id', o, root. auto.
  Qed.

  Lemma name_conflict o q r1 r2 f :
    (f = r1 ++ [file_name "fw1_" o ".hex"] \/ f = r1 ++ [file_name "fw2_" o ".hex"] \/
     f = r1 ++ [file_name "emu_" o ".h5"]) ->
    (f = r2 ++ [file_name "fw1_" q ".hex"] \/ f = r2 ++ [file_name "fw2_" q ".hex"] \/
     f = r2 ++ [file_name "emu_" q ".h5"]) -> o_name o = o_name q.
  Proof.
    intros [G|[G|G]] [H|[H|H]]; subst f; apply last_inj in H; unfold file_name in H;
      try (simpl in H; discriminate); (apply app_string_inj_l, app_string_inj_r in H; exact H).
  Qed.

  (** The observers of different targets are different. *)
  Lemma observers_differ db tb x id1 id2 o1 o2 :
    validate_experiment db tb x = Ok tt -> In id1 (all_targets x) -> In id2 (all_targets x) ->
    id1 <> id2 -> get_observer tb id1 = Ok o1 -> get_observer tb id2 = Ok o2 ->
    o_id o1 <> o_id o2.
  Proof.
    intros VX I1 I2 N O1 O2. apply experiment_ok in VX.
    destruct VX as [_ [ND [_ [[obs [F NO]] _]]]].
    apply In_nth_error in I1. destruct I1 as [k1 K1].
    apply In_nth_error in I2. destruct I2 as [k2 K2].
    assert (P : forall k id o, nth_error (all_targets x) k = Some id -> get_observer tb id = Ok o ->
      nth_error obs k = Some o).
    { clear -F. induction F as [|a b la lb Hab Hr IH]; intros [|k] id o K O; simpl in *;
        try discriminate.
      - injection K as ->. apply get_observer_ok in Hab. congruence.
      - eauto. }
    intros E. apply N.
    assert (k1 = k2).
    { apply (proj1 (NoDup_nth_error _) NO).
      - rewrite map_length. eapply nth_error_length. eapply P; eauto.
      - rewrite (map_nth_error o_id k1 obs (P _ _ _ K1 O1)).
        rewrite (map_nth_error o_id k2 obs (P _ _ _ K2 O2)). now rewrite E. }
    congruence.
  Qed.

  Lemma observer_in tb id o : get_observer tb id = Ok o -> In o (tb_observers tb).
  Proof. intros H. apply get_observer_ok in H. destruct H as [a [b [-> _]]]. apply in_elt. Qed.

  Lemma same_name_same tb o q :
    NoDup (map o_name (tb_observers tb)) -> In o (tb_observers tb) -> In q (tb_observers tb) ->
    o_name o = o_name q -> o = q.
  Proof.
    induction (tb_observers tb) as [|r l IH]; simpl; [tauto|]. intros N.
    inversion N as [|a b NI ND]; subst. intros [->|I] [->|J] E; auto.
    - exfalso. apply NI. rewrite E. now apply in_map.
    - exfalso. apply NI. rewrite <- E. now apply in_map.
  Qed.

  Lemma files_distinct db tb x clock ts :
    validate_experiment db tb x = Ok tt -> NoDup (map o_name (tb_observers tb)) ->
    tasks_from_xp strftime x tb clock = Ok ts ->
    NoDup (flat_map written (flat_map get_tasks ts)).
  Proof.
    intros VX NN H. pose proof (tasks_inv _ _ _ _ _ VX H) as F.
    assert (ND : NoDup (all_targets x)) by (apply experiment_ok in VX; tauto).
    assert (SUB : incl (all_targets x) (all_targets x)) by apply incl_refl.
    revert F ND SUB. generalize (all_targets x) at 1 2 3 as ids. clear H. intros ids F.
    induction F as [|id t ids ts H F IH]; intros ND SUB; [constructor|].
    inversion ND as [|a b NI ND']; subst.
    cbn [flat_map]. rewrite flat_map_app.
    assert (IH' : NoDup (flat_map written (flat_map get_tasks ts)))
      by (apply IH; [assumption | intros a Ha; apply SUB; now right]).
    destruct (files_of _ _ _ _ H) as [o [g [root [HO [_ [_ [E _]]]]]]].
    assert (DIS : forall f, In f (flat_map written (get_tasks t)) ->
      ~ In f (flat_map written (flat_map get_tasks ts))).
    { intros f I J. destruct (file_from db tb x ids ts f VX F J) as [id' [q [r [K [HQ L]]]]].
      assert (S : o_name o = o_name q).
      { eapply name_conflict; [|exact L]. rewrite E in I.
        instantiate (1 := root). destruct (g_fw2 g); simpl in I; intuition. }
      apply (same_name_same tb) in S; [|exact NN | eapply observer_in; eauto
        | eapply observer_in; eauto]. subst q.
      apply (observers_differ db tb x id id' o o VX); auto.
      - apply SUB. now left.
      - apply SUB. now right.
      - intros ->. contradiction. }
    assert (OWN : NoDup (flat_map written (get_tasks t))).
    { rewrite E.
      assert (X12 : root ++ [file_name "fw1_" o ".hex"] <> root ++ [file_name "fw2_" o ".hex"])
        by (intros X; apply last_inj in X; unfold file_name in X; simpl in X; discriminate).
      assert (X13 : root ++ [file_name "fw1_" o ".hex"] <> root ++ [file_name "emu_" o ".h5"])
        by (intros X; apply last_inj in X; unfold file_name in X; simpl in X; discriminate).
      assert (X23 : root ++ [file_name "fw2_" o ".hex"] <> root ++ [file_name "emu_" o ".h5"])
        by (intros X; apply last_inj in X; unfold file_name in X; simpl in X; discriminate).
      destruct (g_fw2 g); simpl; repeat constructor; simpl; intuition. }
    revert DIS OWN. generalize (flat_map written (get_tasks t)) as l. intros l.
    induction l as [|f l IHl]; intros DIS OWN; [exact IH'|]. simpl.
    inversion OWN as [|a b NF ND'']; subst. constructor.
    - rewrite in_app_iff. intros [X|X]; [contradiction|]. apply (DIS f); [now left | exact X].
    - apply IHl; [|assumption]. intros f' I. apply DIS. now right.
  Qed.

  (** ** The dictionary of outputs *)

  Definition outputs (ts : list observer_tasks) : list (string * path) :=
    flat_map observer_outputs ts.

  Lemma put_new (d : assoc string path) k v :
    ~ In k (map fst d) -> put String.eqb k v d = d ++ [(k, v)].
  Proof.
    induction d as [|[k' v'] d IH]; simpl; [reflexivity|]. intros N.
    destruct (String.eqb_spec k k') as [->|E]; [exfalso; auto|].
    f_equal. apply IH. tauto.
  Qed.

  Lemma outputs_dict db tb x clock ts :
    validate_experiment db tb x = Ok tt -> NoDup (map o_name (tb_observers tb)) ->
    tasks_from_xp strftime x tb clock = Ok ts ->
    get_output_paths ts = outputs ts /\ List.length ts = List.length (all_targets x) /\
    Forall2 (fun t kv => fst kv = ot_observer t /\
               exists e, ot_emulation t = Some e /\ snd kv = em_output e) ts (outputs ts).
  Proof.
    intros VX NN H. pose proof (tasks_inv _ _ _ _ _ VX H) as F.
    split; [|split].
    3:{ clear H. induction F as [|id t ids ts H F IH]; [constructor|].
        unfold outputs. cbn [flat_map].
        destruct H as [o [g [root [m1 [m2 [p1 [p2 [e [p [ta [z H]]]]]]]]]]].
        destruct H as [_ [_ [_ [_ [_ [HN [_ H]]]]]]]. cbn zeta in H.
        destruct H as [_ [_ [_ [_ [_ [_ [_ [_ [E5 _]]]]]]]]].
        unfold observer_outputs at 1. rewrite E5. cbn [app]. constructor; [|exact IH].
        split; [reflexivity|]. exists e. auto. }
    2:{ symmetry. eapply forall2_length; eauto. }
    assert (ND : NoDup (all_targets x)) by (apply experiment_ok in VX; tauto).
    assert (SUB : incl (all_targets x) (all_targets x)) by apply incl_refl.
    unfold get_output_paths.
    assert (GEN : forall ids, Forall2 (contribution tb x) ids ts -> NoDup ids ->
      incl ids (all_targets x) -> forall acc : assoc string path,
      (forall k, In k (map fst acc) -> ~ In k (map fst (outputs ts))) ->
      fold_left (fun values t => fold_left (fun v kv => put String.eqb (fst kv) (snd kv) v)
        (observer_outputs t) values) ts acc = acc ++ outputs ts).
    { clear F H ND SUB. intros ids F. induction F as [|id t ids ts H F IH]; intros ND SUB acc AC.
      - simpl. now rewrite app_nil_r.
      - destruct (files_of _ _ _ _ H) as [o [g [root [HO [_ [_ [_ EO]]]]]]].
        cbn [fold_left]. rewrite EO. cbn [fold_left fst snd].
        unfold outputs in *. cbn [flat_map] in *. rewrite EO in *. cbn [app map fst] in *.
        inversion ND as [|a b NI ND']; subst.
        assert (FRESH : ~ In (o_name o) (map fst (flat_map observer_outputs ts))).
        { intros I. apply in_map_iff in I. destruct I as [[k v] [K I]]. cbn in K. subst k.
          apply in_flat_map in I. destruct I as [t' [IT I]].
          assert (Q : exists id' q, In id' ids /\ get_observer tb id' = Ok q /\
                      o_name q = o_name o).
          { clear -F IT I. induction F as [|id' s ids ts H F IH]; [destruct IT|].
            destruct IT as [->|IT].
            - destruct (files_of _ _ _ _ H) as [q [g' [r [HQ [_ [_ [_ EQ]]]]]]].
              rewrite EQ in I. destruct I as [I|[]]. injection I as I _.
              exists id', q. split; [now left|]. auto.
            - destruct (IH IT) as [id'' [q [A B]]]. exists id'', q. split; [now right | exact B]. }
          destruct Q as [id' [q [J [HQ S]]]].
          apply (same_name_same tb) in S; [|exact NN | eapply observer_in; eauto
            | eapply observer_in; eauto]. subst q.
          apply (observers_differ db tb x id id' o o VX); auto.
          - apply SUB. now left.
          - apply SUB. now right.
          - intros ->. contradiction. }
        rewrite put_new.
        2:{ intros I. apply (AC _ I). now left. }
        rewrite IH; auto.
        + rewrite <- app_assoc. reflexivity.
        + intros a Ha. apply SUB. now right.
        + intros k. rewrite map_app, in_app_iff. intros [I|[<-|[]]]; [|exact FRESH].
          intros J. apply (AC k I). now right. }
    apply (GEN _ F ND SUB []). intros k [].
  Qed.

  Lemma names_distinct db tb x clock ts :
    validate_experiment db tb x = Ok tt -> NoDup (map o_name (tb_observers tb)) ->
    tasks_from_xp strftime x tb clock = Ok ts -> NoDup (map ot_observer ts).
  Proof.
    intros VX NN H. pose proof (tasks_inv _ _ _ _ _ VX H) as F.
    assert (ND : NoDup (all_targets x)) by (apply experiment_ok in VX; tauto).
    assert (SUB : incl (all_targets x) (all_targets x)) by apply incl_refl.
    revert F ND SUB. generalize (all_targets x) at 1 2 3 as ids. clear H. intros ids F.
    induction F as [|id t ids ts H F IH]; intros ND SUB; [constructor|].
    inversion ND as [|a b NI ND']; subst. simpl. constructor.
    - intros I. apply in_map_iff in I. destruct I as [t' [E I]].
      destruct (files_of _ _ _ _ H) as [o [_ [_ [HO [_ [EN _]]]]]].
      assert (Q : exists id' q, In id' ids /\ get_observer tb id' = Ok q /\
                    ot_observer t' = o_name q).
      { clear -F I. induction F as [|id' s ids ts H F IH]; [destruct I|].
        destruct I as [->|I].
        - destruct (files_of _ _ _ _ H) as [q [_ [_ [HQ [_ [EQ _]]]]]].
          exists id', q. split; [now left|]. auto.
        - destruct (IH I) as [id'' [q [A B]]]. exists id'', q. split; [now right | exact B]. }
      destruct Q as [id' [q [J [HQ S]]]].
      assert (S' : o_name o = o_name q) by congruence.
      apply (same_name_same tb) in S'; [|exact NN | eapply observer_in; eauto
        | eapply observer_in; eauto]. subst q.
      apply (observers_differ db tb x id id' o o VX); auto.
      + apply SUB. now left.
      + apply SUB. now right.
      + intros ->. contradiction.
    - apply IH; [assumption|]. intros a Ha. apply SUB. now right.
  Qed.

  Lemma tasks_by_name ts t :
    NoDup (map ot_observer ts) -> In t ts -> get_observer_tasks ts (ot_observer t) = Some t.
  Proof.
    intros N I. induction ts as [|s ts IH]; [destruct I|]. simpl in *.
    inversion N as [|a b NI ND]; subst. destruct I as [->|I].
    - rewrite String.eqb_refl. reflexivity.
    - destruct (String.eqb_spec (ot_observer t) (ot_observer s)) as [S|S]; [|now apply IH].
      exfalso. apply NI. rewrite <- S. now apply in_map.
  Qed.

  Lemma tasks_all db tb x clock :
    accepted db tb x -> translatable x clock ->
    exists ts, tasks_from_xp strftime x tb clock = Ok ts.
  Proof.
    intros [_ [VT VX]] [T1 [T2 T3]]. unfold tasks_from_xp. rewrite <- all_targets_flat.
    eapply tasks_for_ok; eauto. apply incl_refl.
  Qed.

  Lemma tasks_proper db tb x clock ts :
    validate_experiment db tb x = Ok tt -> no_twin tb ->
    tasks_from_xp strftime x tb clock = Ok ts ->
    Forall2 (fun id t => exists o g, reaches tb id o /\ only_config x id g /\
               ot_observer t = o_name o /\ proper_tasks o x g id (get_tasks t))
      (all_targets x) ts.
  Proof.
    intros VX NT H. pose proof (tasks_inv _ _ _ _ _ VX H) as F.
    eapply forall2_impl; [|exact F]. intros id t I C.
    eapply contribution_proper; eauto.
  Qed.

  (** Programmed firmware fits the controllers the target has. *)
  Lemma programmed_fits db tb x clock ts :
    validate_experiment db tb x = Ok tt -> tasks_from_xp strftime x tb clock = Ok ts ->
    Forall2 (fun id t => exists g d, only_config x id g /\ db_target db id = Some d /\
      (exists p, ot_fw1_prog t = Some p /\ pr_mcu_type p = m_name (f_mcu (g_fw1 g))) /\
      m_id (f_mcu (g_fw1 g)) = m_id (t_mcu1 d) /\
      (forall p, ot_fw2_prog t = Some p -> exists f, g_fw2 g = Some f /\
         pr_mcu_type p = m_name (f_mcu f) /\
         forall m, t_mcu2 d = Some m -> m_id (f_mcu f) = m_id m)) (all_targets x) ts.
  Proof.
    intros VX H. pose proof (tasks_inv _ _ _ _ _ VX H) as F.
    eapply forall2_impl; [|exact F]. intros id t I C.
    apply experiment_ok in VX. destruct VX as [HC [ND _]]. rewrite Forall_forall in HC.
    destruct (target_config_ok x id ND I) as [g [HG [IG OC]]].
    destruct C as [o [g' [root [m1 [m2 [p1 [p2 [e [p [ta [z C]]]]]]]]]]].
    destruct C as [_ [HG' [_ [_ [_ [_ [_ C]]]]]]]. cbn zeta in C.
    rewrite HG in HG'. injection HG' as <-.
    destruct C as [_ [_ [_ [_ [E3 [D3 [E4 [D4 _]]]]]]]].
    destruct (HC g IG) as [_ [C2 _]]. pose proof OC as [pre [post [_ [J _]]]].
    destruct (C2 id J) as [d [D [S1 S2]]].
    exists g, d. split; [exact OC|]. split; [exact D|]. split.
    { exists p1. split; [exact E3 | now rewrite D3]. }
    split.
    { destruct (S1 _ eq_refl) as [f [[X|[X _]] Y]]; [|discriminate]. injection X as <-. exact Y. }
    intros q Q. rewrite E4, D4 in Q. destruct (g_fw2 g) as [f|]; [|discriminate].
    injection Q as <-. exists f. split; [reflexivity|]. split; [reflexivity|].
    intros m M. destruct (S2 m M) as [f' [[X|[X _]] Y]]; [|discriminate].
    injection X as <-. exact Y.
  Qed.
End Tasks.

(** * Equality of objects *)

Lemma cape_eqb_eq a b : cape_eqb a b = true <-> a = b.
Proof.
  destruct a, b. unfold cape_eqb. simpl. rewrite !andb_true_iff, !Z.eqb_eq, Bool.eqb_true_iff.
  split; [intros [[-> ->] ->]; reflexivity | intros H; injection H as -> -> ->; auto].
Qed.

Lemma mcu_eqb_same a b : mcu_eqb a b = true <-> same_mcu a b.
Proof.
  unfold mcu_eqb, same_mcu.
  rewrite !andb_true_iff, !Z.eqb_eq, !String.eqb_eq, Qeq_bool_iff. tauto.
Qed.

Lemma target_eqb_same a b : target_eqb a b = true <-> same_target a b.
Proof.
  unfold target_eqb, same_target.
  rewrite !andb_true_iff, !Z.eqb_eq, Bool.eqb_true_iff, mcu_eqb_same.
  destruct (t_mcu2 a), (t_mcu2 b); simpl; rewrite ?mcu_eqb_same; intuition discriminate.
Qed.

Lemma ordpairs_iff {A} (P Q : A -> A -> Prop) l :
  (forall a b, P a b <-> Q a b) -> ForallOrdPairs P l <-> ForallOrdPairs Q l.
Proof.
  intros E. split; intros H; induction H as [|a l F H IH]; constructor; auto;
    (eapply Forall_impl; [|exact F]); intros b; apply E.
Qed.

Lemma capes_present tb : capes tb = present (map o_cape (tb_observers tb)).
Proof.
  unfold capes. induction (tb_observers tb) as [|o l IH]; simpl; [reflexivity|].
  rewrite IH. destruct (o_cape o); reflexivity.
Qed.

Lemma targets_present tb : plugged_targets tb = flat_map targets_of (tb_observers tb).
Proof.
  unfold plugged_targets. apply flat_map_ext. intros o. unfold targets_of.
  destruct (o_target_a o), (o_target_b o); reflexivity.
Qed.

Lemma testbed_spec tb :
  validate_testbed tb = Ok tt <->
  NoDup (map o_id (tb_observers tb)) /\ NoDup (map o_ip (tb_observers tb)) /\
  NoDup (map o_mac (tb_observers tb)) /\ NoDup (map o_eth (tb_observers tb)) /\
  NoDup (capes tb) /\ ForallOrdPairs (fun a b => ~ same_target a b) (plugged_targets tb) /\
  (0 <= tb_prep_duration tb)%Z /\ tb_shared_storage tb = true.
Proof.
  rewrite testbed_ok, capes_present, targets_present.
  rewrite (ordpairs_nodup cape_eqb) by apply cape_eqb_eq.
  rewrite (ordpairs_iff (fun a b => target_eqb a b = false) (fun a b => ~ same_target a b)).
  - tauto.
  - intros a b. rewrite <- target_eqb_same. destruct (target_eqb a b); intuition discriminate.
Qed.
