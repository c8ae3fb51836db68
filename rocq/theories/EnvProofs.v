(** Proofs about EnvModel.v. *)
From Coq Require Import String Ascii.
From Verif Require Import PyBase FixModel EnvModel EnvSpec.
Open Scope Z_scope.

(** * Time *)

Lemma wall_right z now : proper_zone z ->
  (wall (local_now z now) = wall_clock z now <->
   (z_daylight z = true -> z_summer z now = false -> z_std z = z_dst z)).
Proof.
  intros HP. unfold wall, local_now, local_tz, wall_clock. cbn [instant offset].
  destruct (z_daylight z) eqn:ED.
  - destruct (z_summer z now) eqn:ES.
    + split; [discriminate|reflexivity].
    + split; [intros H _ _; lia|]. intros H. rewrite (H eq_refl eq_refl). reflexivity.
  - rewrite (HP ED now). split; [discriminate|reflexivity].
Qed.

Lemma older z now mtime delta : file_older_than z now mtime delta = true <-> mtime + delta < now.
Proof. unfold file_older_than. cbn [instant offset local_now]. rewrite Z.ltb_lt. lia. Qed.

(** * Fixtures *)

Lemma items_read x l : Forall entry_ok l ->
  insert_items x l = insert_all x (flat_map (fun i => match i with Entry (Ok w) => [w] | _ => [] end) l).
Proof.
  intros H. revert x. induction H as [|i l Hi _ IH]; intros x; [reflexivity|].
  destruct i as [|[w|e]]; cbn [insert_items flat_map app bind insert_all].
  - apply IH.
  - destruct (insert_model x w) as [x'|e]; [|reflexivity]. cbn [bind]. apply IH.
  - contradiction.
Qed.

Lemma insert_all_app x a b : insert_all x (a ++ b) = let* y := insert_all x a in insert_all y b.
Proof.
  revert x. induction a as [|w a IH]; intros x; [reflexivity|]. cbn [app insert_all].
  destruct (insert_model x w) as [x'|e]; [|reflexivity]. cbn [bind]. apply IH.
Qed.

Lemma files_read x l : Forall readable l -> insert_files x l = insert_all x (flat_map entries_of l).
Proof.
  intros H. revert x. induction H as [|d l Hd _ IH]; intros x; [reflexivity|].
  cbn [insert_files flat_map]. rewrite insert_all_app. destruct d as [its| |]; [| |contradiction].
  - cbn [insert_file entries_of]. rewrite (items_read x its Hd).
    destruct (insert_all x _) as [y|e]; [|reflexivity]. cbn [bind]. apply IH.
  - cbn [insert_file entries_of insert_all bind]. apply IH.
Qed.

Lemma cache_unused m now reset : m_sheep m = true \/ ~ recent m now \/ reset = true ->
  (if m_sheep m then None
   else match m_cache m with
        | Some (t, x) => if negb (file_older_than (m_zone m) now t hours24) && negb reset then Some x else None
        | None => None
        end) = None.
Proof.
  intros H. destruct (m_sheep m); [reflexivity|]. destruct (m_cache m) as [[t x]|] eqn:EC; [|reflexivity].
  destruct (file_older_than (m_zone m) now t hours24) eqn:EO; [reflexivity|].
  destruct reset; [reflexivity|]. exfalso. destruct H as [H|[H|H]]; try discriminate. apply H.
  exists t, x. split; [exact EC|].
  destruct (Z_lt_le_dec (t + hours24) now) as [C|C].
  - apply (older (m_zone m)) in C. congruence.
  - exact C.
Qed.

Theorem read_fresh m now p reset : m_sheep m = true \/ ~ recent m now \/ reset = true ->
  snd (fixtures_init m now p reset) = reading m (path_of p).
Proof.
  intros H. unfold fixtures_init. rewrite (cache_unused m now reset H). fold (path_of p).
  unfold reading, documents. destruct (m_files m (path_of p)) as [d|l|]; cbn [bind].
  - destruct (insert_files [] [d]) as [[|y ys]|e]; try reflexivity. destruct (m_sheep m); reflexivity.
  - destruct (insert_files [] l) as [[|y ys]|e]; try reflexivity. destruct (m_sheep m); reflexivity.
  - reflexivity.
Qed.

Theorem read_files m now p reset l : m_sheep m = true \/ ~ recent m now \/ reset = true ->
  documents (m_files m (path_of p)) = Some l -> Forall readable l ->
  snd (fixtures_init m now p reset) = insert_all [] (flat_map entries_of l).
Proof.
  intros H E HR. rewrite (read_fresh m now p reset H). unfold reading. rewrite E. apply files_read, HR.
Qed.

Theorem kept_off_sheep m now p reset : m_sheep m = false -> fst (fixtures_init m now p reset) = m.
Proof.
  intros H. unfold fixtures_init. rewrite H.
  destruct (match m_cache m with Some _ => _ | None => _ end); [reflexivity|].
  destruct (let* l := _ in insert_files [] l) as [[|y ys]|e]; reflexivity.
Qed.

Theorem cached_on_sheep m now p reset x : m_sheep m = true ->
  snd (fixtures_init m now p reset) = Ok x -> x <> [] ->
  fst (fixtures_init m now p reset) = mkMachine true (m_files m) (Some (now, x)) (m_zone m).
Proof.
  intros H. unfold fixtures_init. rewrite H.
  destruct (let* l := _ in insert_files [] l) as [[|y ys]|e]; cbn [fst snd]; intros [= E] Hne; subst; [contradiction|].
  reflexivity.
Qed.

Theorem cached_same m now p reset t x : m_sheep m = false -> m_cache m = Some (t, x) ->
  reading m (path_of p) = Ok x -> snd (fixtures_init m now p reset) = reading m (path_of p).
Proof.
  intros HS HC HR.
  destruct (file_older_than (m_zone m) now t hours24) eqn:EO.
  - apply read_fresh. right. left. intros [t' [x' [E1 E2]]]. rewrite HC in E1. injection E1 as <- <-.
    apply older in EO. unfold hours24 in EO. lia.
  - destruct reset; [apply read_fresh; auto|].
    unfold fixtures_init. rewrite HS, HC, EO. cbn [negb andb snd]. symmetry. exact HR.
Qed.

(** * Inventory *)

Lemma ival_eqb_eq a b : ival_eqb a b = true <-> a = b.
Proof.
  destruct a, b; cbn [ival_eqb]; split; try discriminate; try reflexivity;
    try (rewrite String.eqb_eq; congruence); try (intros [= ->]; apply String.eqb_refl).
Qed.

Lemma add_host_in v h g w x :
  (exists hs, In (w, hs) (add_host v h g) /\ In x hs) <->
  (exists hs, In (w, hs) g /\ In x hs) \/ (w = v /\ x = h).
Proof.
  induction g as [|[u hs] g IH].
  - cbn [add_host]. split.
    + intros [hs [[E|[]] Hx]]. injection E as <- <-. destruct Hx as [<-|[]]. auto.
    + intros [[hs [[] _]]|[-> ->]]. exists [h]. cbn. auto.
  - cbn [add_host]. destruct (ival_eqb u v) eqn:E.
    + apply ival_eqb_eq in E. subst u. split.
      * intros [hs' [[E|Hin] Hx]].
        -- injection E as <- <-. apply in_app_iff in Hx. destruct Hx as [Hx|[<-|[]]]; [|auto].
           left. exists hs. split; [left; reflexivity|exact Hx].
        -- left. exists hs'. split; [right; exact Hin|exact Hx].
      * intros [[hs' [[E|Hin] Hx]]|[-> ->]].
        -- injection E as <- <-. exists (hs ++ [h]). split; [left; reflexivity|apply in_or_app; auto].
        -- exists hs'. split; [right; exact Hin|exact Hx].
        -- exists (hs ++ [h]). split; [left; reflexivity|apply in_or_app; right; left; reflexivity].
    + split.
      * intros [hs' [[E'|Hin] Hx]].
        -- injection E' as <- <-. left. exists hs. split; [left; reflexivity|exact Hx].
        -- destruct IH as [IH _]. destruct IH as [[hs2 [H1 H2]]|H]; [exists hs'; auto| |auto].
           left. exists hs2. split; [right; exact H1|exact H2].
      * intros H. destruct H as [[hs' [[E'|Hin] Hx]]|H].
        -- injection E' as <- <-. exists hs. split; [left; reflexivity|exact Hx].
        -- destruct IH as [_ IH]. destruct IH as [hs2 [H1 H2]]; [left; exists hs'; auto|].
           exists hs2. split; [right; exact H1|exact H2].
        -- destruct IH as [_ IH]. destruct (IH (or_intror H)) as [hs2 [H1 H2]].
           exists hs2. split; [right; exact H1|exact H2].
Qed.

Definition good_groups (g : groups) : Prop :=
  NoDup (map fst g) /\ Forall (fun p => snd p <> []) g.

Lemma add_host_keys v h g w : In w (map fst (add_host v h g)) <-> w = v \/ In w (map fst g).
Proof.
  induction g as [|[u hs] g IH]; cbn [add_host map fst]; [cbn; intuition congruence|].
  destruct (ival_eqb u v) eqn:E.
  - apply ival_eqb_eq in E. subst u. cbn. intuition congruence.
  - cbn [map fst In]. rewrite IH. intuition.
Qed.

Lemma add_host_good v h g : good_groups g -> good_groups (add_host v h g).
Proof.
  intros [H1 H2]. induction g as [|[u hs] g IH]; cbn [add_host].
  - split; [repeat constructor; intros []|]. constructor; [discriminate|constructor].
  - cbn [map fst] in H1. inversion H1 as [|? ? N1 N2]; subst. inversion H2 as [|? ? F1 F2]; subst.
    destruct (ival_eqb u v) eqn:E.
    + split; [exact H1|]. constructor; [|exact F2]. cbn. destruct hs; discriminate.
    + destruct (IH N2 F2) as [G1 G2]. split; [|constructor; [exact F1|exact G2]].
      cbn [map fst]. constructor; [|exact G1]. rewrite add_host_keys. intros [->|H]; [|contradiction].
      rewrite (proj2 (ival_eqb_eq v v) eq_refl) in E. discriminate E.
Qed.

Definition listed (r : list (string * groups)) (k : string) (v : ival) (h : string) : Prop :=
  exists g hs, get String.eqb k r = Some g /\ In (v, hs) g /\ In h hs.
Definition good_result (r : list (string * groups)) : Prop :=
  forall k g, get String.eqb k r = Some g -> good_groups g.

Lemma get_put_same {A : Set} k (v : A) d : get String.eqb k (put String.eqb k v d) = Some v.
Proof.
  induction d as [|[k' v'] d IH]; cbn [put get]; [now rewrite String.eqb_refl|].
  destruct (String.eqb_spec k k') as [->|N]; cbn [get]; [now rewrite String.eqb_refl|].
  destruct (String.eqb_spec k k'); [contradiction|exact IH].
Qed.

Lemma get_put_other {A : Set} k k2 (v : A) d : k2 <> k ->
  get String.eqb k2 (put String.eqb k v d) = get String.eqb k2 d.
Proof.
  intros N. induction d as [|[k' v'] d IH]; cbn [put get].
  - destruct (String.eqb_spec k2 k); [contradiction|reflexivity].
  - destruct (String.eqb_spec k k') as [->|N2]; cbn [get].
    + destruct (String.eqb_spec k2 k'); [contradiction|reflexivity].
    + destruct (String.eqb k2 k'); [reflexivity|exact IH].
Qed.

Lemma put_listed r t v h k w x :
  let g := match get String.eqb t r with Some g => g | None => [] end in
  listed (put String.eqb t (add_host v h g) r) k w x <-> listed r k w x \/ (k = t /\ w = v /\ x = h).
Proof.
  intros g. unfold listed. destruct (String.eqb_spec k t) as [->|N].
  - assert (E : (exists g0 hs, get String.eqb t r = Some g0 /\ In (w, hs) g0 /\ In x hs) <->
                (exists hs, In (w, hs) g /\ In x hs)).
    { unfold g. destruct (get String.eqb t r) as [g1|]; split.
      - intros [g0 [hs [[= ->] H]]]. exists hs. exact H.
      - intros [hs H]. exists g1, hs. auto.
      - intros [g0 [hs [E _]]]. discriminate E.
      - intros [hs [[] _]]. }
    rewrite E. clear E.
    pose proof (add_host_in v h g w x) as HA. split.
    + intros [g0 [hs [E [H1 H2]]]]. rewrite !get_put_same in E. injection E as <-.
      destruct HA as [HA _]. destruct (HA (ex_intro _ hs (conj H1 H2))) as [H|[-> ->]]; auto.
    + intros H. destruct HA as [_ HA].
      assert (HH : exists hs, In (w, hs) (add_host v h g) /\ In x hs).
      { apply HA. destruct H as [H|[_ H]]; auto. }
      destruct HH as [hs [H1 H2]]. exists (add_host v h g), hs. rewrite !get_put_same. auto.
  - split.
    + intros [g0 [hs [E H]]]. rewrite get_put_other in E by exact N. left. exists g0, hs. auto.
    + intros [[g0 [hs [E H]]]|[E _]]; [|contradiction]. exists g0, hs. rewrite get_put_other by exact N. auto.
Qed.

Lemma add_fields_ok h fs r : Forall (fun f => hashable (snd f) = true) fs -> good_result r ->
  exists r', add_fields h fs r = Ok r' /\ good_result r' /\
    forall k w x, listed r' k w x <-> listed r k w x \/ (x = h /\ In (k, w) fs).
Proof.
  intros HF. revert r. induction HF as [|[t v] fs Hv _ IH]; intros r HG.
  - exists r. split; [reflexivity|]. split; [exact HG|]. intros k w x. cbn. tauto.
  - cbn [add_fields]. cbn [snd] in Hv. rewrite Hv.
    set (g := match get String.eqb t r with Some g => g | None => [] end).
    assert (Hg : good_groups g).
    { unfold g. destruct (get String.eqb t r) eqn:E; [exact (HG t g0 E)|]. split; constructor. }
    destruct (IH (put String.eqb t (add_host v h g) r)) as [r' [E [G L]]].
    { intros k g' E. destruct (String.eqb_spec k t) as [->|N].
      - rewrite get_put_same in E. injection E as <-. apply add_host_good, Hg.
      - rewrite get_put_other in E by exact N. exact (HG k g' E). }
    exists r'. split; [exact E|]. split; [exact G|]. intros k w x. rewrite L.
    pose proof (put_listed r t v h k w x) as HP. cbv zeta in HP. unfold g. rewrite HP.
    cbn [In]. split.
    + intros [[H|[-> [-> ->]]]|[-> H]]; auto.
    + intros [H|[-> [E'|H]]]; auto. injection E' as <- <-. auto.
Qed.

Lemma add_hosts_ok l r : Forall (fun p => Forall (fun f => hashable (snd f) = true) (snd p)) l -> good_result r ->
  exists r', add_hosts l r = Ok r' /\ good_result r' /\
    forall k w x, listed r' k w x <-> listed r k w x \/ exists fs, In (x, fs) l /\ In (k, w) fs.
Proof.
  intros HF. revert r. induction HF as [|[h fs] l Hh _ IH]; intros r HG.
  - exists r. split; [reflexivity|]. split; [exact HG|]. intros k w x. split; [auto|]. intros [H|[fs [[] _]]]; auto.
  - cbn [add_hosts]. destruct (add_fields_ok h fs r Hh HG) as [r1 [E1 [G1 L1]]]. rewrite E1. cbn [bind].
    destruct (IH r1 G1) as [r' [E [G L]]]. exists r'. split; [exact E|]. split; [exact G|].
    intros k w x. rewrite L, L1. cbn [In]. split.
    + intros [[H|[-> H]]|[fs' [H1 H2]]]; [auto| |]; right; eauto.
    + intros [H|[fs' [[E'|H1] H2]]]; [auto| |].
      * injection E' as <- <-. auto.
      * right. eauto.
Qed.

Lemma put_new {A : Set} (d : list (string * A)) k v : ~ In k (map fst d) -> put String.eqb k v d = d ++ [(k, v)].
Proof.
  induction d as [|[k' v'] d IH]; intros H; [reflexivity|]. cbn [put app].
  destruct (String.eqb_spec k k') as [->|N]; [elim H; left; reflexivity|].
  rewrite IH; [reflexivity|]. intros H'. apply H. right. exact H'.
Qed.

Lemma fold_put l d : NoDup (map fst d ++ map i_host l) ->
  fold_left (fun d i => put String.eqb (i_host i) (kept i) d) l d = d ++ map (fun i => (i_host i, kept i)) l.
Proof.
  revert d. induction l as [|i l IH]; intros d H; [cbn; now rewrite app_nil_r|].
  cbn [fold_left map]. cbn [map] in H. rewrite put_new.
  - rewrite IH; [now rewrite <- app_assoc|]. rewrite map_app, <- app_assoc. exact H.
  - apply NoDup_remove_2 in H. intros C. apply H. apply in_or_app. auto.
Qed.

Lemma earliest_le l t i : In i l -> fold_right (fun i t => Z.min (i_created i) t) t l <= i_created i.
Proof.
  induction l as [|j l IH]; intros H; [contradiction|]. cbn [fold_right]. destruct H as [->|H]; [lia|].
  specialize (IH H). lia.
Qed.

Lemma earliest_in l i0 : In i0 l -> exists j, In j l /\
  fold_right (fun i t => Z.min (i_created i) t) (i_created i0) l = i_created j.
Proof.
  intros H0. assert (G : forall m, (forall j, In j m -> In j l) -> exists j, In j l /\
    fold_right (fun i t => Z.min (i_created i) t) (i_created i0) m = i_created j).
  { induction m as [|a m IH]; intros H; [exists i0; auto|]. cbn [fold_right].
    destruct IH as [j [Hj E]]; [intros; apply H; right; assumption|]. rewrite E.
    destruct (Z_le_gt_dec (i_created a) (i_created j)).
    - exists a. split; [apply H; left; reflexivity|lia].
    - exists j. split; [exact Hj|lia]. }
  apply G. auto.
Qed.

Lemma order_checked l i0 : In i0 l -> 
  (existsb (fun i => (108000 <? i_uptime i) ||
     (10000000 <? i_created i - fold_right (fun i t => Z.min (i_created i) t) (i_created i0) l)) l = false
   <-> in_order l).
Proof.
  intros H0. set (e := fold_right _ _ l).
  assert (He : forall i, In i l -> e <= i_created i) by (intros; apply earliest_le; assumption).
  destruct (earliest_in l i0 H0) as [j0 [Hj0 Ej0]]. fold e in Ej0.
  rewrite <- not_true_iff_false, existsb_exists. unfold in_order. split.
  - intros H. split.
    + intros i Hi. destruct (Z_le_gt_dec (i_uptime i) 108000) as [C|C]; [exact C|]. exfalso. apply H.
      exists i. split; [exact Hi|]. apply orb_true_iff. left. apply Z.ltb_lt. lia.
    + intros i j Hi Hj. pose proof (He j Hj).
      destruct (Z_le_gt_dec (i_created i - e) 10000000) as [C|C]; [lia|]. exfalso. apply H.
      exists i. split; [exact Hi|]. apply orb_true_iff. right. apply Z.ltb_lt. lia.
  - intros [H1 H2] [i [Hi Hx]]. apply orb_true_iff in Hx. rewrite !Z.ltb_lt in Hx.
    pose proof (H1 i Hi). pose proof (H2 i j0 Hi Hj0). lia.
Qed.

Lemma mismatches_ok keys r : (forall k, In k keys -> get String.eqb k r <> None) -> NoDup keys ->
  exists w, mismatches keys r = Ok w /\
    forall k g, get String.eqb k w = Some g <->
      In k keys /\ get String.eqb k r = Some g /\ (1 < List.length g)%nat.
Proof.
  induction keys as [|k keys IH]; intros H HN.
  - exists []. split; [reflexivity|]. intros k g. cbn. split; [discriminate|]. intros [[] _].
  - cbn [mismatches]. destruct (get String.eqb k r) as [g0|] eqn:E; [|elim (H k (or_introl eq_refl) E)].
    inversion HN as [|? ? N1 N2]; subst.
    destruct IH as [w [Ew Lw]]; [intros; apply H; right; assumption|exact N2|].
    rewrite Ew. cbn [bind]. destruct (Nat.ltb_spec 1 (List.length g0)) as [HL|HL].
    + eexists. split; [reflexivity|]. intros k' g. cbn [get In]. destruct (String.eqb_spec k' k) as [->|N].
      * rewrite E. split; [intros [= <-]; auto|]. intros [_ [[= <-] _]]. reflexivity.
      * rewrite Lw. intuition congruence.
    + eexists. split; [reflexivity|]. intros k' g. rewrite Lw. cbn [In]. split.
      * intros [H1 H2]. auto.
      * intros [[<-|H1] H2]; [|auto]. destruct H2 as [H2 H3]. rewrite E in H2. injection H2 as <-. lia.
Qed.

Lemma two_values g : good_groups g ->
  ((1 < List.length g)%nat <-> exists v1 v2, v1 <> v2 /\ In v1 (map fst g) /\ In v2 (map fst g)).
Proof.
  intros [H1 H2]. destruct g as [|[a ha] [|[b hb] g]]; cbn [List.length map fst] in *.
  - split; [lia|]. intros [v1 [v2 [_ [[] _]]]].
  - split; [lia|]. intros [v1 [v2 [N [[<-|[]] [<-|[]]]]]]. contradiction.
  - split; [|lia]. intros _. exists a, b. split; [|cbn; auto]. intros ->.
    inversion H1 as [|? ? N _]; subst. apply N. left. reflexivity.
Qed.

Lemma value_listed r k g v : good_result r -> get String.eqb k r = Some g ->
  (In v (map fst g) <-> exists h, listed r k v h).
Proof.
  intros HG E. destruct (HG k g E) as [_ HF]. split.
  - intros H. apply in_map_iff in H. destruct H as [[v' hs] [<- Hin]].
    rewrite Forall_forall in HF. pose proof (HF _ Hin) as Hne. cbn in Hne.
    destruct hs as [|h hs]; [contradiction|]. exists h, g, (h :: hs). cbn. auto.
  - intros [h [g' [hs [E' [H1 _]]]]]. rewrite E in E'. injection E' as <-.
    apply in_map_iff. exists (v, hs). auto.
Qed.

Theorem warned l : l <> [] -> in_order l -> NoDup (map i_host l) ->
  (forall i, In i l -> Forall (fun f => hashable (snd f) = true) (kept i)) ->
  (forall k, In k version_names -> exists i v, In i l /\ has i k v) ->
  exists w, warn l = Ok w /\
    (forall k, (exists g, get String.eqb k w = Some g) <->
       In k version_names /\ exists i j v1 v2, In i l /\ In j l /\ has i k v1 /\ has j k v2 /\ v1 <> v2) /\
    (forall k g v hs h, get String.eqb k w = Some g -> In (v, hs) g ->
       (In h hs <-> exists i, In i l /\ i_host i = h /\ has i k v)).
Proof.
  intros Hne HO HN HH HV.
  assert (W : exists i0, In i0 l /\ warn l =
    if existsb (fun i => (108000 <? i_uptime i) ||
         (10000000 <? i_created i - fold_right (fun i t => Z.min (i_created i) t) (i_created i0) l)) l
    then Err AttributeError
    else let* r := add_hosts (fold_left (fun d i => put String.eqb (i_host i) (kept i) d) l []) [] in
         mismatches version_names r).
  { destruct l as [|i0 l0]; [contradiction|]. exists i0. split; [left; reflexivity|reflexivity]. }
  destruct W as [i0 [H0 W]]. rewrite W. rewrite (proj2 (order_checked l i0 H0) HO).
  rewrite (fold_put l [] HN). cbn [app].
  destruct (add_hosts_ok (map (fun i => (i_host i, kept i)) l) []) as [r [Er [Gr Lr]]].
  { apply Forall_map, Forall_forall. intros i Hi. exact (HH i Hi). }
  { intros k g E. discriminate E. }
  rewrite Er. cbn [bind].
  assert (L : forall k w x, listed r k w x <-> exists i, In i l /\ i_host i = x /\ has i k w).
  { intros k w x. rewrite Lr. split.
    - intros [[g [hs [E _]]]|[fs [H1 H2]]]; [discriminate E|]. apply in_map_iff in H1.
      destruct H1 as [i [[= <- <-] Hi]]. exists i. auto.
    - intros [i [Hi [<- Hx]]]. right. exists (kept i). split; [|exact Hx].
      apply in_map_iff. exists i. auto. }
  destruct (mismatches_ok version_names r) as [w [Ew Lw]].
  { intros k Hk. destruct (HV k Hk) as [i [v [Hi Hv]]].
    destruct (proj2 (L k v (i_host i)) (ex_intro _ i (conj Hi (conj eq_refl Hv)))) as [g [hs [E _]]]. congruence. }
  { repeat constructor; cbn; intuition discriminate. }
  exists w. split; [exact Ew|]. split.
  - intros k. split.
    + intros [g E]. apply Lw in E. destruct E as [Hk [E HL]]. split; [exact Hk|].
      apply (two_values g (Gr k g E)) in HL. destruct HL as [v1 [v2 [N [H1 H2]]]].
      apply (value_listed r k g v1 Gr E) in H1. apply (value_listed r k g v2 Gr E) in H2.
      destruct H1 as [h1 H1]. destruct H2 as [h2 H2]. apply L in H1. apply L in H2.
      destruct H1 as [i [Hi [_ Hi2]]]. destruct H2 as [j [Hj [_ Hj2]]]. exists i, j, v1, v2. auto.
    + intros [Hk [i [j [v1 [v2 [Hi [Hj [H1 [H2 N]]]]]]]]].
      destruct (proj2 (L k v1 (i_host i)) (ex_intro _ i (conj Hi (conj eq_refl H1)))) as [g [hs1 [E [G1 F1]]]].
      exists g. apply Lw. split; [exact Hk|]. split; [exact E|]. apply (two_values g (Gr k g E)).
      exists v1, v2. split; [exact N|]. split.
      * apply in_map_iff. exists (v1, hs1). auto.
      * apply (value_listed r k g v2 Gr E). exists (i_host j). apply L. exists j. auto.
  - intros k g v hs h E Hin. apply Lw in E. destruct E as [Hk [E _]]. rewrite <- L. split.
    + intros Hh. exists g, hs. auto.
    + intros [g' [hs' [E' [H1 H2]]]]. rewrite E in E'. injection E' as <-.
      destruct (Gr k g E) as [GN _]. clear -GN Hin H1 H2.
      induction g as [|[u hu] g IH]; [contradiction|]. cbn [map fst] in GN. inversion GN as [|? ? N1 N2]; subst.
      destruct Hin as [E1|Hin], H1 as [E2|H1].
      * congruence.
      * injection E1 as -> ->. elim N1. apply in_map_iff. exists (v, hs'). auto.
      * injection E2 as -> ->. elim N1. apply in_map_iff. exists (v, hs). auto.
      * apply IH; assumption.
Qed.

(** Whoever collects gets lists, and lists cannot be counted. *)
Lemma unhashable_fields h fs r t v : In (t, v) fs -> hashable v = false -> add_fields h fs r = Err TypeError.
Proof.
  revert r. induction fs as [|[t' v'] fs IH]; intros r Hin Hv; [contradiction|]. cbn [add_fields].
  destruct (hashable v') eqn:E; [|reflexivity]. destruct Hin as [[= -> ->]|Hin]; [congruence|].
  apply IH; assumption.
Qed.

Lemma fold_put_first l d i : exists h, In h (map fst (fold_left (fun d i => put String.eqb (i_host i) (kept i) d) (i :: l) d)).
Proof.
  cbn [fold_left]. exists (i_host i).
  assert (H : In (i_host i) (map fst (put String.eqb (i_host i) (kept i) d))).
  { clear. induction d as [|[k v] d IH]; cbn [put map fst]; [left; reflexivity|].
    destruct (String.eqb_spec (i_host i) k); cbn [map fst]; [left; congruence|right; exact IH]. }
  revert H. generalize (put String.eqb (i_host i) (kept i) d). generalize (i_host i). intros h0. clear. induction l as [|j l IH]; intros e H; [exact H|].
  cbn [fold_left]. apply IH. clear -H. induction e as [|[k v] e IH]; [contradiction|]. cbn [put].
  destruct (String.eqb_spec (i_host j) k) as [E|N]; [exact H|].
  cbn [map fst] in *. destruct H as [H|H]; [left; exact H|right; exact (IH H)].
Qed.

Lemma fold_put_all l d (P : list (string * ival) -> Prop) : Forall (fun i => P (kept i)) l ->
  Forall (fun p => P (snd p)) d ->
  Forall (fun p => P (snd p)) (fold_left (fun d i => put String.eqb (i_host i) (kept i) d) l d).
Proof.
  intros H. revert d. induction H as [|i l Hi _ IH]; intros d Hd; [exact Hd|]. cbn [fold_left]. apply IH.
  clear IH. induction Hd as [|[k v] d Hv Hr IH]; cbn [put]; [constructor; [exact Hi|constructor]|].
  destruct (String.eqb (i_host i) k); (constructor; [first [exact Hi|exact Hv]|assumption]).
Qed.

Lemma collected_list i : collected i -> exists s, In ("fs_root"%string, IList s) (kept i).
Proof.
  intros (host & now & ps & others & ptp & fsr & bg & vs & E). unfold collect in E.
  destruct (1 <=? _) in E; [|discriminate E]. injection E as <-. exists fsr.
  unfold kept. cbn [i_fields]. apply in_map_iff. exists ("fs_root"%string, IList fsr, true).
  split; [reflexivity|]. apply filter_In. split; [|reflexivity].
  right. right. apply in_or_app. right. cbn [In]. do 3 right. left. reflexivity.
Qed.

Theorem warn_raises l : Forall collected l -> exists e, warn l = Err e.
Proof.
  intros H. destruct l as [|i0 l0]; [eexists; reflexivity|]. unfold warn.
  destruct (existsb _ _); [eexists; reflexivity|].
  destruct (fold_put_first l0 [] i0) as [h Hh].
  pose proof (fold_put_all (i0 :: l0) [] (fun fs => exists s, In ("fs_root"%string, IList s) fs)) as HA.
  specialize (HA (Forall_impl _ collected_list H) (Forall_nil _)).
  revert HA Hh. generalize (fold_left (fun d i => put String.eqb (i_host i) (kept i) d) (i0 :: l0) []).
  intros [|[h1 fs] inp] HA Hh; [contradiction|]. inversion HA as [|? ? [s Hs] _]; subst. cbn [snd] in Hs.
  cbn [add_hosts]. rewrite (unhashable_fields h1 fs [] _ _ Hs eq_refl). eexists. reflexivity.
Qed.

(** * CSV *)

Lemma commas_app a b : commas (a ++ b) = (commas a + commas b)%nat.
Proof. induction a as [|c a IH]; cbn [String.append commas]; [reflexivity|]. rewrite IH. lia. Qed.

Lemma commas_concat l : l <> [] ->
  commas (String.concat ", " l) = (List.length l - 1 + list_sum (map commas l))%nat.
Proof.
  induction l as [|s [|t l] IH]; intros H; [contradiction| |].
  - cbn. lia.
  - change (String.concat ", " (s :: t :: l)) with (s ++ ", " ++ String.concat ", " (t :: l))%string.
    rewrite !commas_app, IH by discriminate. cbn [List.length map list_sum fold_right commas Ascii.eqb Bool.eqb].
    cbn. lia.
Qed.

Lemma no_commas l : Forall (fun s => commas s = 0%nat) l -> list_sum (map commas l) = 0%nat.
Proof. induction 1 as [|s l E _ IH]; [reflexivity|]. cbn [map list_sum fold_right]. rewrite E. exact IH. Qed.

Lemma columns i : i_fields i <> [] -> Forall (fun f => commas (fst (fst f)) = 0%nat) (i_fields i) ->
  (commas (row i) = commas (header i) <-> Forall (fun f => commas (shown (snd (fst f))) = 0%nat) (i_fields i)).
Proof.
  intros Hne HF. unfold row, header.
  assert (N : forall (f : string * ival * bool -> string), map f (i_fields i) <> []).
  { intros f C. apply map_eq_nil in C. contradiction. }
  rewrite !commas_concat by apply N. rewrite !map_length.
  rewrite (no_commas (map (fun f => fst (fst f)) (i_fields i))) by (apply Forall_map, HF).
  rewrite map_map. split.
  - intros H. assert (E : list_sum (map (fun f => commas (shown (snd (fst f)))) (i_fields i)) = 0%nat) by lia.
    clear -E. induction (i_fields i) as [|f l IH]; [constructor|]. cbn [map list_sum fold_right] in E.
    constructor; [lia|]. apply IH. unfold list_sum. lia.
  - intros H. rewrite <- map_map. rewrite no_commas by (apply Forall_map, H). reflexivity.
Qed.

Lemma csv_lines i l : to_csv (i :: l) =
  (header i ++ crlf ++ String.concat "" (map (fun i => row i ++ crlf) (i :: l)))%string.
Proof.
  unfold to_csv, header. f_equal. f_equal.
  transitivity (fold_right (fun i s => row i ++ crlf ++ s) EmptyString (i :: l))%string.
  { generalize (i :: l). clear. induction l as [|i l IH]; [reflexivity|]. cbn [fold_right]. rewrite IH.
    unfold row. f_equal. }
  generalize (i :: l). clear. intros l.
  assert (A : forall a b c : string, ((a ++ b) ++ c = a ++ b ++ c)%string).
  { induction a as [|x a IH]; intros b c; [reflexivity|]. cbn [String.append]. now rewrite IH. }
  assert (Z0 : forall a : string, (a ++ "" = a)%string).
  { induction a as [|x a IH]; [reflexivity|]. cbn [String.append]. now rewrite IH. }
  induction l as [|i [|j l] IH]; [reflexivity| |].
  - cbn [fold_right map String.concat]. now rewrite Z0.
  - cbn [map] in *. cbn [fold_right] in *. rewrite IH.
    change (String.concat "" ((row i ++ crlf) :: (row j ++ crlf) :: map (fun i => row i ++ crlf) l))%string
      with ((row i ++ crlf) ++ "" ++ String.concat "" ((row j ++ crlf) :: map (fun i => row i ++ crlf) l))%string.
    cbn [String.append]. rewrite A. reflexivity.
Qed.

(** * Web client *)

Lemma text_ignored key_of user_of server s :
  connect key_of user_of server (TokenText s) = connect key_of user_of server NoToken.
Proof. reflexivity. Qed.

Lemma connected key_of user_of server t w : snd (connect key_of user_of server t) = Ok w ->
  w_connected w = true /\
  w_server w = match server with Some s => lower s | None => server_default end /\
  w_token w = match t with TokenFile (Some s) => s | _ => "basic_public_access"%string end /\
  ((w_server w = ""%string /\ w_user w = None /\ w_key w = None) \/
   exists k u, w_user w = Some u /\ w_key w = Some k /\
     key_of (w_server w ++ "/session_key")%string = Ok k /\
     user_of (w_server w ++ "/user?token=" ++ w_token w)%string = Ok u).
Proof.
  unfold connect, settings. set (srv := match server with Some s => lower s | None => w_server web0 end).
  intros H.
  assert (T : exists tok, match t with TokenFile None => Err FileNotFoundError | TokenFile (Some s) => Ok s
                | TokenText _ | NoToken => Ok (w_token web0) end = Ok tok /\
                tok = match t with TokenFile (Some s) => s | _ => "basic_public_access"%string end).
  { destruct t as [|s|[s|]]; try (eexists; split; reflexivity). discriminate H. }
  destruct T as [tok [ET Et]]. rewrite ET in H. rewrite <- Et. cbn [bind w_server w_token] in H.
  assert (Es : srv = match server with Some s => lower s | None => server_default end) by reflexivity.
  rewrite <- Es. clearbody srv. clear Es ET Et.
  destruct (String.eqb_spec srv "") as [->|N].
  - injection H as <-. cbn. auto 10.
  - destruct (key_of (srv ++ "/session_key")%string) as [k|e] eqn:EK; [|discriminate H].
    destruct (user_of (srv ++ "/user?token=" ++ tok)%string) as [u|e] eqn:EU; [|discriminate H].
    injection H as <-. cbn [w_connected w_server w_token w_user w_key]. repeat (split; [reflexivity|]).
    right. exists k, u. auto.
Qed.

Lemma asked key_of user_of server t a : In a (fst (connect key_of user_of server t)) ->
  exists rest, a = (match server with Some s => lower s | None => server_default end ++ rest)%string.
Proof.
  unfold connect, settings. set (srv := match server with Some s => lower s | None => w_server web0 end).
  destruct (match t with TokenFile None => Err FileNotFoundError | TokenFile (Some s) => Ok s
            | TokenText _ | NoToken => Ok (w_token web0) end) as [tok|e]; cbn [bind w_server w_token]; [|intros []].
  destruct (srv =? "")%string; [intros []|].
  destruct (key_of _); [destruct (user_of _)|]; cbn [fst In]; intros H;
    repeat destruct H as [<-|H]; try contradiction; eexists; reflexivity.
Qed.

Lemma bindings c m b : m <> "client_abc_fix"%string -> get String.eqb m (new_client c b) = get String.eqb m b.
Proof. intros N. unfold new_client. now rewrite get_put_other. Qed.

Lemma missing_absent k d :
  (match dget k d with None => true | Some v => value_eqb v none_ end = true) <-> absent k d.
Proof.
  unfold absent. destruct (dget k d) as [v|].
  - split.
    + intros H. right. destruct v; try discriminate H. cbn in H. apply String.eqb_eq in H. now subst.
    + intros [H|H]; [discriminate H|]. injection H as ->. reflexivity.
  - split; auto.
Qed.

Lemma dget_dput_same k v d : dget k (dput k v d) = Some v.
Proof. apply get_put_same. Qed.
Lemma dget_dput_other k k2 v d : k2 <> k -> dget k2 (dput k v d) = dget k2 d.
Proof. apply get_put_other. Qed.

Theorem filled w u d : w_user w = Some u -> exists d', web_fill w d = Ok d' /\
  (forall k, k <> "owner"%string -> k <> "group"%string -> dget k d' = dget k d) /\
  (absent "owner" d -> dget "owner" d' = Some (VStr (fst u))) /\
  (~ absent "owner" d -> dget "owner" d' = dget "owner" d) /\
  (absent "group" d -> dget "group" d' = Some (VStr (snd u))) /\
  (~ absent "group" d -> dget "group" d' = dget "group" d).
Proof.
  intros HU. unfold web_fill. rewrite HU. cbv zeta.
  pose proof (missing_absent "owner" d) as MO. pose proof (missing_absent "group" d) as MG.
  destruct (match dget "owner" d with None => true | Some v => value_eqb v none_ end).
  - cbn [bind]. rewrite (dget_dput_other "owner" "group") by discriminate.
    destruct (match dget "group" d with None => true | Some v => value_eqb v none_ end).
    + eexists. split; [reflexivity|]. split.
      { intros k N1 N2. now rewrite !dget_dput_other by assumption. }
      rewrite dget_dput_same, dget_dput_other, dget_dput_same by discriminate.
      split; [auto|]. split; [intros N; elim N; now apply MO|]. split; [auto|]. intros N; elim N; now apply MG.
    + eexists. split; [reflexivity|]. split.
      { intros k N1 N2. now rewrite !dget_dput_other by assumption. }
      rewrite dget_dput_same, dget_dput_other by discriminate.
      split; [auto|]. split; [intros N; elim N; now apply MO|]. split; [|auto].
      intros A. apply MG in A. discriminate A.
  - cbn [bind].
    destruct (match dget "group" d with None => true | Some v => value_eqb v none_ end).
    + eexists. split; [reflexivity|]. split.
      { intros k N1 N2. now rewrite !dget_dput_other by assumption. }
      rewrite dget_dput_same, dget_dput_other by discriminate.
      split; [intros A; apply MO in A; discriminate A|]. split; [auto|]. split; [auto|].
      intros N; elim N; now apply MG.
    + eexists. split; [reflexivity|]. split; [auto|].
      split; [intros A; apply MO in A; discriminate A|]. split; [auto|].
      split; [intros A; apply MG in A; discriminate A|]. auto.
Qed.

Lemma init_files m now p reset : m_files (fst (fixtures_init m now p reset)) = m_files m /\
  m_sheep (fst (fixtures_init m now p reset)) = m_sheep m.
Proof.
  unfold fixtures_init. destruct (if m_sheep m then None else _) as [x|]; [auto|].
  destruct (let* l := _ in insert_files [] l) as [[|y ys]|e]; auto. destruct (m_sheep m) eqn:E; cbn; auto.
Qed.

(** Where no cache is, or on a sheep, files are read all the time. *)
Theorem always_read m l : m_sheep m = true \/ m_cache m = None ->
  snd (constructions m l) = map (fun c => reading m (path_of (snd (fst c)))) l.
Proof.
  revert m. induction l as [|[[now p] reset] l IH]; intros m H; [reflexivity|].
  cbn [constructions map fst snd].
  assert (E : snd (fixtures_init m now p reset) = reading m (path_of p)).
  { apply read_fresh. destruct H as [H|H]; [auto|]. right. left. intros [t [x [E _]]]. congruence. }
  destruct (init_files m now p reset) as [F1 F2].
  assert (H' : m_sheep (fst (fixtures_init m now p reset)) = true \/
               m_cache (fst (fixtures_init m now p reset)) = None).
  { destruct (m_sheep m) eqn:ES; [left; now rewrite F2|]. right. rewrite kept_off_sheep by exact ES.
    destruct H as [H|H]; [congruence|exact H]. }
  specialize (IH _ H').
  destruct (fixtures_init m now p reset) as [m1 r]. cbn [fst snd] in *. subst r.
  destruct (constructions m1 l) as [m2 rs]. cbn [snd] in *. subst rs. f_equal.
  unfold reading. now rewrite F1.
Qed.

Lemma offline_fill d :
  web_fill (mkWeb "" "" (Some ("unknown", "unknown")%string) None false) d = Ok (fill_in_user_data d).
Proof.
  unfold web_fill, fill_in_user_data. cbn [w_user fst snd].
  destruct (match dget "owner" d with None => true | Some v => value_eqb v none_ end); cbn [bind];
    match goal with |- context [if ?b then _ else _] => destruct b end; reflexivity.
Qed.

(** What is kept of a collected inventory. *)
Lemma collect_kept host now u ifs others ptp fs_root beagle versions i :
  collect host now (Some (u, ifs)) others ptp fs_root beagle versions = Ok i ->
  has i "hostname" (IText host) /\ has i "fs_root" (IList fs_root) /\ has i "beagle" (IList beagle) /\
  (forall o, In o others -> has i (fst o) (IText (snd o))) /\
  (forall s, ptp = Some s -> has i "ptp" (IText s)) /\ (forall s, ifs = Some s -> has i "interfaces" (IDict s)) /\
  (forall v, (~ In "cape"%string (map fst others) -> ~ has i "cape" v) /\ (~ In "targets"%string (map fst others) -> ~ has i "targets" v)).
Proof.
  unfold collect. destruct (1 <=? u); [|discriminate]. intros H.
  apply (f_equal (fun r => match r with Ok i => i | Err _ => i end)) in H. cbn beta iota in H. subst i.
  assert (K : forall f k v, In (k, v, true) f -> has (mkInv host now u f) k v).
  { intros f k v I. unfold has, kept. cbn [i_fields]. apply in_map_iff. exists (k, v, true). split; [reflexivity|]. now apply filter_In. }
  repeat split.
  - apply K. apply in_or_app. right. apply in_or_app. right. apply in_or_app. left. cbn. tauto.
  - apply K. apply in_or_app. right. apply in_or_app. right. apply in_or_app. left. cbn. tauto.
  - apply K. apply in_or_app. right. apply in_or_app. right. apply in_or_app. left. cbn. tauto.
  - intros o I. apply K. apply in_or_app. right. apply in_or_app. left. apply in_map_iff. exists o. auto.
  - intros s ->. apply K. apply in_or_app. right. apply in_or_app. right. apply in_or_app. left. cbn. tauto.
  - intros s ->. apply K. apply in_or_app. right. apply in_or_app. right. apply in_or_app. left. cbn. tauto.
  - intros N I. unfold has, kept in I. cbn [i_fields] in I. apply in_map_iff in I as [[[k w] b] [E I]]. cbn [fst] in E.
    injection E as -> ->. apply filter_In in I as [I B]. cbn [snd] in B. subst b.
    apply in_app_or in I as [I|I]; [cbn in I; intuition discriminate|].
    apply in_app_or in I as [I|I].
    { apply in_map_iff in I as [o [E I]]. injection E as E _. apply N. rewrite <- E. now apply in_map. }
    apply in_app_or in I as [I|I]; [cbn in I; intuition discriminate|].
    apply in_map_iff in I as [n [E I]]. cbn in I. 
    repeat (destruct I as [<- | I]; [match type of E with match ?g with _ => _ end = _ => destruct g; discriminate E end|]). destruct I.
  - intros N I. unfold has, kept in I. cbn [i_fields] in I. apply in_map_iff in I as [[[k w] b] [E I]]. cbn [fst] in E.
    injection E as -> ->. apply filter_In in I as [I B]. cbn [snd] in B. subst b.
    apply in_app_or in I as [I|I]; [cbn in I; intuition discriminate|].
    apply in_app_or in I as [I|I].
    { apply in_map_iff in I as [o [E I]]. injection E as E _. apply N. rewrite <- E. now apply in_map. }
    apply in_app_or in I as [I|I]; [cbn in I; intuition discriminate|].
    apply in_map_iff in I as [n [E I]]. cbn in I. 
    repeat (destruct I as [<- | I]; [match type of E with match ?g with _ => _ end = _ => destruct g; discriminate E end|]). destruct I.
Qed.
