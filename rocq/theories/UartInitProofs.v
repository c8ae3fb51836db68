(** Proofs about preparing a recording for the UART decoder. *)
From Verif Require Import PyBase UartModel UartSpec UartProofs.
From Coq Require Import QArith Qround Qabs Lqa ZifyBool.
Open Scope Z_scope.

(** * Mean values *)

Definition qlen {A} (l : list A) : Q := inject_Z (Z.of_nat (length l)).

Lemma qlen_cons {A} (a : A) l : (qlen (a :: l) == qlen l + 1)%Q.
Proof.
  unfold qlen. cbn [length]. rewrite Nat2Z.inj_succ. unfold Z.succ. rewrite inject_Z_plus.
  reflexivity.
Qed.

Lemma qlen_nil {A} : (qlen (@nil A) == 0)%Q.
Proof. reflexivity. Qed.

Lemma qsum_ge l lo : Forall (fun v => lo <= v)%Q l -> (qlen l * lo <= fold_right Qplus 0 l)%Q.
Proof.
  induction 1 as [|w l H _ IH]; cbn [fold_right]; [rewrite qlen_nil; lra|].
  rewrite qlen_cons. lra.
Qed.

Lemma qsum_le l hi : Forall (fun v => v <= hi)%Q l -> (fold_right Qplus 0 l <= qlen l * hi)%Q.
Proof.
  induction 1 as [|w l H _ IH]; cbn [fold_right]; [rewrite qlen_nil; lra|].
  rewrite qlen_cons. lra.
Qed.

Lemma qsum_gt l lo hi : Forall (fun v => lo <= v)%Q l -> Exists (fun v => hi <= v)%Q l ->
  (lo < hi)%Q -> (qlen l * lo < fold_right Qplus 0 l)%Q.
Proof.
  intros HF HE Hlt. induction HF as [|v l H1 HF IH]; [inversion HE|].
  cbn [fold_right]. rewrite qlen_cons. inversion HE as [? ? H|? ? H]; subst.
  - pose proof (qsum_ge l lo HF). lra.
  - specialize (IH H). lra.
Qed.

Lemma qsum_lt l lo hi : Forall (fun v => v <= hi)%Q l -> Exists (fun v => v <= lo)%Q l ->
  (lo < hi)%Q -> (fold_right Qplus 0 l < qlen l * hi)%Q.
Proof.
  intros HF HE Hlt. induction HF as [|v l H1 HF IH]; [inversion HE|].
  cbn [fold_right]. rewrite qlen_cons. inversion HE as [? ? H|? ? H]; subst.
  - pose proof (qsum_le l hi HF). lra.
  - specialize (IH H). lra.
Qed.

Lemma len_pos {A} (l : list A) : l <> [] -> (0 < qlen l)%Q.
Proof.
  intros H. unfold qlen. change 0%Q with (inject_Z 0). rewrite <- Zlt_Qlt. destruct l; [contradiction|].
  cbn [length]. lia.
Qed.

Lemma qmean_le l hi : l <> [] -> Forall (fun v => v <= hi)%Q l -> (qmean l <= hi)%Q.
Proof.
  intros Hne H. unfold qmean. apply Qle_shift_div_r; [exact (len_pos l Hne)|].
  pose proof (qsum_le l hi H). unfold qlen in *. lra.
Qed.

Lemma qmean_ge l lo : l <> [] -> Forall (fun v => lo <= v)%Q l -> (lo <= qmean l)%Q.
Proof.
  intros Hne H. unfold qmean. apply Qle_shift_div_l; [exact (len_pos l Hne)|].
  pose proof (qsum_ge l lo H). unfold qlen in *. lra.
Qed.

Lemma qmean_gt l lo hi : Forall (fun v => lo <= v)%Q l -> Exists (fun v => hi <= v)%Q l ->
  (lo < hi)%Q -> (lo < qmean l)%Q.
Proof.
  intros H1 H2 H3. assert (Hne : l <> []) by (destruct l; [inversion H2|discriminate]).
  unfold qmean. apply Qlt_shift_div_l; [exact (len_pos l Hne)|].
  pose proof (qsum_gt l lo hi H1 H2 H3). unfold qlen in *. lra.
Qed.

Lemma qmean_lt l lo hi : Forall (fun v => v <= hi)%Q l -> Exists (fun v => v <= lo)%Q l ->
  (lo < hi)%Q -> (qmean l < hi)%Q.
Proof.
  intros H1 H2 H3. assert (Hne : l <> []) by (destruct l; [inversion H2|discriminate]).
  unfold qmean. apply Qlt_shift_div_r; [exact (len_pos l Hne)|].
  pose proof (qsum_lt l lo hi H1 H2 H3). unfold qlen in *. lra.
Qed.

(** * From voltages to levels *)

Definition seen (inv : bool) (r : Q * bool) : Q * Z := (fst r, level (xorb inv (snd r))).

Lemma analog_levels lo hi inv rows :
  (lo < hi)%Q -> Exists (fun r => xorb inv (snd r) = true) rows ->
  analog2digital (map (fun r => (fst r, voltage lo hi inv (snd r))) rows) = map (seen inv) rows.
Proof.
  intros Hlt HE. unfold analog2digital. rewrite !map_map. cbn [fst snd].
  set (vs := map (fun x : Q * bool => voltage lo hi inv (snd x)) rows).
  assert (Hall : Forall (fun v => lo <= v /\ v <= hi)%Q vs).
  { unfold vs. apply Forall_map. apply Forall_forall. intros [t v] _. cbn. unfold voltage.
    destruct (xorb inv v); split; lra. }
  assert (Hex : Exists (fun v => hi <= v)%Q vs).
  { unfold vs. apply Exists_exists in HE. destruct HE as [r [H1 H2]]. apply Exists_exists.
    exists (voltage lo hi inv (snd r)). split; [apply in_map_iff; eauto|].
    unfold voltage. rewrite H2. lra. }
  assert (Hne : vs <> []) by (destruct vs; [inversion Hex|discriminate]).
  assert (H1 : (lo < qmean vs)%Q).
  { apply (qmean_gt vs lo hi); auto. eapply Forall_impl; [|exact Hall]. cbn. intros v H. apply H. }
  assert (H2 : (qmean vs <= hi)%Q).
  { apply qmean_le; auto. eapply Forall_impl; [|exact Hall]. cbn. intros v H. apply H. }
  apply map_ext. intros [t v]. unfold seen, digital, voltage. cbn [fst snd]. f_equal.
  destruct (xorb inv v); cbn [level].
  - rewrite (proj2 (Qle_bool_true _ _) H2). reflexivity.
  - rewrite (proj2 (Qle_bool_false _ _) H1). reflexivity.
Qed.

(** * Redundant samples *)

Lemma level_inj a b : level a = level b -> a = b.
Proof. destruct a, b; cbn; congruence. Qed.

Lemma xorb_cancel inv a b : xorb inv a = xorb inv b -> a = b.
Proof. destruct inv, a, b; cbn; congruence. Qed.

Lemma recorded_filter inv : forall edges rows p,
  recorded edges rows ->
  match edges with [] => True | e :: _ => level (xorb inv (snd e)) <> p end ->
  select (changes p (map snd (map (seen inv) rows))) (map (seen inv) rows) = map (seen inv) edges.
Proof.
  intros edges rows p H. revert p. induction H as [|t v again edges rows HA HR IH HN];
    intros p Hp; [reflexivity|].
  cbn [map snd seen fst changes]. cbn [snd] in Hp.
  replace (level (xorb inv v) =? p) with false by (symmetry; apply Z.eqb_neq; exact Hp).
  cbn [negb select]. f_equal.
  induction HA as [|[t2 v2] again H1 HA IHA].
  - cbn [app]. apply IH. destruct edges as [|[t2 v2] edges]; [exact I|]. cbn [snd] in *. subst v2.
    intros E. apply level_inj in E. apply xorb_cancel in E. destruct v; discriminate.
  - cbn [snd] in H1. subst v2. cbn [app map snd seen fst changes].
    rewrite Z.eqb_refl. cbn [negb select]. exact IHA.
Qed.

Lemma filter_recorded inv edges rows :
  recorded edges rows -> rows <> [] ->
  filter_redundant_states (map (seen inv) rows) = Ok (map (seen inv) edges).
Proof.
  intros H Hne. unfold filter_redundant_states.
  destruct rows as [|r0 rows0] eqn:ER; [contradiction|].
  cbn [map]. rewrite filter_changes. cbn [bind].
  f_equal. inversion H as [|t v again edges' rows' HA HR HN]; subst. cbn [select map]. f_equal.
  cbn [snd seen fst].
  clear Hne H. induction HA as [|[t2 v2] again H1 HA IHA].
  - cbn [app]. apply recorded_filter; [exact HR|]. destruct edges' as [|[t2 v2] edges']; [exact I|].
    cbn [snd] in *. subst v2. intros E. apply level_inj in E. apply xorb_cancel in E.
    destruct v; discriminate.
  - cbn [snd] in H1. subst v2. cbn [app map snd seen fst changes].
    rewrite Z.eqb_refl. cbn [negb select]. exact IHA.
Qed.

(** * Durations *)

(** Equal up to the representation of the duration. *)
Definition ev_eq (a b : event) : Prop :=
  e_time a = e_time b /\ e_value a = e_value b /\ (e_steps a == e_steps b)%Q.

Definition flip (inv : bool) (e : event) : event :=
  mkEvent (e_time e) (if inv then 1 - e_value e else e_value e) (e_steps e).

Lemma level_xorb inv v : level (xorb inv v) = if inv then 1 - level v else level v.
Proof. destruct inv, v; reflexivity. Qed.

Lemma timed_duration inv tick edges evs :
  (0 < tick)%Q -> timed tick edges evs ->
  Forall2 ev_eq (add_duration tick (map (seen inv) edges)) (map (flip inv) evs).
Proof.
  intros Ht H. induction H as [t v|t v t' v' d edges evs Hd H IH]; [constructor|].
  cbn [map seen fst snd add_duration]. constructor; [|exact IH].
  split; [reflexivity|]. split; [apply level_xorb|]. cbn [flip e_steps].
  rewrite <- Hd. field. intros E. rewrite E in Ht. discriminate.
Qed.

Lemma timed_values tick edges evs : timed tick edges evs ->
  Forall (fun e => e_value e = 0 \/ e_value e = 1) evs.
Proof. induction 1 as [|t v]; constructor; auto. destruct v; cbn; auto. Qed.

Lemma ev_eq_pause a b : ev_eq a b -> Qle_bool (e_steps a) 80 = Qle_bool (e_steps b) 80.
Proof.
  intros [_ [_ H]]. destruct (Qle_bool (e_steps b) 80) eqn:E.
  - apply Qle_bool_true in E. apply Qle_bool_true. lra.
  - apply Qle_bool_false in E. apply Qle_bool_false. lra.
Qed.

(** All pauses show the value [b]. *)
Lemma detect_all evs (b : bool) :
  Forall (fun e => (80 < e_steps e)%Q -> e_value e = level b) (firstn 1000 evs) ->
  (b = true \/ has_pause evs) -> detect_inversion evs = Ok (negb b).
Proof.
  intros H HP. unfold detect_inversion, has_pause in *. unfold pauses.
  set (l := firstn 1000 evs) in *. clearbody l.
  set (ps := filter (fun e => negb (Qle_bool (e_steps e) 80)) l).
  assert (Hps : Forall (fun e => e_value e = level b) ps).
  { apply Forall_forall. intros e He. unfold ps in He. apply filter_In in He. destruct He as [H1 H2].
    rewrite Forall_forall in H. apply (H e H1). apply negb_true_iff in H2.
    apply Qle_bool_false. exact H2. }
  destruct ps as [|e0 ps0] eqn:EP.
  - destruct HP as [->|HP]; [reflexivity|]. exfalso. apply Exists_exists in HP.
    destruct HP as [e [H1 H2]]. assert (In e ps).
    { unfold ps. apply filter_In. split; [exact H1|]. apply negb_true_iff, Qle_bool_false. exact H2. }
    rewrite EP in H0. destruct H0.
  - set (qs := map (fun e => inject_Z (e_value e)) (e0 :: ps0)).
    assert (Hq : Forall (fun v => v == inject_Z (level b))%Q qs).
    { unfold qs. apply Forall_map. eapply Forall_impl; [|exact Hps]. cbn. intros e ->. reflexivity. }
    assert (Hne : qs <> []) by (unfold qs; discriminate).
    assert (Hm : (qmean qs == inject_Z (level b))%Q).
    { apply Qle_antisym.
      - apply qmean_le; [exact Hne|]. eapply Forall_impl; [|exact Hq]. cbn. intros v Hv. rewrite Hv. lra.
      - apply qmean_ge; [exact Hne|]. eapply Forall_impl; [|exact Hq]. cbn. intros v Hv. rewrite Hv. lra. }
    clearbody qs. destruct b; cbn [level] in Hm; change (inject_Z 1) with 1%Q in Hm; change (inject_Z 0) with 0%Q in Hm.
    + replace (Qle_bool (9 # 10) (qmean qs)) with true by (symmetry; apply Qle_bool_true; lra).
      rewrite andb_false_r.
      replace (Qle_bool (1 # 2) (qmean qs)) with true by (symmetry; apply Qle_bool_true; lra).
      reflexivity.
    + replace (Qle_bool (qmean qs) (1 # 10)) with true by (symmetry; apply Qle_bool_true; lra).
      cbn [negb andb].
      replace (Qle_bool (1 # 2) (qmean qs)) with false by (symmetry; apply Qle_bool_false; lra).
      reflexivity.
Qed.

Lemma forall2_firstn {A B} (R : A -> B -> Prop) n : forall l l',
  Forall2 R l l' -> Forall2 R (firstn n l) (firstn n l').
Proof.
  induction n as [|n IH]; intros l l' H; [constructor|]. destruct H; [constructor|].
  cbn. constructor; auto.
Qed.

Lemma pauses_of inv evs evs' :
  Forall2 ev_eq evs' (map (flip inv) evs) -> pauses_high evs ->
  Forall (fun e => (80 < e_steps e)%Q -> e_value e = level (negb inv)) (firstn 1000 evs').
Proof.
  unfold pauses_high. intros H HP. apply (forall2_firstn _ 1000) in H. rewrite firstn_map in H.
  set (l := firstn 1000 evs) in *. set (l' := firstn 1000 evs') in *. clearbody l l'.
  revert l' H. induction HP as [|e l He _ IH]; intros l' H;
    inversion H as [|a b la lb Hab Hr]; subst; constructor; auto.
  destruct Hab as [_ [H2 H3]]. cbn in H2, H3. intros Hs. rewrite H2. rewrite He by lra.
  destruct inv; reflexivity.
Qed.

Lemma has_pause_of inv evs evs' :
  Forall2 ev_eq evs' (map (flip inv) evs) -> has_pause evs -> has_pause evs'.
Proof.
  unfold has_pause. intros H HP. apply (forall2_firstn _ 1000) in H. rewrite firstn_map in H.
  set (l := firstn 1000 evs) in *. set (l' := firstn 1000 evs') in *. clearbody l l'.
  revert l' H. induction HP as [e l He|e l _ IH]; intros l' H;
    inversion H as [|a b la lb Hab Hr]; subst.
  - constructor. destruct Hab as [_ [_ H2]]. cbn in H2. lra.
  - apply Exists_cons_tl. auto.
Qed.

(** Inverting: both levels 0 and 1 are exchanged if a low level occurs. *)
Lemma invert_flip evs :
  Forall (fun e => e_value e = 0 \/ e_value e = 1) evs -> Exists (fun e => e_value e = 0) evs ->
  invert_events evs = map (flip true) evs.
Proof.
  intros HF HE. unfold invert_events.
  set (m := qmean (map (fun e => inject_Z (e_value e)) evs)).
  assert (H1 : (m < 1)%Q).
  { apply (qmean_lt _ 0 1).
    - apply Forall_map. eapply Forall_impl; [|exact HF]. cbn. intros e [->| ->]; discriminate.
    - apply Exists_exists in HE. destruct HE as [e [A B]]. apply Exists_exists.
      exists (inject_Z (e_value e)). split; [apply in_map_iff; eauto|]. rewrite B. discriminate.
    - reflexivity. }
  assert (H0 : (0 <= m)%Q).
  { apply qmean_ge.
    - destruct evs; [inversion HE|discriminate].
    - apply Forall_map. eapply Forall_impl; [|exact HF]. cbn. intros e [->| ->]; discriminate. }
  clearbody m. apply map_ext_in. intros e He. rewrite Forall_forall in HF.
  unfold flip. f_equal. unfold digital. destruct (HF e He) as [->| ->].
  - rewrite (proj2 (Qle_bool_true (inject_Z 0) m)) by exact H0. reflexivity.
  - rewrite (proj2 (Qle_bool_false (inject_Z 1) m)) by exact H1. reflexivity.
Qed.

Lemma ev_eq_flip2 evs evs' :
  Forall2 ev_eq evs' (map (flip true) evs) -> Forall2 ev_eq (map (flip true) evs') evs.
Proof.
  revert evs'. induction evs as [|e evs IH]; intros evs' H;
    inversion H as [|a b la lb Hab Hr]; subst; cbn [map]; constructor; auto.
  destruct Hab as [A [B C]]. cbn in *. split; [exact A|]. split; [|exact C]. cbn. lia.
Qed.

Lemma ev_eq_flip0 evs : map (flip false) evs = evs.
Proof. rewrite <- (map_id evs) at 2. apply map_ext. intros [t v d]. reflexivity. Qed.

Lemma ascending_falling ts : ascending ts -> falling ts = false.
Proof.
  induction ts as [|a ts IH]; [reflexivity|]. destruct ts as [|b ts]; [reflexivity|].
  intros [H1 H2]. cbn [falling]. rewrite (proj2 (Qle_bool_true a b) H1).
  cbn. exact (IH H2).
Qed.

Lemma recorded_both edges rows inv :
  recorded edges rows -> (2 <= length edges)%nat -> Exists (fun r => xorb inv (snd r) = true) rows.
Proof.
  intros H HL. inversion H as [|t v again edges' rows' HA HR HN]; subst; [cbn in HL; lia|].
  destruct (xorb inv v) eqn:E; [constructor; exact E|].
  inversion HR as [|t2 v2 again2 edges2 rows2 HA2 HR2 HN2]; subst; [cbn in HL; lia|].
  cbn in HN. subst v2. apply Exists_cons_tl. apply Exists_app. right. constructor. cbn.
  destruct inv, v; cbn in *; congruence.
Qed.

Lemma timed_length tick edges evs : timed tick edges evs -> length edges = S (length evs).
Proof. induction 1; cbn in *; congruence. Qed.

(** * The constructor *)

Theorem init_events tick lo hi inv given edges rows evs :
  (0 < tick)%Q -> (lo < hi)%Q -> recorded edges rows -> (8 <= length rows)%nat ->
  ascending (map fst rows) -> timed tick edges evs -> evs <> [] -> pauses_high evs ->
  given = Some inv \/ given = None /\ (inv = false \/ has_pause evs) ->
  (inv = true -> Exists (fun e => e_value e = 1) evs) ->
  exists evs',
    uart_init tick given (map (fun r => (fst r, voltage lo hi inv (snd r))) rows) = Ok evs' /\
    Forall2 ev_eq evs' evs.
Proof.
  intros Ht Hl HR H8 HA HT Hne HP HG HE. unfold uart_init. rewrite map_length.
  replace (length rows <? 8)%nat with false by lia.
  rewrite map_map. cbn [fst]. rewrite ascending_falling by exact HA.
  rewrite analog_levels; [|exact Hl|].
  2:{ eapply recorded_both; [exact HR|]. rewrite (timed_length _ _ _ HT).
      destruct evs; [contradiction|cbn; lia]. }
  rewrite (filter_recorded inv edges rows HR).
  2:{ intros ->. cbn in H8. lia. }
  cbn [bind]. pose proof (timed_duration inv tick edges evs Ht HT) as HD.
  set (es := add_duration tick (map (seen inv) edges)) in *. clearbody es.
  pose proof (pauses_of inv evs es HD HP) as HPs.
  assert (Hinv : match given with Some b => Ok b | None => detect_inversion es end = Ok inv).
  { destruct HG as [->|[-> HG]]; [reflexivity|].
    rewrite (detect_all es (negb inv)); [rewrite negb_involutive; reflexivity|exact HPs|].
    destruct HG as [->|HG]; [auto|]. right. exact (has_pause_of _ _ _ HD HG). }
  rewrite Hinv. cbn [bind]. pose proof (timed_values _ _ _ HT) as HV.
  assert (Hfin : Forall2 ev_eq (if inv then invert_events es else es) evs).
  { destruct inv.
    - rewrite invert_flip; [apply ev_eq_flip2; exact HD| |].
      + clear -HD HV. revert es HD. induction HV as [|e evs He _ IH]; intros es HD;
          inversion HD as [|a b la lb Hab Hr]; subst; constructor; auto.
        destruct Hab as [_ [H1 _]]. cbn in H1. lia.
      + specialize (HE eq_refl). clear -HD HE. revert es HD.
        induction HE as [e evs He|e evs _ IH]; intros es HD;
          inversion HD as [|a b la lb Hab Hr]; subst.
        * constructor. destruct Hab as [_ [H1 _]]. cbn in H1. lia.
        * apply Exists_cons_tl. auto.
    - rewrite ev_eq_flip0 in HD. exact HD. }
  set (es' := if inv then invert_events es else es) in *. clearbody es'.
  exists es'. split; [|exact Hfin].
  rewrite (detect_all es' true); [reflexivity| |auto].
  rewrite <- (ev_eq_flip0 evs) in Hfin. exact (pauses_of false evs es' Hfin HP).
Qed.

(** * Transfer to the events the constructor computed *)

Lemma in_tolerance_eq run a b : ev_eq a b -> in_tolerance run b -> in_tolerance run a.
Proof.
  intros [_ [H1 H2]] [H3 H4]. split; [congruence|].
  destruct (fst run); rewrite H2; exact H4.
Qed.

Lemma at_least_eq run a b : ev_eq a b -> at_least run b -> at_least run a.
Proof. intros [_ [H1 H2]] [H3 H4]. split; [congruence|]. rewrite H2. exact H4. Qed.

Definition same_msg (a b : Q * Z * Q) : Prop := fst a = fst b.

Lemma sends_eq t b evs d evs' :
  Forall2 ev_eq evs' evs -> sends t b evs d -> exists d', sends t b evs' d'.
Proof.
  intros HF [front [last [-> [-> [H1 [H2 H3]]]]]].
  apply Forall2_app_inv_r in HF. destruct HF as [f' [l' [Hf [Hl ->]]]].
  inversion Hl as [|e' ? l2 ? He Hn]; subst. inversion Hn; subst.
  exists (e_steps e'). exists f', e'. split; [reflexivity|]. split; [reflexivity|].
  split; [|split; [exact (at_least_eq _ _ _ He H2)|]].
  - clear -H1 Hf. revert f' Hf. induction H1 as [|r e rs front Hr _ IH]; intros f' Hf;
      inversion Hf; subst; constructor; eauto using in_tolerance_eq.
  - intros e0 r ->. inversion Hf as [|? b0 ? rest Hb]; subst. destruct Hb as [Hb _]. rewrite Hb.
    exact (H3 _ _ eq_refl).
Qed.

Lemma transmits_eq msg evs : transmits msg evs -> forall evs', Forall2 ev_eq evs' evs ->
  exists msg', transmits msg' evs' /\ map fst msg' = map fst msg.
Proof.
  induction 1 as [|t b d evs msg evs2 HS HT IH]; intros evs' HF.
  - inversion HF; subst. exists []. split; [constructor|reflexivity].
  - apply Forall2_app_inv_r in HF. destruct HF as [e1 [e2 [H1 [H2 ->]]]].
    destruct (sends_eq _ _ _ _ _ H1 HS) as [d' HS']. destruct (IH _ H2) as [msg' [H3 H4]].
    exists ((t, b, d') :: msg'). split; [constructor; assumption|]. cbn. rewrite H4. reflexivity.
Qed.

(** Every frame contains a high level. *)
Lemma frame_high b : fst (List.last (rle (frame_bits b)) (true, 1)) = true.
Proof.
  unfold frame_bits.
  assert (G : forall l, fst (List.last (rle (l ++ [true])) (true, 1)) = true).
  { induction l as [|a l IH]; [reflexivity|]. cbn [app rle].
    destruct (rle (l ++ [true])) as [|[b0 n] r] eqn:E; [exfalso|].
    - destruct l as [|c l]; cbn in E; [discriminate|].
      destruct (rle (l ++ [true])) as [|[b0 n] r]; [discriminate|].
      destruct (Bool.eqb c b0); discriminate.
    - destruct (Bool.eqb a b0); [|exact IH].
      destruct r as [|x r]; cbn in *; exact IH. }
  rewrite app_comm_cons. apply G.
Qed.

Lemma transmits_high msg evs : transmits msg evs -> msg <> [] ->
  Exists (fun e => e_value e = 1) evs /\ evs <> [].
Proof.
  intros H Hne. inversion H as [|t b d e1 msg' e2 HS HT]; subst; [contradiction|].
  destruct HS as [front [last [-> [_ [_ [[H2 _] _]]]]]]. rewrite frame_high in H2.
  split.
  - apply Exists_app. left. apply Exists_app. right. constructor. exact H2.
  - intros F. apply app_eq_nil in F. destruct F as [F _]. apply app_eq_nil in F. destruct F; discriminate.
Qed.

Theorem uart_recording tick lo hi inv given edges rows lead msg evs :
  (0 < tick)%Q -> (lo < hi)%Q -> recorded edges rows -> (8 <= length rows)%nat ->
  ascending (map fst rows) -> timed tick edges (lead ++ evs) ->
  pauses_high (lead ++ evs) ->
  given = Some inv \/ given = None /\ (inv = false \/ has_pause (lead ++ evs)) ->
  transmits msg evs -> Forall idle lead -> msg <> [] ->
  Forall (fun x => 1 <= snd (fst x) <= 127) msg ->
  bind (uart_init tick given (map (fun r => (fst r, voltage lo hi inv (snd r))) rows))
       (get_symbols 8) = Ok (map (fun x => (fst (fst x), [snd (fst x)])) msg).
Proof.
  intros Ht Hl HR H8 HA HT HP HG HX HI Hne HB.
  destruct (transmits_high _ _ HX Hne) as [Hhi Hev].
  destruct (init_events tick lo hi inv given edges rows (lead ++ evs)) as [evs' [H1 H2]]; auto.
  { intros F. apply app_eq_nil in F. destruct F; contradiction. }
  { intros _. apply Exists_app. auto. }
  rewrite H1. cbn [bind]. apply Forall2_app_inv_r in H2. destruct H2 as [l' [e' [H2 [H3 ->]]]].
  destruct (transmits_eq _ _ HX _ H3) as [msg' [H4 H5]].
  assert (HI' : Forall idle l').
  { clear -HI H2. revert l' H2. induction HI as [|e lead He _ IH]; intros l' H;
      inversion H as [|a b la lb Hab Hr]; subst;
      constructor; auto. unfold idle in *. destruct Hab as [_ [H3 _]]. congruence. }
  rewrite (uart_text l' msg' e' H4 HI').
  - f_equal. rewrite <- (map_map fst (fun x => (fst x, [snd x]))), H5, map_map. reflexivity.
  - intros ->. destruct msg; [contradiction|discriminate].
  - apply Forall_forall. intros x Hx. apply (in_map fst) in Hx. rewrite H5 in Hx.
    apply in_map_iff in Hx. destruct Hx as [y [Hy1 Hy2]]. rewrite <- Hy1.
    rewrite Forall_forall in HB. apply HB. exact Hy2.
Qed.
