(** Proofs about reports and extracted files. *)
From Coq Require Import Permutation String Ascii Lia.
From Verif Require Import PyBase FileModel FileSpec FileSysProofs UartModel FwModel StoModel StoProofs RepModel RepSpec.
From Coq Require Import QArith.
Open Scope Z_scope.

(** ** Metadata *)

Lemma put_new {A} k (v : A) d : ~ In k (map fst d) -> put k v d = d ++ [(k, v)].
Proof.
  induction d as [| [k' v'] d IH]; cbn; intro H; [reflexivity |].
  destruct (String.eqb_spec k' k) as [-> | _]; [exfalso; apply H; now left |].
  rewrite IH; [reflexivity |]. intro K. apply H. now right.
Qed.

Lemma nodup_tail {A} (l1 l2 : list A) : NoDup (l1 ++ l2) -> NoDup l2.
Proof. induction l1 as [| a l1 IH]; cbn; intro N; [exact N |]. inversion N; subst. now apply IH. Qed.

Lemma nodup_head {A} (l1 l2 : list A) : NoDup (l1 ++ l2) -> NoDup l1.
Proof.
  intro N. apply (nodup_tail l2). eapply Permutation.Permutation_NoDup; [| exact N].
  apply Permutation.Permutation_app_comm.
Qed.

Definition made {A} (f : A -> res meta) (a : string * A) (b : string * meta) : Prop :=
  fst a = fst b /\ f (snd a) = Ok (snd b).

Lemma put_all_new {A} (f : A -> res meta) l : forall d r,
  NoDup (map fst d ++ map fst l) -> put_all f l d = Ok r ->
  exists l', r = d ++ l' /\ Forall2 (made f) l l'.
Proof.
  induction l as [| [k a] l IH]; cbn [put_all map fst]; intros d r N H.
  - injection H as <-. exists []. rewrite app_nil_r. split; [reflexivity | constructor].
  - destruct (f a) as [m |] eqn:E; [| discriminate H]. cbn [bind] in H.
    assert (Nk : ~ In k (map fst d)).
    { intro K. apply NoDup_remove_2 in N. apply N. apply in_app_iff. now left. }
    rewrite put_new in H by exact Nk.
    assert (N' : NoDup (map fst (d ++ [(k, m)]) ++ map fst l))
      by (rewrite map_app, <- app_assoc; exact N).
    destruct (IH _ _ N' H) as (l' & -> & F).
    exists ((k, m) :: l'). rewrite <- app_assoc. split; [reflexivity |]. constructor; [now split | exact F].
Qed.

Lemma put_all_total {A} (f : A -> res meta) l : forall d,
  Forall (fun a => exists m, f (snd a) = Ok m) l -> exists r, put_all f l d = Ok r.
Proof.
  induction l as [| [k a] l IH]; intros d F; cbn [put_all]; [now eexists |].
  inversion F as [| ? ? [m E] F']; subst. cbn in E. rewrite E. cbn [bind]. now apply IH.
Qed.

Lemma made_names {A} (f : A -> res meta) l l' : Forall2 (made f) l l' -> map fst l' = map fst l.
Proof. induction 1 as [| a b l l' [E _] _ IH]; cbn; [reflexivity | now rewrite E, IH]. Qed.

Fixpoint tree_ind' (P : tree -> Prop) (HD : forall i a, P (Dataset i a))
  (HG : forall i a cs, Forall (fun c => P (snd c)) cs -> P (Group i a cs)) (t : tree) : P t :=
  match t with
  | Dataset i a => HD i a
  | Group i a cs => HG i a cs ((fix go (l : list (string * tree)) : Forall (fun c => P (snd c)) l :=
      match l with
      | [] => Forall_nil _
      | c :: l' => Forall_cons c (tree_ind' P HD HG (snd c)) (go l')
      end) cs)
  end.

(** One level of the metadata. *)
Theorem level yaml minimal t m : NoDup (extra minimal t ++ map fst (attrs t) ++ map fst (children t)) ->
  get_metadata yaml minimal t = Ok m ->
  exists x1 x2 la lc, m = MDict (x1 ++ la ++ x2 ++ lc) /\
    map fst (x1 ++ x2) = extra minimal t /\ (x1 = [] \/ x2 = []) /\
    Forall2 (made (attr_value yaml)) (attrs t) la /\
    Forall2 (made (get_metadata yaml minimal)) (children t) lc.
Proof.
  intros N H. destruct t as [info a | info a cs]; cbn [get_metadata attrs children extra] in *.
  - destruct minimal.
    + cbn [bind] in H. destruct (put_all _ a []) as [d |] eqn:E; [| discriminate H]. injection H as <-.
      apply put_all_new in E as (l' & -> & F); [| cbn in *; rewrite app_nil_r in N; exact N].
      exists [], [], l', []. rewrite !app_nil_r. repeat split; [now left | exact F | constructor].
    + destruct info as [i |]; [| discriminate H]. cbn [bind] in H.
      destruct (put_all _ a _) as [d |] eqn:E; [| discriminate H]. injection H as <-.
      apply put_all_new in E as (l' & -> & F); [| cbn in *; rewrite app_nil_r in N; exact N].
      exists [("_dataset_info"%string, i)], [], l', []. rewrite !app_nil_r.
      repeat split; [now right | exact F | constructor].
  - destruct (put_all _ a []) as [d |] eqn:E; [| discriminate H]. cbn [bind] in H.
    assert (Na : NoDup (map fst a)).
    { apply nodup_tail in N. apply nodup_head in N. exact N. }
    apply put_all_new in E as (la & -> & Fa); [| exact Na]. cbn [app] in H.
    assert (G : exists x2, match minimal, info with
                | false, Some r => let* i := r in Ok (put "_group_info" i la)
                | _, _ => Ok la end = Ok (la ++ x2) /\
                map fst x2 = extra minimal (Group info a cs)).
    { destruct minimal, info as [r |]; try (exists []; rewrite app_nil_r; now split).
      destruct r as [i |]; [| discriminate H]. cbn [bind]. exists [("_group_info"%string, i)].
      split; [| reflexivity]. rewrite put_new; [reflexivity |].
      rewrite (made_names _ _ _ Fa). cbn in N. inversion N as [| ? ? N1 N2]; subst. intro K. apply N1.
      apply in_app_iff. now left. }
    destruct G as (x2 & G & X). cbn [extra] in X. rewrite G in H. cbn [bind] in H.
    destruct (put_all _ cs _) as [d |] eqn:E; [| discriminate H]. injection H as <-.
    apply put_all_new in E as (lc & -> & Fc).
    + exists [], x2, la, lc. cbn [app]. rewrite <- app_assoc. repeat split; try assumption. now left.
    + rewrite map_app, (made_names _ _ _ Fa), X. rewrite <- app_assoc.
      eapply Permutation.Permutation_NoDup; [| exact N].
      rewrite !app_assoc. apply Permutation.Permutation_app_tail, Permutation.Permutation_app_comm.
Qed.

Lemma made_assoc {A} (f : A -> res meta) l l' : Forall2 (made f) l l' ->
  forall k a, assoc k l = Some a -> exists m, assoc k l' = Some m /\ f a = Ok m.
Proof.
  induction 1 as [| [k1 a1] [k2 m2] l l' [E1 E2] F IH]; intros k a H; [discriminate H |].
  cbn in *. subst k2. destruct (k1 =? k)%string.
  - injection H as <-. now exists m2.
  - now apply IH.
Qed.

Lemma assoc_some_in {A} k (a : A) l : assoc k l = Some a -> In k (map fst l).
Proof.
  induction l as [| [k' a'] l IH]; cbn; intro H; [discriminate H |].
  destruct (String.eqb_spec k' k) as [-> | _]; [now left | right; now apply IH].
Qed.

Lemma assoc_app {A} k (l1 l2 : list (string * A)) :
  assoc k (l1 ++ l2) = match assoc k l1 with Some v => Some v | None => assoc k l2 end.
Proof. induction l1 as [| [k' v] l1 IH]; cbn; [reflexivity |]. now destruct (k' =? k)%string. Qed.

Lemma clear_here minimal t : clear minimal t ->
  NoDup (extra minimal t ++ map fst (attrs t) ++ map fst (children t)).
Proof. destruct t; intros [H _]; exact H. Qed.

Lemma NoDup_app_not {A} (l1 l2 : list A) x : NoDup (l1 ++ l2) -> In x l2 -> ~ In x l1.
Proof.
  induction l1 as [| a l1 IH]; cbn; intros N H K; [exact K |]. inversion N as [| ? ? N1 N2]; subst.
  destruct K as [-> | K]; [apply N1, in_app_iff; now right | now apply IH].
Qed.

(** Everything in the file is found under its name. *)
Theorem attr_found yaml minimal t d k v : NoDup (extra minimal t ++ map fst (attrs t) ++ map fst (children t)) ->
  get_metadata yaml minimal t = Ok (MDict d) -> assoc k (attrs t) = Some v ->
  exists m, assoc k d = Some m /\ attr_value yaml v = Ok m.
Proof.
  intros N H A. destruct (level _ _ _ _ N H) as (x1 & x2 & la & lc & E & X & _ & Fa & Fc).
  injection E as ->. destruct (made_assoc _ _ _ Fa _ _ A) as (m & M1 & M2). exists m. split; [| exact M2].
  rewrite assoc_app, (assoc_notin k x1), assoc_app, M1; [reflexivity |].
  intro K. eapply (NoDup_app_not _ _ k N).
  - apply in_app_iff. left. eapply assoc_some_in, A.
  - rewrite <- X, map_app, in_app_iff. now left.
Qed.

Lemma child_found yaml minimal t d k c : NoDup (extra minimal t ++ map fst (attrs t) ++ map fst (children t)) ->
  get_metadata yaml minimal t = Ok (MDict d) -> assoc k (children t) = Some c ->
  exists m, assoc k d = Some m /\ get_metadata yaml minimal c = Ok m.
Proof.
  intros N H A. destruct (level _ _ _ _ N H) as (x1 & x2 & la & lc & E & X & _ & Fa & Fc).
  injection E as ->. destruct (made_assoc _ _ _ Fc _ _ A) as (m & M1 & M2). exists m. split; [| exact M2].
  pose proof (assoc_some_in _ _ _ A) as Hin.
  assert (NX : ~ In k (extra minimal t)) by (apply (NoDup_app_not _ _ k N), in_app_iff; now right).
  assert (NA : ~ In k (map fst (attrs t))) by (apply nodup_tail in N; now apply (NoDup_app_not _ _ k N)).
  rewrite <- X, map_app, in_app_iff in NX.
  rewrite !assoc_app, (assoc_notin k x1), (assoc_notin k la), (assoc_notin k x2), M1;
    [reflexivity | tauto | now rewrite (made_names _ _ _ Fa) | tauto].
Qed.

Lemma child_clear minimal i a cs k c : clear minimal (Group i a cs) -> assoc k cs = Some c -> clear minimal c.
Proof.
  intros [_ H]. induction cs as [| [k' c'] cs IH]; cbn in *; intro E; [discriminate E |].
  destruct (k' =? k)%string; [injection E as <-; apply H | apply IH; [apply H | exact E]].
Qed.

Lemma meta_dict yaml minimal t m : get_metadata yaml minimal t = Ok m -> exists d, m = MDict d.
Proof.
  destruct t; cbn [get_metadata]; intro H.
  - destruct (if minimal then _ else _) as [d |]; [| discriminate H]. cbn [bind] in H.
    destruct (put_all _ _ _); [| discriminate H]. injection H as <-. now eexists.
  - destruct (put_all (attr_value yaml) _ _) as [d |]; [| discriminate H]. cbn [bind] in H.
    destruct (match minimal with true => _ | false => _ end) as [d' |]; [| discriminate H]. cbn [bind] in H.
    destruct (put_all _ _ _); [| discriminate H]. injection H as <-. now eexists.
Qed.

Theorem found yaml minimal p : forall t m u, clear minimal t -> get_metadata yaml minimal t = Ok m ->
  node_at p t = Some u -> exists mu, meta_at p m = Some mu /\ get_metadata yaml minimal u = Ok mu.
Proof.
  induction p as [| n p IH]; intros t m u C H U; cbn [node_at meta_at] in *.
  - injection U as <-. now exists m.
  - destruct t as [| i a cs]; [discriminate U |]. destruct (assoc n cs) as [c |] eqn:A; [| discriminate U].
    destruct (meta_dict _ _ _ _ H) as [d ->].
    destruct (child_found _ _ _ _ _ _ (clear_here _ _ C) H A) as (mc & M1 & M2). rewrite M1.
    exact (IH c mc u (child_clear _ _ _ _ _ _ C A) M2 U).
Qed.

(** Nothing else is there. *)
Theorem names yaml minimal t d : NoDup (extra minimal t ++ map fst (attrs t) ++ map fst (children t)) ->
  get_metadata yaml minimal t = Ok (MDict d) ->
  Permutation.Permutation (map fst d) (extra minimal t ++ map fst (attrs t) ++ map fst (children t)).
Proof.
  intros N H. destruct (level _ _ _ _ N H) as (x1 & x2 & la & lc & E & X & _ & Fa & Fc). injection E as ->.
  rewrite <- X. rewrite !map_app, (made_names _ _ _ Fa), (made_names _ _ _ Fc).
  rewrite <- app_assoc. apply Permutation.Permutation_app_head.
  rewrite !app_assoc. apply Permutation.Permutation_app_tail, Permutation.Permutation_app_comm.
Qed.

Lemma fine_ok yaml v : fine yaml v -> exists m, attr_value yaml v = Ok m.
Proof.
  destruct v as [s | z | q | l]; cbn; intro H; try now eexists.
  - destruct (yaml s) as [[y | e] |]; [now eexists | now elim (H e) | now eexists].
  - destruct l as [| q [|]]; try discriminate H. now eexists.
Qed.

Theorem shown yaml minimal t : all_fine yaml minimal t -> exists m, get_metadata yaml minimal t = Ok m.
Proof.
  induction t as [i a | i a cs IH] using tree_ind'; cbn [all_fine get_metadata attrs]; intros [Fa H].
  - assert (G : exists d, (if minimal then Ok [] else let* x := i in Ok [("_dataset_info"%string, x)]) = Ok d).
    { destruct minimal; [now eexists |]. destruct (H eq_refl) as [x ->]. now eexists. }
    destruct G as [d ->]. cbn [bind].
    destruct (put_all_total (attr_value yaml) a d) as [r ->]; [| now eexists].
    eapply Forall_impl; [| exact Fa]. intros x Hx. now apply fine_ok.
  - destruct H as [Hi Hc]. destruct (put_all_total (attr_value yaml) a []) as [r ->].
    { eapply Forall_impl; [| exact Fa]. intros x Hx. now apply fine_ok. }
    cbn [bind].
    assert (G : exists d, match minimal, i with
       | false, Some x => let* y := x in Ok (put "_group_info" y r) | _, _ => Ok r end = Ok d).
    { destruct minimal, i as [x |]; try now eexists. destruct (Hi eq_refl x eq_refl) as [y ->]. now eexists. }
    destruct G as [d ->]. cbn [bind].
    destruct (put_all_total (get_metadata yaml minimal) cs d) as [r' ->]; [| now eexists].
    clear - IH Hc. induction cs as [| [k c] cs IHc]; constructor; inversion IH; subst; cbn in *.
    + apply H1, Hc.
    + apply IHc; [assumption | apply Hc].
Qed.

(** ** Logs *)

Theorem shown_logs min_level limit times : forall levels msgs,
  List.length levels = List.length times -> List.length msgs = List.length times -> 1 <= limit ->
  show_logs min_level limit times levels msgs =
  Ok (map (fun e => (level_of (fst (snd e)), fst e, snd (snd e)))
        (firstn (Z.to_nat limit) (at_least min_level (entries times levels msgs)))).
Proof.
  revert limit. induction times as [| t times IH]; intros limit [| lv levels] [| m msgs] L1 L2 Hl; try discriminate.
  - cbn. now rewrite firstn_nil.
  - cbn [show_logs]. unfold entries, at_least. cbn [combine filter fst snd]. fold (entries times levels msgs).
    fold (at_least min_level (entries times levels msgs)).
    destruct (Z.ltb_spec lv min_level) as [H | H].
    + cbn [tl]. destruct (Z.leb_spec min_level lv); [lia |]. apply IH; [now injection L1 | now injection L2 | exact Hl].
    + destruct (Z.leb_spec min_level lv); [| lia].
      assert (Sv : (if lv <? 30 then Info else if lv <? 40 then Warning else Error) = level_of lv).
      { unfold level_of. destruct (Z.ltb_spec lv 30), (Z.ltb_spec lv 40), (Z.leb_spec 40 lv), (Z.leb_spec 30 lv); try lia; reflexivity. }
      rewrite Sv. cbv zeta. destruct (Z.ltb_spec (limit - 1) 1).
      * replace limit with 1 by lia. reflexivity.
      * rewrite IH; [| now injection L1 | now injection L2 | lia]. cbn [bind].
        replace (Z.to_nat limit) with (S (Z.to_nat (limit - 1)))%nat by lia. reflexivity.
Qed.

Lemma count_entries min_level times : forall levels msgs,
  List.length levels = List.length times -> List.length msgs = List.length times ->
  List.length (filter (fun x => min_level <=? x) levels)
  = List.length (at_least min_level (entries times levels msgs)).
Proof.
  induction times as [| t times IH]; intros [| lv levels] [| m msgs] L1 L2; try discriminate; [reflexivity |].
  unfold entries, at_least. cbn [combine filter fst snd]. fold (entries times levels msgs).
  fold (at_least min_level (entries times levels msgs)).
  injection L1 as L1. injection L2 as L2.
  destruct (min_level <=? lv); cbn [List.length]; now rewrite (IH _ _ L1 L2).
Qed.

Lemma log_columns_ok idx cols : Forall (fun l => exists r, nth_error l idx = Some r /\ readable r) cols ->
  log_columns idx (map Some cols) =
  (fold_right (fun l s => tab ++ match nth_error l idx with Some r => element r | None => "" end ++ s)%string EmptyString cols, Ok tt).
Proof.
  induction cols as [| l cols IH]; intro F; [reflexivity |]. inversion F as [| ? ? (r & E & R) F']; subst.
  cbn [map log_columns fold_right]. rewrite E, (IH F'). destruct r as [m | e]; [reflexivity |].
  rewrite (R e eq_refl). reflexivity.
Qed.

Lemma append_assoc' (a b c : string) : ((a ++ b) ++ c = a ++ (b ++ c))%string.
Proof. induction a as [| x a IH]; cbn; [reflexivity | now rewrite IH]. Qed.

Lemma log_rows_ok stamp times : forall idx cols,
  Forall (fun l => (idx + List.length times <= List.length l)%nat /\ Forall readable l) cols ->
  log_rows stamp true idx times (map Some cols) = (all_lines stamp idx times cols, Ok tt).
Proof.
  induction times as [| t times IH]; intros idx cols F; [reflexivity |]. cbn [log_rows all_lines].
  rewrite log_columns_ok.
  - rewrite IH.
    + unfold line. rewrite !append_assoc'. reflexivity.
    + eapply Forall_impl; [| exact F]. cbn [List.length]. intros l [H1 H2]. split; [lia | exact H2].
  - eapply Forall_impl; [| exact F]. cbn [List.length]. intros l [H1 H2].
    destruct (nth_error l idx) as [r |] eqn:E.
    + exists r. split; [reflexivity |]. rewrite Forall_forall in H2. apply H2. eapply nth_error_In, E.
    + apply nth_error_None in E. lia.
Qed.

Lemma has_char_app c s t : has_char c (s ++ t) = has_char c s || has_char c t.
Proof.
  unfold has_char. induction s as [| x s IH]; cbn; [reflexivity |]. now rewrite IH, orb_assoc.
Qed.

Lemma no_slash_char s : no_slash s <-> has_char "/" s = false.
Proof.
  unfold has_char. induction s as [| x s IH]; cbn [no_slash list_ascii_of_string existsb]; [easy |].
  rewrite IH. destruct (Ascii.eqb_spec "/"%char x) as [<- | N].
  - cbn [orb]. split; [intros [K _]; now elim K | intro K; discriminate K].
  - cbn [orb]. split; [now intros [_ K] | intro K; split; [congruence | exact K]].
Qed.

Lemma suffixed_ok p a s b : has_char "/" a = false -> has_char "/" b = false -> no_slash s ->
  suffixed p (a ++ s ++ b) = Ok (with_suffix p (a ++ s ++ b)).
Proof.
  intros Ha Hb H. unfold suffixed. rewrite !has_char_app, Ha, Hb. apply no_slash_char in H. now rewrite H.
Qed.

Lemma find_text_hd d p s : find_text ((p, s) :: d) p = Some s.
Proof. cbn. now rewrite path_refl. Qed.

Lemma path_eqb_neq p q : p <> q -> path_eqb p q = false.
Proof.
  destruct p as [a b], q as [a' b']. unfold path_eqb. cbn [fst snd]. intro H.
  destruct (String.eqb_spec a a') as [-> |], (String.eqb_spec b b') as [-> |]; try reflexivity. now elim H.
Qed.

Lemma find_text_tl d p s q : p <> q -> find_text ((p, s) :: d) q = find_text d q.
Proof. intro H. cbn. now rewrite path_eqb_neq. Qed.

Theorem log_saved stamp d file name t0 times cols :
  no_slash (strip_slash name) -> find_text d (log_file file name) = None ->
  Forall (fun l => (List.length (t0 :: times) <= List.length l)%nat /\ Forall readable l) cols ->
  exists d', save_log stamp d file name (Some (t0 :: times)) (map Some cols) true
    = (d', Ok (Z.of_nat (List.length (t0 :: times)))) /\
  find_text d' (log_file file name) = Some (all_lines stamp 0 (t0 :: times) cols) /\
  forall q, q <> log_file file name -> find_text d' q = find_text d q.
Proof.
  intros N E F. unfold save_log. cbv beta iota. rewrite suffixed_ok; [| reflexivity | reflexivity | exact N].
  change (with_suffix file ("." ++ strip_slash name ++ ".log")) with (log_file file name). rewrite E.
  rewrite log_rows_ok by exact F. cbn [bind]. eexists. split; [reflexivity |].
  split; [apply find_text_hd |]. intros q Hq. apply find_text_tl. congruence.
Qed.

Theorem log_kept stamp d file name times cols b s d' r :
  find_text d (log_file file name) = Some s -> save_log stamp d file name times cols b = (d', r) ->
  d' = d /\ (no_slash (strip_slash name) -> r = Ok 0).
Proof.
  intros E H. unfold save_log in H. destruct times as [[| t times] |]; try (injection H as <- <-; now split).
  unfold suffixed in H. destruct (has_char "/" _) eqn:C; cbn [negb bind] in H.
  - injection H as <- <-. split; [reflexivity |]. intro N. exfalso.
    rewrite !has_char_app in C. apply no_slash_char in N. rewrite N in C. discriminate C.
  - change (with_suffix file ("." ++ strip_slash name ++ ".log")) with (log_file file name) in H.
    rewrite E in H. injection H as <- <-. now split.
Qed.

(** Whatever happens, only the log is written. *)
Theorem log_only stamp d file name times cols b d' r q :
  save_log stamp d file name times cols b = (d', r) -> q <> log_file file name -> find_text d' q = find_text d q.
Proof.
  intros H Hq. unfold save_log in H. destruct times as [[| t times] |]; try (injection H as <- _; reflexivity).
  unfold suffixed in H. destruct (has_char "/" _); cbn [negb bind] in H; [now injection H as <- _ |].
  change (with_suffix file ("." ++ strip_slash name ++ ".log")) with (log_file file name) in H.
  destruct (find_text d (log_file file name)); [now injection H as <- _ |].
  destruct (log_rows _ _ _ _ _) as [tx rr]. injection H as <- _. apply find_text_tl. congruence.
Qed.

(** ** Pins *)

Lemma contains_refl s : contains s s = true.
Proof.
  assert (P : prefix s s = true) by (induction s as [| c s IH]; cbn; [reflexivity |]; destruct (ascii_dec c c); [exact IH | congruence]).
  destruct s; cbn [contains]; rewrite P; reflexivity.
Qed.

Theorem own_pin g pre n s post : gp_pins g = pre ++ (n, s) :: post ->
  Forall (fun p => contains s (snd p) = false) pre -> get_gpio_pin_num (Some g) s = Some n.
Proof.
  intros E F. cbn [get_gpio_pin_num]. rewrite E. clear E.
  induction pre as [| p pre IH]; cbn [app find snd].
  - rewrite contains_refl. reflexivity.
  - inversion F as [| ? ? H1 H2]; subst. rewrite H1. now apply IH.
Qed.

Theorem missing_pin g s : Forall (fun p => contains s (snd p) = false) (gp_pins g) ->
  gpio_to_waveforms (Some g) (Some s) = Err TypeError.
Proof.
  intro F. cbn [gpio_to_waveforms get_gpio_pin_num].
  destruct (find _ _) as [p |] eqn:E; [exfalso | reflexivity].
  apply find_some in E as [E1 E2]. rewrite Forall_forall in F. rewrite (F p E1) in E2. discriminate E2.
Qed.

Lemma put_pins {A} (f : Z * string -> A) pins : forall d,
  NoDup (map fst d ++ map snd pins) ->
  fold_left (fun d p => put (snd p) (f p) d) pins d = d ++ map (fun p => (snd p, f p)) pins.
Proof.
  induction pins as [| p pins IH]; intros d N; cbn [fold_left map]; [now rewrite app_nil_r |].
  cbn [map] in N. rewrite put_new.
  - rewrite IH; [now rewrite <- app_assoc |]. rewrite map_app. cbn. now rewrite <- app_assoc.
  - intro K. apply NoDup_remove_2 in N. apply N, in_app_iff. now left.
Qed.

Lemma each_pin_ok {A B} (f : A -> res B) (g : A -> B) (l : list (string * A)) :
  (forall k a, In (k, a) l -> f a = Ok (g a)) -> each_pin f l = Ok (map (fun ka => (fst ka, g (snd ka))) l).
Proof.
  induction l as [| [k a] l IH]; intro H; [reflexivity |]. cbn [each_pin map fst snd].
  rewrite (H k a) by now left. cbn [bind]. rewrite IH; [reflexivity |]. intros k' a' K. apply (H k'). now right.
Qed.

Lemma pin_waveform_ok n ts vs : vs <> [] -> exists w, pin_waveform n ts vs = Ok w.
Proof. destruct vs as [| v vs]; intro H; [now elim H |]. unfold pin_waveform. cbn [map redundancy_filter bind]. now eexists. Qed.

Definition wf_of (g : gpio) (n : Z) : list (Z * Z) :=
  match pin_waveform n (gp_time g) (gp_value g) with Ok w => w | Err _ => [] end.

Theorem all_pins g : usable g ->
  gpio_to_waveforms (Some g) None = Ok (map (fun p => (snd p, wf_of g (fst p))) (gp_pins g)) /\
  Forall (fun p => pin_waveform (fst p) (gp_time g) (gp_value g) = Ok (wf_of g (fst p))) (gp_pins g).
Proof.
  intros (Hv & Hp & N & Q). split.
  - cbn [gpio_to_waveforms]. rewrite Q.
    rewrite (put_pins (fun p => Some (fst p))) by (cbn [map app]; exact N). cbn [app].
    rewrite (each_pin_ok _ (fun a => match a with Some n => wf_of g n | None => [] end)).
    + rewrite map_map. reflexivity.
    + intros k a H. apply in_map_iff in H as ([n s] & H & Hin). injection H as <- <-.
      cbn [waveform snd fst]. rewrite Forall_forall in Hp. pose proof (Hp _ Hin) as H0. cbn in H0.
      destruct (Z.leb_spec 0 n); [| lia]. cbn [bind].
      unfold wf_of. destruct (pin_waveform_ok n (gp_time g) (gp_value g) Hv) as [w ->]. reflexivity.
  - apply Forall_forall. intros [n s] _. cbn [fst]. unfold wf_of.
    destruct (pin_waveform_ok n (gp_time g) (gp_value g) Hv) as [w ->]. reflexivity.
Qed.

(** ** Files of waveforms *)

Lemma concat_empty (l : list string) : String.concat "" l = fold_right append EmptyString l.
Proof.
  induction l as [| a l IH]; [reflexivity |]. cbn [String.concat fold_right]. destruct l as [| b l].
  - cbn. clear. induction a; cbn; congruence.
  - rewrite IH. reflexivity.
Qed.

Lemma csv_text_eq secs pin sep wf : csv_text secs pin sep wf = csv secs pin sep wf.
Proof.
  unfold csv_text, csv. rewrite concat_empty, !append_assoc'. do 3 f_equal.
  induction wf as [| e wf IH]; [reflexivity |]. cbn [fold_right map]. rewrite IH. reflexivity.
Qed.

Lemma csv_written secs d file pin wf sep : no_slash pin ->
  exists d', waveform_to_csv secs d file pin wf sep = (d', Ok tt) /\
  find_text d' (csv_file file pin)
    = kept_or (find_text d (csv_file file pin)) (csv secs pin sep wf) /\
  forall q, q <> csv_file file pin -> find_text d' q = find_text d q.
Proof.
  intro N. unfold waveform_to_csv. rewrite suffixed_ok; [| reflexivity | reflexivity | exact N].
  change (with_suffix file (".waveform." ++ pin ++ ".csv")) with (csv_file file pin).
  destruct (find_text d (csv_file file pin)) as [s |] eqn:E.
  - exists d. now rewrite E.
  - eexists. split; [reflexivity |]. split; [rewrite csv_text_eq; apply find_text_hd |].
    intros q Hq. apply find_text_tl. congruence.
Qed.

Lemma append_split (a b c d : string) : String.length a = String.length b ->
  (a ++ c = b ++ d)%string -> a = b /\ c = d.
Proof.
  revert b. induction a as [| x a IH]; intros [| y b] L H; try discriminate L; cbn in *; [now split |].
  injection L as L. injection H as -> H. destruct (IH b L H) as [-> ->]. now split.
Qed.

Lemma csv_file_inj f1 f2 p1 p2 : no_dot p1 -> no_dot p2 -> csv_file f1 p1 = csv_file f2 p2 ->
  fst f1 = fst f2 /\ stem (snd f1) = stem (snd f2) /\ p1 = p2.
Proof.
  unfold csv_file. intros N1 N2 H. injection H as Hd H. split; [exact Hd |].
  assert (K : ((stem (snd f1) ++ ".waveform") ++ String "." p1 = (stem (snd f2) ++ ".waveform") ++ String "." p2)%string).
  { apply (append_inj_r _ _ ".csv"). rewrite !append_assoc'. exact H. }
  pose proof (last_dot_app (stem (snd f1) ++ ".waveform") p1 N1 0) as L1.
  pose proof (last_dot_app (stem (snd f2) ++ ".waveform") p2 N2 0) as L2.
  rewrite K, L2 in L1. injection L1 as L1. cbn [Nat.add] in L1.
  apply append_split in K as [K1 K2]; [| symmetry; exact L1].
  apply append_inj_r in K1. injection K2 as K2. now split.
Qed.

Lemma append_inj_l (a b c : string) : (a ++ b = a ++ c)%string -> b = c.
Proof. induction a as [| x a IH]; cbn; intro H; [exact H | injection H as H; now apply IH]. Qed.

Lemma csv_file_same file p1 p2 : csv_file file p1 = csv_file file p2 -> p1 = p2.
Proof.
  unfold csv_file. intro H. injection H as H. apply append_inj_l in H. injection H as H. 
  exact (append_inj_r _ _ _ H).
Qed.

Lemma csv_all_ok secs file sep wfs : forall d, NoDup (map fst wfs) -> Forall (fun w => no_slash (fst w)) wfs ->
  exists d', csv_all secs d file sep wfs = (d', Ok tt) /\
  (forall s w, In (s, w) wfs -> find_text d' (csv_file file s) = kept_or (find_text d (csv_file file s)) (csv secs s sep w)) /\
  (forall q, (forall s, In s (map fst wfs) -> q <> csv_file file s) -> find_text d' q = find_text d q).
Proof.
  induction wfs as [| [s w] wfs IH]; intros d N F; cbn [csv_all].
  - exists d. split; [reflexivity |]. split; [intros ? ? [] | reflexivity].
  - inversion F as [| ? ? F1 F2]; subst. inversion N as [| ? ? N1 N2]; subst. cbn [fst] in *.
    destruct (csv_written secs d file s w sep F1) as (d1 & -> & W1 & K1).
    destruct (IH d1 N2 F2) as (d' & -> & W2 & K2). exists d'. split; [reflexivity |]. split.
    + intros s' w' [E | H].
      * injection E as <- <-. rewrite K2, W1; [reflexivity |]. intros s' H E. apply csv_file_same in E. now subst s'.
      * rewrite (W2 _ _ H), K1; [reflexivity |]. intro E. apply csv_file_same in E. subst s'.
        apply N1. apply in_map_iff. now exists (s, w').
    + intros q H. rewrite K2, K1; [reflexivity | |]; [apply H; now left | intros s' H'; apply H; now right].
Qed.

(** Files that do not touch what belongs to others. *)
Lemma each_file {F} (body : texts -> F -> texts * res unit) (owns : F -> path -> Prop)
    (R : F -> path -> option string -> option string -> Prop) files :
  Forall (fun f => forall d, exists d' r, body d f = (d', r) /\ (r = Ok tt \/ r = Err TypeError) /\
     (forall q, owns f q -> R f q (find_text d q) (find_text d' q)) /\
     (forall q, ~ owns f q -> find_text d' q = find_text d q)) files ->
  ForallOrdPairs (fun f g => forall q, owns f q -> owns g q -> False) files ->
  forall d, exists d', for_files body d files = (d', Ok tt) /\
     (forall f q, In f files -> owns f q -> R f q (find_text d q) (find_text d' q)) /\
     (forall q, (forall f, In f files -> ~ owns f q) -> find_text d' q = find_text d q).
Proof.
  induction files as [| f files IH]; intros B P d.
  - exists d. split; [reflexivity |]. split; [intros ? ? [] | reflexivity].
  - inversion B as [| ? ? B1 B2]; subst. inversion P as [| ? ? P1 P2]; subst.
    destruct (B1 d) as (d1 & r & E & Hr & W1 & K1). destruct (IH B2 P2 d1) as (d' & E2 & W2 & K2).
    exists d'. cbn [for_files]. rewrite E. rewrite Forall_forall in P1. split; [| split].
    + destruct Hr as [-> | ->]; exact E2.
    + intros g q [<- | H] O.
      * rewrite (K2 q); [exact (W1 q O) |]. intros g H O'. exact (P1 g H q O O').
      * rewrite <- (K1 q); [exact (W2 g q H O) |]. intro O'. exact (P1 g H q O' O).
    + intros q H. rewrite (K2 q), (K1 q); [reflexivity | |]; [apply H; now left | intros g Hg; apply H; now right].
Qed.

Lemma apart_pairs {A} (P : path * A -> Prop) (Q : path * A -> path * A -> Prop) files :
  Forall P files -> apart files ->
  (forall f g, P f -> P g -> (fst (fst f), stem (snd (fst f))) <> (fst (fst g), stem (snd (fst g))) -> Q f g) ->
  ForallOrdPairs Q files.
Proof.
  intros HP N H. unfold apart in N. induction files as [| f files IH]; [constructor |].
  inversion HP as [| ? ? P1 P2]; subst. inversion N as [| ? ? N1 N2]; subst. constructor; [| now apply IH].
  rewrite Forall_forall in *. intros g Hg. apply H; [exact P1 | now apply P2 |]. intro E. apply N1.
  apply in_map_iff. exists g. split; [symmetry; exact E | exact Hg].
Qed.

Definition pin_of (f : path * res (option gpio)) (q : path) (s : string) : Prop :=
  exists g n, snd f = Ok (Some g) /\ In (n, s) (gp_pins g) /\ q = csv_file (fst f) s.

Theorem gpio_extracted secs sep files d :
  Forall extractable files -> Forall undotted files -> apart files ->
  exists d', extract_gpio secs sep d files = (d', Ok tt) /\
  (forall file g n s, In (file, Ok (Some g)) files -> In (n, s) (gp_pins g) ->
     exists w, pin_waveform n (gp_time g) (gp_value g) = Ok w /\
     find_text d' (csv_file file s) = kept_or (find_text d (csv_file file s)) (csv secs s sep w)) /\
  (forall q, (forall file g n s, In (file, Ok (Some g)) files -> In (n, s) (gp_pins g) -> q <> csv_file file s) ->
     find_text d' q = find_text d q).
Proof.
  intros X U A.
  destruct (each_file (extract_gpio_one secs sep) (fun f q => exists s, pin_of f q s)
    (fun f q old new => forall g n s, snd f = Ok (Some g) -> In (n, s) (gp_pins g) -> q = csv_file (fst f) s ->
       exists w, pin_waveform n (gp_time g) (gp_value g) = Ok w /\ new = kept_or old (csv secs s sep w))
    files) with (d := d) as (d' & E & W & K).
  - eapply Forall_impl; [| exact X]. intros [file [[g |] | e]] Hx d0; unfold extractable in Hx; cbn [snd] in Hx.
    + destruct Hx as [Hu Hs]. destruct (all_pins g Hu) as [Ew Fw]. unfold extract_gpio_one. cbn [snd fst bind].
      rewrite Ew. destruct Hu as (_ & _ & Nu & _).
      destruct (csv_all_ok secs file sep (map (fun p => (snd p, wf_of g (fst p))) (gp_pins g)) d0) as (d1 & -> & W & K).
      { rewrite map_map. exact Nu. }
      { apply Forall_map. exact Hs. }
      exists d1, (Ok tt). split; [reflexivity |]. split; [now left |]. split.
      * intros q _ g' n s Eg Hin ->. injection Eg as <-. rewrite Forall_forall in Fw. exists (wf_of g n).
        split; [exact (Fw _ Hin) |]. apply W. apply in_map_iff. now exists (n, s).
      * intros q Hq. apply K. intros s Hin ->. apply Hq. rewrite map_map in Hin.
        apply in_map_iff in Hin as ([n s'] & <- & Hin). exists s', g, n. now repeat split.
    + exists d0, (Ok tt). split; [reflexivity |]. split; [now left |].
      split; [intros q (s & g & n & E & _); discriminate E | reflexivity].
    + subst e. exists d0, (Err TypeError). split; [reflexivity |]. split; [now right |].
      split; [intros q (s & g & n & E & _); discriminate E | reflexivity].
  - apply (apart_pairs undotted); [exact U | exact A |].
    intros f1 f2 U1 U2 N q (s1 & g1 & n1 & E1 & I1 & Q1) (s2 & g2 & n2 & E2 & I2 & Q2).
    unfold undotted in U1, U2. rewrite E1 in U1. rewrite E2 in U2. rewrite Forall_forall in U1, U2.
    rewrite Q1 in Q2. apply csv_file_inj in Q2 as (H1 & H2 & _); [| exact (U1 _ I1) | exact (U2 _ I2)].
    apply N. now rewrite H1, H2.
  - exists d'. split; [exact E |]. split.
    + intros file g n s Hf Hp.
      apply (W (file, Ok (Some g)) (csv_file file s) Hf) with (g := g) (n := n); try easy. now exists s, g, n.
    + intros q H. apply K. intros [file r] Hf (s & g & n & E1 & I1 & ->). cbn in E1. subst r.
      exact (H file g n s Hf I1 eq_refl).
Qed.

Theorem uart_extracted stamp decode render files d :
  Forall (fun f => forall e, (let* g := snd f in gpio_to_uart decode g) = Err e -> e = TypeError) files -> apart files ->
  exists d', extract_uart stamp decode render d files = (d', Ok tt) /\
  (forall file g ls, In (file, Ok g) files -> gpio_to_uart decode g = Ok (Some ls) ->
     find_text d' (uart_file file) = kept_or (find_text d (uart_file file))
       (String.concat "" (map (uart_line stamp render) ls))) /\
  (forall q, (forall file g ls, In (file, Ok g) files -> gpio_to_uart decode g = Ok (Some ls) -> q <> uart_file file) ->
     find_text d' q = find_text d q).
Proof.
  intros X A.
  destruct (each_file (extract_uart_one stamp decode render)
    (fun f q => exists ls, (let* g := snd f in gpio_to_uart decode g) = Ok (Some ls) /\ q = uart_file (fst f))
    (fun f q old new => forall ls, (let* g := snd f in gpio_to_uart decode g) = Ok (Some ls) ->
       new = kept_or old (String.concat "" (map (uart_line stamp render) ls)))
    files) with (d := d) as (d' & E & W & K).
  - eapply Forall_impl; [| exact X]. intros f Hx d0. unfold extract_uart_one.
    destruct (let* g := snd f in gpio_to_uart decode g) as [[ls |] | e] eqn:Ef.
    + change (with_suffix (fst f) ".uart_from_wf.log") with (uart_file (fst f)).
      destruct (find_text d0 (uart_file (fst f))) as [s |] eqn:Es.
      * exists d0, (Ok tt). split; [reflexivity |]. split; [now left |]. split; [| reflexivity].
        intros q (ls' & _ & ->) ls'' _. now rewrite Es.
      * eexists _, (Ok tt). split; [reflexivity |]. split; [now left |]. split.
        -- intros q (ls' & _ & ->) ls'' E2. injection E2 as <-. rewrite find_text_hd, Es. cbn [kept_or]. f_equal.
           rewrite concat_empty. clear. induction ls as [| l ls IH]; cbn [map fold_right]; [reflexivity | now rewrite IH].
        -- intros q Hq. apply find_text_tl. intros <-. apply Hq. now exists ls.
    + exists d0, (Ok tt). split; [reflexivity |]. split; [now left |]. split; [| reflexivity].
      intros q (ls & E & _). discriminate E.
    + rewrite (Hx e Ef). exists d0, (Err TypeError). split; [reflexivity |]. split; [now right |]. split; [| reflexivity].
      intros q (ls & E & _). discriminate E.
  - apply (apart_pairs (fun _ => True)); [now apply Forall_forall | exact A |].
    intros f1 f2 _ _ N q (l1 & _ & Q1) (l2 & _ & Q2). rewrite Q1 in Q2. unfold uart_file in Q2.
    injection Q2 as H1 H2. apply append_inj_r in H2. apply N. now rewrite H1, H2.
  - exists d'. split; [exact E |]. split.
    + intros file g ls Hf Hl. apply (W (file, Ok g) (uart_file file) Hf); [| exact Hl]. exists ls. now split.
    + intros q H. apply K. intros [file [g | e]] Hf (ls & E1 & ->); [| discriminate E1].
      exact (H file g ls Hf E1 eq_refl).
Qed.

(** ** More about pins and warnings *)

Lemma prefix_spec a b : prefix a b = true <-> exists y, b = (a ++ y)%string.
Proof.
  revert b. induction a as [| c a IH]; intro b; cbn [append].
  - destruct b; split; try reflexivity; intros _; now eexists.
  - destruct b as [| c' b]; [split; [discriminate | intros [y E]; discriminate E] |].
    change (prefix (String c a) (String c' b)) with (if ascii_dec c c' then prefix a b else false).
    destruct (ascii_dec c c') as [<- | N].
    + rewrite IH. split; intros [y E]; exists y; [now rewrite E | now injection E].
    + split; [discriminate | intros [y E]; injection E as E _; now elim N].
Qed.

Theorem contains_spec a b : contains a b = true <-> exists x y, b = (x ++ a ++ y)%string.
Proof.
  induction b as [| c b IH]; cbn [contains]; rewrite orb_true_iff, prefix_spec.
  - split; [intros [[y E] | E]; [now exists EmptyString, y | discriminate E] |].
    intros (x & y & E). left. destruct x; [now exists y | discriminate E].
  - rewrite IH. split.
    + intros [[y E] | (x & y & E)]; [now exists EmptyString, y | exists (String c x), y; cbn; now rewrite E].
    + intros ([| c' x] & y & E); [left; now exists y | right; injection E as _ E; now exists x, y].
Qed.

Theorem uart_pin {L} (decode : list (Z * Z) -> res L) g pre n s post w :
  gp_pins g = pre ++ (n, s) :: post -> contains "uart" s = true ->
  Forall (fun p => contains "uart" (snd p) = false) pre -> 0 <= n ->
  pin_waveform n (gp_time g) (gp_value g) = Ok w ->
  gpio_to_uart decode (Some g) = match decode w with
    | Ok l => Ok (Some l)
    | Err e => match e with TypeError | ValueError => Ok None | _ => Err e end end.
Proof.
  intros E C F H W. unfold gpio_to_uart, gpio_to_waveforms, get_gpio_pin_num.
  assert (P : find (fun p => contains "uart" (snd p)) (gp_pins g) = Some (n, s)).
  { rewrite E. clear E. induction pre as [| p pre IH]; cbn [app find snd].
    - now rewrite C.
    - inversion F as [| ? ? F1 F2]; subst. rewrite F1. now apply IH. }
  rewrite P. cbn [option_map fst each_pin waveform]. destruct (Z.leb_spec 0 n); [| lia]. cbn [bind].
  rewrite W. cbn [bind rev app]. destruct (decode w) as [l | []]; reflexivity.
Qed.


Theorem warned levels times msgs min_level limit :
  List.length levels = List.length times -> List.length msgs = List.length times -> 1 <= limit ->
  let all := at_least min_level (entries times levels msgs) in
  warn_logs (Some levels) times msgs min_level limit true =
  Ok (Z.of_nat (List.length all),
      map (fun e => (level_of (fst (snd e)), fst e, snd (snd e))) (firstn (Z.to_nat limit) all)).
Proof.
  intros L1 L2 Hl all. unfold warn_logs, count_errors_in_log.
  rewrite (count_entries min_level times levels msgs L1 L2). fold all.
  destruct (Z.ltb_spec (Z.of_nat (List.length all)) 1).
  - assert (Z : all = []) by (destruct all; [reflexivity | cbn [List.length] in *; lia]).
    rewrite Z, firstn_nil. reflexivity.
  - cbn [negb]. rewrite shown_logs by assumption. reflexivity.
Qed.

Theorem warned_quiet levels times msgs min_level limit :
  List.length levels = List.length times -> List.length msgs = List.length times ->
  warn_logs (Some levels) times msgs min_level limit false
    = Ok (Z.of_nat (List.length (at_least min_level (entries times levels msgs))), []) /\
  warn_logs None times msgs min_level limit true = Ok (0, []) /\
  warn_logs None times msgs min_level limit false = Ok (0, []).
Proof.
  intros L1 L2. split; [| split; reflexivity]. unfold warn_logs, count_errors_in_log.
  rewrite (count_entries min_level times levels msgs L1 L2).
  set (n := List.length _). destruct (Z.ltb_spec (Z.of_nat n) 1); [| reflexivity].
  replace n with 0%nat by lia. reflexivity.
Qed.

(** The stored name of a group is its own name, without the slashes around it. *)
Lemma lstrip_slashes n l : lstrip_slash (repeat "/"%char n ++ l) = lstrip_slash l.
Proof. induction n as [|n IH]; [reflexivity|exact IH]. Qed.

Lemma lstrip_none l rest : (forall c, In c l -> c <> "/"%char) -> l <> [] -> lstrip_slash (l ++ rest) = l ++ rest.
Proof.
  intros H Hne. destruct l as [|c l]; [contradiction|]. cbn [app lstrip_slash].
  destruct (Ascii.eqb_spec c "/") as [E|_]; [|reflexivity]. elim (H c (or_introl eq_refl) E).
Qed.

Lemma rev_slashes n : rev (repeat "/"%char n) = repeat "/"%char n.
Proof.
  induction n as [|n IH]; [reflexivity|]. cbn [repeat rev]. rewrite IH. clear.
  induction n as [|n IH]; [reflexivity|]. cbn [repeat app]. rewrite IH. reflexivity.
Qed.

Lemma stripped a b s : no_slash s ->
  strip_slash (string_of_list_ascii (repeat "/"%char a ++ list_ascii_of_string s ++ repeat "/"%char b)) = s.
Proof.
  intros H. unfold strip_slash. rewrite list_ascii_of_string_of_list_ascii, lstrip_slashes.
  assert (H' : forall c, In c (list_ascii_of_string s) -> c <> "/"%char).
  { clear -H. induction s as [|x s IH]; cbn; intros c Hc; [contradiction|].
    destruct H as [H1 H2]. destruct Hc as [<-|Hc]; [exact H1|exact (IH H2 c Hc)]. }
  destruct (list_ascii_of_string s) as [|c l] eqn:ES.
  - cbn [app]. rewrite <- (app_nil_r (repeat _ b)), lstrip_slashes. cbn.
    rewrite <- (string_of_list_ascii_of_string s), ES. reflexivity.
  - rewrite lstrip_none by (exact H' || discriminate). rewrite rev_app_distr, rev_slashes, lstrip_slashes.
    rewrite <- (app_nil_r (rev (c :: l))), lstrip_none.
    + rewrite app_nil_r, rev_involutive, <- ES. apply string_of_list_ascii_of_string.
    + intros x Hx. apply H'. apply in_rev. exact Hx.
    + intros E. apply (f_equal (@rev _)) in E. rewrite rev_involutive in E. discriminate E.
Qed.

(** A log with missing entries. *)
Lemma show_short min_level times : forall limit levels msgs e, show_logs min_level limit times levels msgs = Err e ->
  e = IndexError /\ (length levels < length times \/ length msgs < length times)%nat.
Proof.
  induction times as [|t times IH]; intros limit levels msgs e; cbn [show_logs]; [discriminate|].
  destruct levels as [|lv levels]; [intros H; injection H as <-; cbn [length]; split; [reflexivity | lia]|].
  destruct (lv <? min_level).
  - intros H. apply IH in H as [-> H]. split; [reflexivity|]. cbn [length]. destruct msgs; cbn [tl length] in H; cbn [length]; lia.
  - destruct msgs as [|m msgs]; [intros H; injection H as <-; cbn [length]; split; [reflexivity | lia]|].
    cbn zeta. destruct (limit - 1 <? 1); [discriminate|].
    destruct (show_logs min_level (limit - 1) times levels msgs) as [r|e1] eqn:E; cbn [bind]; [discriminate|].
    intros H. injection H as <-. apply IH in E as [-> E]. cbn [length]. split; [reflexivity | lia].
Qed.
Lemma warn_short levels times msgs min_level limit show e : warn_logs levels times msgs min_level limit show = Err e ->
  e = IndexError /\ exists lv, levels = Some lv /\ (length lv < length times \/ length msgs < length times)%nat.
Proof.
  unfold warn_logs. destruct levels as [lv|]; [|discriminate]. destruct (_ <? 1); [discriminate|]. destruct (negb show); [discriminate|].
  destruct (show_logs _ _ _ _ _) as [r|e1] eqn:E; cbn [bind]; [discriminate|]. intros H. injection H as <-.
  apply show_short in E as [-> E]. split; [reflexivity|]. eauto.
Qed.
