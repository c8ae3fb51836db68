(** Storing and loading, by induction on the description of the class. *)
From Coq Require Import String Ascii.
From Verif Require Import PyBase FileModel FwModel UartModel StoModel StoSpec.
From Coq Require Import QArith.
Open Scope Z_scope.

Lemma ty_ind' (P : ty -> Prop) :
  P TBool -> (forall ok, P (TInt ok)) -> (forall ok, P (TFloat ok)) -> (forall ok, P (TStr ok)) ->
  P TDate -> P TTime -> P TPath -> (forall ok, P (TUuid ok)) -> (forall ok, P (TIp ok)) ->
  (forall t, P t -> P (TOpt t)) -> (forall ok t, P t -> P (TList ok t)) ->
  (forall n pre fields post, Forall (fun f => P (fst (snd f))) fields -> P (TObj n pre fields post)) ->
  forall t, P t.
Proof.
  intros H1 H2 H3 H4 H5 H6 H7 H8 H9 H10 H11 H12.
  fix IH 1. intros [| ok | ok | ok | | | | ok | ok | t | ok t | n pre fields post];
    [exact H1 | apply H2 | apply H3 | apply H4 | exact H5 | exact H6 | exact H7 | apply H8 | apply H9
    | apply H10, IH | apply H11, IH |].
  apply H12. induction fields as [| [k [t d]] fields IHf]; constructor; [apply IH | exact IHf].
Qed.

Lemma each_ok {A B} (f : A -> res B) l rs :
  Forall2 (fun a r => f a = Ok r) l rs -> each f l = Ok rs.
Proof. induction 1 as [| a r l rs H _ IH]; cbn; [reflexivity |]. now rewrite H, IH. Qed.

Lemma each_inv {A B} (f : A -> res B) l rs :
  each f l = Ok rs -> Forall2 (fun a r => f a = Ok r) l rs.
Proof.
  revert rs. induction l as [| a l IH]; cbn; intros rs H.
  - injection H as <-. constructor.
  - destruct (f a) as [b |] eqn:E; [| discriminate]. cbn in H.
    destruct (each f l) as [r |] eqn:E'; [| discriminate]. injection H as <-.
    constructor; [exact E | now apply IH].
Qed.

Lemma plain_plain p : plain (plain p) = plain p.
Proof.
  revert p. fix IH 1. intros [| | | | | | | | | | l | fs]; try reflexivity; cbn [plain]; f_equal.
  - rewrite map_map. induction l as [| a l IHl]; cbn; [reflexivity |]. now rewrite IH, IHl.
  - rewrite map_map. induction fs as [| [n [g v]] fs IHf]; cbn; [reflexivity |]. now rewrite IH, IHf.
Qed.

(** The text of the stored document, or the dumped objects. *)
Definition doc (text minimal : bool) (p : pval) : yval :=
  if text then represent (model_dump minimal p) else model_dump minimal p.

Lemma doc_list text minimal l : doc text minimal (PList l) = YList (map (doc text minimal) l).
Proof. unfold doc. destruct text; cbn [model_dump represent]; [now rewrite map_map | reflexivity]. Qed.

Definition doc_fields (text minimal : bool) (fs : list (string * (bool * pval))) : list (string * yval) :=
  flat_map (fun f => match f with
    (n, (given, v)) => if minimal && negb given then [] else [(n, doc text minimal v)] end) fs.

Lemma doc_obj text minimal fs : doc text minimal (PObj fs) = YMap (doc_fields text minimal fs).
Proof.
  unfold doc, doc_fields. destruct text; cbn [model_dump represent]; [| reflexivity]. f_equal.
  induction fs as [| [n [g v]] fs IH]; cbn [flat_map map]; [reflexivity |].
  rewrite map_app, IH. destruct (minimal && negb g); reflexivity.
Qed.

Lemma doc_null text minimal p : doc text minimal p = YNull -> p = PNone.
Proof. destruct p; unfold doc; destruct text; cbn; congruence. Qed.

(** What comes back: the instance, or the instance with everything given explicitly. *)
Definition back (minimal : bool) (p : pval) : pval := if minimal then p else plain p.

Lemma assoc_notin {A} n (l : list (string * A)) : ~ In n (map fst l) -> assoc n l = None.
Proof.
  induction l as [| [k v] l IH]; cbn; intro H; [reflexivity |].
  destruct (String.eqb_spec k n) as [-> | E]; [exfalso; apply H; now left |].
  apply IH. intro K. apply H. now right.
Qed.

Lemma doc_fields_names text minimal fs n :
  In n (map fst (doc_fields text minimal fs)) -> In n (map fst fs).
Proof.
  induction fs as [| [k [g v]] fs IH]; cbn [doc_fields flat_map map fst]; [easy |].
  fold (doc_fields text minimal fs). rewrite map_app, in_app_iff.
  destruct (minimal && negb g); cbn; intuition auto.
Qed.

Lemma assoc_doc text minimal fs : NoDup (map fst fs) ->
  forall n g v, In (n, (g, v)) fs ->
  assoc n (doc_fields text minimal fs) = if minimal && negb g then None else Some (doc text minimal v).
Proof.
  induction fs as [| [k [h w]] fs IH]; cbn [map fst]; intros ND n g v H; [easy |].
  inversion ND as [| ? ? NI ND']; subst.
  cbn [doc_fields flat_map]. fold (doc_fields text minimal fs). destruct H as [E | H].
  - injection E as -> -> ->. destruct (minimal && negb g); cbn [app assoc].
    + apply assoc_notin. intro K. apply NI. eapply doc_fields_names, K.
    + now rewrite String.eqb_refl.
  - assert (k <> n) by (intros ->; apply NI; apply (in_map fst _ _ H)).
    destruct (minimal && negb h); cbn [app assoc]; [now apply IH |].
    destruct (String.eqb_spec k n); [contradiction | now apply IH].
Qed.

(** Two lists of fields side by side. *)
Definition fits (now : Z) (f : string * (ty * dflt)) (a : string * (bool * pval)) : Prop :=
  match f, a with
  | (n, (t', d)), (n', (given, v)) =>
      n = n' /\ has now t' v /\
      (given = false -> match d with Required => False | Const c => v = c | Factory => True end)
  end.

Lemma has_obj now n pre fields post fs : has now (TObj n pre fields post) (PObj fs) <->
  Forall2 (fits now) fields fs /\ post now (values fs) = true.
Proof.
  cbn [has]. apply and_iff_compat_r. revert fs.
  induction fields as [| [k [t d]] fields IH]; intros [| [k' [g v]] fs]; split; intro H;
    try (now inversion H); try (now destruct H); try constructor; try exact I.
  - destruct H as (A & B & C & D). split; [exact A |]. split; [exact B | exact C].
  - destruct H as (A & B & C & D). now apply IH.
  - inversion H as [| ? ? ? ? F1 F2]; subst. apply F1.
  - inversion H as [| ? ? ? ? F1 F2]; subst. destruct F1 as (F1 & F3 & F4). split; [exact F3 |].
    split; [exact F4 | now apply IH].
Qed.

Lemma calm_obj dc n pre fields post fs : calm dc (TObj n pre fields post) (PObj fs) ->
  List.length fields = List.length fs ->
  (forall m, dc (PObj fs) = YMap m -> pre m = Ok m) /\
  Forall2 (fun f a => calm dc (fst (snd f)) (snd (snd a))) fields fs.
Proof.
  cbn [calm]. intros [H1 H2] L. split; [exact H1 |]. clear H1. revert fs H2 L.
  induction fields as [| [k [t d]] fields IH]; intros [| [k' [g v]] fs] H L; try discriminate; constructor.
  - apply H.
  - apply IH; [apply H | now injection L].
Qed.

Lemma known_obj n pre fields post fs : known (TObj n pre fields post) (PObj fs) ->
  List.length fields = List.length fs ->
  Forall2 (fun f a => known (fst (snd f)) (snd (snd a)) /\ (snd (snd f) = Factory -> fst (snd a) = true)) fields fs.
Proof.
  cbn [known]. revert fs.
  induction fields as [| [k [t d]] fields IH]; intros [| [k' [g v]] fs] H L; try discriminate; constructor.
  - split; apply H.
  - apply IH; [apply H | now injection L].
Qed.

Lemma fold_Forall {A} (P : A -> Prop) l : fold_right (fun a Q => P a /\ Q) True l <-> Forall P l.
Proof.
  induction l as [| a l IH]; cbn; split; intro H; try constructor; try exact I.
  - apply H. - apply IH, H. - now inversion H. - apply IH. now inversion H.
Qed.

Lemma fits_names now fields fs : Forall2 (fits now) fields fs -> map fst fields = map fst fs.
Proof.
  induction 1 as [| [n [t d]] [n' [g v]] fields fs (-> & _) _ IH]; cbn; [reflexivity | now rewrite IH].
Qed.

Lemma quot_whole us : (1000000 | us) -> Z.quot us 1000000 * 1000000 = us.
Proof. intros [k ->]. now rewrite Z.quot_mul. Qed.

Lemma F2_len {A B} (R : A -> B -> Prop) l m : Forall2 R l m -> List.length l = List.length m.
Proof. induction 1; cbn; congruence. Qed.

Lemma values_back (minimal : bool) fs : values (map (fun a : string * (bool * pval) => match a with
    (n, (g, v)) => (n, (if minimal then g else true, back minimal v)) end) fs) = values fs.
Proof.
  unfold values. rewrite map_map. apply map_ext. intros [n [g v]]. cbn [fst snd].
  destruct minimal; cbn [back]; [reflexivity | now rewrite plain_plain].
Qed.

Lemma back_obj (minimal : bool) fs : back minimal (PObj fs) = PObj (map (fun a : string * (bool * pval) => match a with
    (n, (g, v)) => (n, (if minimal then g else true, back minimal v)) end) fs).
Proof.
  destruct minimal; cbn [back plain]; f_equal.
  rewrite <- (map_id fs) at 1. apply map_ext. now intros [n [g v]].
Qed.

(** An instance is read back from what was dumped of it. *)
Theorem load text minimal fresh now t : forall p,
  distinct t -> has now t p -> (text = true -> whole p) -> calm (doc text minimal) t p ->
  (minimal = true -> known t p) ->
  validate fresh now t (doc text minimal p) = Ok (back minimal p).
Proof.
  induction t as [| ok | ok | ok | | | | ok | ok | t IH | ok t IH | n pre fields post IH] using ty_ind';
    intros p D H W C K.
  - destruct p; try contradiction. unfold doc; destruct text, minimal; reflexivity.
  - destruct p; try contradiction. cbn [has] in H. unfold doc; destruct text, minimal; cbn; now rewrite H.
  - destruct p; try contradiction. cbn [has] in H. unfold doc; destruct text, minimal; cbn; now rewrite H.
  - destruct p; try contradiction. cbn [has] in H. destruct H as [E H].
    unfold doc; destruct text, minimal; cbn; now rewrite E, H.
  - destruct p; try contradiction. unfold doc; destruct text, minimal; reflexivity.
  - destruct p as [| | | | | | us | | | | |]; try contradiction.
    assert (B : back minimal (PTime us) = PTime us) by now destruct minimal.
    rewrite B. unfold doc; destruct text; cbn [model_dump represent validate]; [| reflexivity].
    specialize (W eq_refl). cbn in W. now rewrite (quot_whole us W).
  - destruct p; try contradiction. unfold doc; destruct text, minimal; reflexivity.
  - destruct p; try contradiction. cbn [has] in H. unfold doc; destruct text, minimal; cbn; now rewrite H.
  - destruct p; try contradiction. cbn [has] in H. unfold doc; destruct text, minimal; cbn; now rewrite H.
  - (* optional *)
    destruct (match p with PNone => true | _ => false end) eqn:N.
    + destruct p; try discriminate. unfold doc; destruct text, minimal; reflexivity.
    + assert (Hp : p <> PNone) by (intros ->; discriminate).
      assert (E : validate fresh now (TOpt t) (doc text minimal p) = validate fresh now t (doc text minimal p)).
      { cbn [validate]. destruct (doc text minimal p) eqn:Ed; try reflexivity.
        apply doc_null in Ed. contradiction. }
      rewrite E. apply IH.
      * exact D.
      * destruct p; try exact H. contradiction.
      * exact W.
      * destruct p; try exact C. contradiction.
      * intro M. specialize (K M). destruct p; try exact K. contradiction.
  - (* list *)
    destruct p as [| | | | | | | | | | l |]; try contradiction. cbn [has] in H. destruct H as [L H].
    rewrite doc_list. cbn [validate]. rewrite map_length, L.
    assert (E : each (validate fresh now t) (map (doc text minimal) l) = Ok (map (back minimal) l)).
    { apply each_ok. cbn [distinct] in D. cbn [calm] in C.
      assert (W' : text = true -> Forall whole l) by (intro T; apply fold_Forall, W, T).
      assert (K' : minimal = true -> Forall (known t) l) by (intro M; apply (K M)).
      clear L W K. induction l as [| a l IHl]; cbn [map]; constructor.
      - inversion H; subst. inversion C; subst. apply IH; try assumption.
        + intro T. specialize (W' T). now inversion W'.
        + intro M. specialize (K' M). now inversion K'.
      - inversion H; subst. inversion C; subst. apply IHl; try assumption.
        + intro T. specialize (W' T). now inversion W'.
        + intro M. specialize (K' M). now inversion K'. }
    rewrite E. cbn [bind]. destruct minimal; cbn [back plain]; [now rewrite map_id | reflexivity].
  - (* object *)
    destruct p as [| | | | | | | | | | | fs]; try contradiction.
    apply has_obj in H as [F P]. pose proof (F2_len _ _ _ F) as L.
    apply calm_obj in C as [Cp Cf]; [| exact L].
    assert (K' : minimal = true -> Forall2 (fun f a => known (fst (snd f)) (snd (snd a)) /\
                   (snd (snd f) = Factory -> fst (snd a) = true)) fields fs)
      by (intro M; eapply known_obj; [apply K, M | exact L]).
    clear K. destruct D as [ND D].
    assert (W' : text = true -> Forall (fun a => whole (snd (snd a))) fs).
    { intro T. specialize (W T). cbn [whole] in W. clear -W.
      induction fs as [| [k [g v]] fs IHf]; constructor; [apply W | apply IHf, W]. }
    clear W. pose proof (fits_names _ _ _ F) as Nm.
    rewrite doc_obj. cbn [validate]. rewrite (Cp _ (doc_obj text minimal fs)). cbn [bind].
    assert (A : forallb (fun kv => existsb (String.eqb (fst kv)) (map fst fields)) (doc_fields text minimal fs) = true).
    { apply forallb_forall. intros [k y] Hk. apply existsb_exists. exists k. cbn [fst].
      split; [| apply String.eqb_refl]. rewrite Nm. eapply doc_fields_names, (in_map fst _ _ Hk). }
    rewrite A.
    match goal with |- bind (each ?f fields) _ = _ => set (g := f) end.
    assert (E : each g fields = Ok (map (fun a : string * (bool * pval) => match a with
        (n, (g, v)) => (n, (if minimal then g else true, back minimal v)) end) fs)).
    { apply each_ok. subst g.
      assert (NDs : NoDup (map fst fs)) by now rewrite <- Nm.
      pose proof (assoc_doc text minimal fs NDs) as As.
      set (m := doc_fields text minimal fs) in *. clearbody m.
      clear P A L Nm ND NDs Cp. revert Cf K' W' As D IH.
      induction F as [| [k [t d]] [k' [g v]] fields fs (-> & Hv & Hd) F IHF];
        intros Cf K W As D IH; cbn [map]; constructor.
      - rewrite (As k' g v (or_introl eq_refl)). inversion IH as [| ? ? IH1 IH2]; subst.
        inversion Cf as [| ? ? ? ? C1 C2]; subst. cbn [fst snd] in IH1, C1.
        destruct D as [D1 D2].
        destruct (minimal && negb g) eqn:G.
        + apply andb_true_iff in G as [-> G]. apply negb_true_iff in G. subst g.
          specialize (K eq_refl). inversion K as [| ? ? ? ? K1 K2]; subst. cbn [fst snd] in K1.
          specialize (Hd eq_refl). destruct d as [| c |]; [contradiction | now subst v |].
          destruct K1 as [_ K1]. specialize (K1 eq_refl). discriminate.
        + rewrite IH1; try assumption.
          * cbn [bind]. destruct minimal; [| reflexivity]. now destruct g.
          * intro T. specialize (W T). now inversion W.
          * intro M. specialize (K M). inversion K as [| ? ? ? ? K1 K2]; subst. apply K1.
      - inversion IH as [| ? ? IH1 IH2]; subst. inversion Cf as [| ? ? ? ? C1 C2]; subst.
        destruct D as [D1 D2]. apply IHF; try assumption.
        + intro M. specialize (K M). now inversion K.
        + intro T. specialize (W T). now inversion W.
        + intros n0 g0 v0 H0. apply As. now right. }
    rewrite E. cbn [bind]. rewrite values_back, P. now rewrite back_obj.
Qed.

(** ** What validation builds is an instance *)

Lemma lstrip_head l : match lstrip l with [] => True | c :: _ => white c = false end.
Proof.
  induction l as [| c l IH]; cbn; [exact I |]. destruct (white c) eqn:E; [exact IH | exact E].
Qed.

Lemma lstrip_done l : match l with [] => True | c :: _ => white c = false end -> lstrip l = l.
Proof. destruct l as [| c l]; cbn; [reflexivity | now intros ->]. Qed.

Lemma lstrip_tail l : exists h, l = h ++ lstrip l.
Proof.
  induction l as [| c l [h IH]]; [now exists [] |]. cbn. destruct (white c); [| now exists []].
  exists (c :: h). cbn. now rewrite <- IH.
Qed.

Lemma strip_strip s : strip (strip s) = strip s.
Proof.
  unfold strip. rewrite !list_ascii_of_string_of_list_ascii. f_equal.
  set (l := lstrip (list_ascii_of_string s)).
  pose proof (lstrip_head (list_ascii_of_string s)) as Hl. fold l in Hl.
  pose proof (lstrip_head (rev l)) as Hr.
  destruct (lstrip_tail (rev l)) as [h Hh].
  set (r := lstrip (rev l)) in *.
  assert (E : l = rev r ++ rev h) by (rewrite <- rev_app_distr, <- Hh, rev_involutive; reflexivity).
  assert (E1 : lstrip (rev r) = rev r).
  { apply lstrip_done. rewrite E in Hl. destruct (rev r) as [| c q]; [exact I | exact Hl]. }
  rewrite E1, rev_involutive. f_equal. apply lstrip_done, Hr.
Qed.

Lemma sound_obj fresh now n pre fields post : sound fresh now (TObj n pre fields post) ->
  Forall (fun f => sound fresh now (fst (snd f)) /\
    match snd (snd f) with Required => True | Const c => has now (fst (snd f)) c
    | Factory => has now (fst (snd f)) (fresh (fst f)) end) fields.
Proof.
  cbn [sound]. intro H. apply fold_Forall in H. eapply Forall_impl; [| exact H]. intros [k [t d]]. exact (fun x => x).
Qed.

Theorem built fresh now t : forall y p,
  sound fresh now t -> validate fresh now t y = Ok p -> has now t p.
Proof.
  induction t as [| ok | ok | ok | | | | ok | ok | t IH | ok t IH | n pre fields post IH] using ty_ind';
    intros y p So H.
  - destruct y; try discriminate H. cbn in H. injection H as <-. exact I.
  - destruct y; try discriminate H. cbn in H. destruct (ok z) eqn:E; [| discriminate H]. injection H as <-. exact E.
  - destruct y; try discriminate H; cbn in H.
    + destruct (ok _) eqn:E; [| discriminate H]. injection H as <-. exact E.
    + destruct (ok _) eqn:E; [| discriminate H]. injection H as <-. exact E.
  - destruct y; try discriminate H. cbn in H. destruct (ok (strip s)) eqn:E; [| discriminate H]. injection H as <-.
    split; [apply strip_strip | exact E].
  - destruct y; try discriminate H. injection H as <-. exact I.
  - destruct y; try discriminate H; injection H as <-; exact I.
  - destruct y; try discriminate H; injection H as <-; exact I.
  - destruct y; try discriminate H; cbn in H; (destruct (ok _) eqn:E; [| discriminate H]); injection H as <-; exact E.
  - destruct y; try discriminate H; cbn in H; (destruct (ok _) eqn:E; [| discriminate H]); injection H as <-; exact E.
  - assert (K : p = PNone \/ validate fresh now t y = Ok p).
    { cbn [validate] in H. destruct y; try (right; exact H). left. congruence. }
    destruct K as [-> | K]; [exact I |]. specialize (IH y p So K). destruct p; try exact IH. exact I.
  - destruct y as [| | | | | | l | | | | |]; try discriminate H. cbn [validate] in H.
    destruct (ok (List.length l)) eqn:E; [| discriminate H].
    destruct (each _ l) as [rs |] eqn:Ee; [| discriminate H]. injection H as <-.
    apply each_inv in Ee. cbn [has]. rewrite <- (F2_len _ _ _ Ee). split; [exact E |].
    clear E. induction Ee as [| a r l rs Ha _ IHl]; constructor; [eapply IH; [exact So | exact Ha] | exact IHl].
  - destruct y as [| | | | | | | m | | | |]; try discriminate H. cbn [validate] in H.
    destruct (pre m) as [m' |]; [| discriminate H]. cbn [bind] in H.
    destruct (forallb _ m'); [| discriminate H].
    destruct (each _ fields) as [fs |] eqn:Ee; [| discriminate H]. cbn [bind] in H.
    destruct (post now (values fs)) eqn:Ep; [| discriminate H]. injection H as <-.
    apply has_obj. split; [| exact Ep]. clear Ep. apply each_inv in Ee. apply sound_obj in So.
    revert So IH. induction Ee as [| [k [t d]] [k' [g v]] fields fs Hf _ IHl]; intros So IH; constructor.
    + inversion So as [| ? ? [S1 S2] S3]; subst. inversion IH as [| ? ? I1 I2]; subst.
      cbn [fst snd] in *. destruct (assoc k m') as [y |].
      * destruct (validate fresh now t y) as [v' |] eqn:Ev; [| discriminate Hf]. cbn [bind] in Hf.
        injection Hf as <- <- <-. split; [reflexivity |]. split; [eapply I1; eassumption | discriminate].
      * destruct d as [| c |]; [discriminate Hf | |]; injection Hf as <- <- <-; repeat split; assumption.
    + inversion So; subst. inversion IH; subst. now apply IHl.
Qed.

Lemma unaltered_calm dc t : forall p, unaltered t -> calm dc t p.
Proof.
  induction t as [| ok | ok | ok | | | | ok | ok | t IH | ok t IH | n pre fields post IH] using ty_ind';
    intros p U; try exact I.
  - destruct p; cbn [calm]; try (apply IH, U); exact I.
  - destruct p; try exact I. cbn [calm]. apply Forall_forall. intros q _. apply IH, U.
  - destruct p; try exact I. destruct U as [U1 U2]. cbn [calm]. split; [intros m _; apply U1 |].
    clear U1. revert fs IH U2. induction fields as [| [k [t d]] fields IHf]; intros [| [k' [g v]] fs] IH U2; try exact I.
    inversion IH; subst. destruct U2 as [U2 U3]. split; [now apply H1 | now apply IHf].
Qed.

(** ** Files *)

Lemma path_refl p : path_eqb p p = true.
Proof. unfold path_eqb. now rewrite !String.eqb_refl. Qed.

Lemma doc_of_obj minimal fs : represent (model_dump minimal (PObj fs)) = YMap (doc_fields true minimal fs).
Proof. exact (doc_obj true minimal fs). Qed.

Lemma read_written version version' minimal n c w0 fs m :
  match c with Some c => safe_str c | None => true end = true ->
  model_dump minimal (PObj fs) = YMap m ->
  exists v, read_wrap version' (represent (wrap_doc version minimal (mkWrap n c (Some w0) (Some version) m)))
  = Ok (mkWrap n c (Some w0) v (doc_fields true minimal fs))
  /\ (minimal = true -> v = Some version') /\ (minimal = false -> v = Some version).
Proof.
  intros Hc Hm. pose proof (doc_of_obj minimal fs) as Hd. rewrite Hm in Hd. cbn [represent] in Hd.
  injection Hd as Hd. unfold wrap_doc. destruct w0 as [us off].
  cbn [w_datatype w_comment w_created w_parameters].
  exists (if minimal then Some version' else Some version). split; [| split; intros ->; reflexivity].
  destruct c as [c |], minimal; cbn [represent map app read_wrap assoc String.eqb Ascii.eqb Bool.eqb bind];
    rewrite ?Hc; cbn [bind]; rewrite Hd; reflexivity.
Qed.

Lemma to_file_obj version now d t p file comment minimal d' out :
  to_file version now d t p file comment minimal = Ok (d', out) ->
  exists fs m, p = PObj fs /\ model_dump minimal p = YMap m /\
    match comment with Some c => safe_str c | None => true end = true /\
    out = with_suffix file ".yaml" /\
    d' = (out, represent (wrap_doc version minimal
           (mkWrap (cls_name t) comment (Some (now, Some 0)) (Some version) m))) :: d.
Proof.
  unfold to_file. destruct p as [| | | | | | | | | | l | fs]; cbn [model_dump]; try discriminate.
  destruct (match comment with Some c => safe_str c | None => true end) eqn:E; [| discriminate].
  intro H. injection H as <- <-. exists fs. eexists. repeat split; reflexivity.
Qed.

Theorem read_back version now d t p file comment minimal d' out fresh version' now' :
  to_file version now d t p file comment minimal = Ok (d', out) ->
  distinct t -> has now' t p -> whole p -> calm (doc true minimal) t p ->
  (minimal = true -> known t p) ->
  from_file fresh version' now' d' t out = Ok (back minimal p).
Proof.
  intros H D Hp W C K. apply to_file_obj in H as (fs & m & -> & Hm & Hc & -> & ->).
  unfold from_file. cbn [find_doc]. rewrite path_refl.
  destruct (read_written version version' minimal (cls_name t) comment (now, Some 0) fs m Hc Hm) as (v & E & _).
  rewrite E. cbn [bind w_datatype w_parameters]. rewrite String.eqb_refl.
  rewrite <- doc_obj. apply load; auto.
Qed.

Lemma other_class version now d t p file comment minimal d' out fresh version' now' t' :
  to_file version now d t p file comment minimal = Ok (d', out) -> cls_name t' <> cls_name t ->
  from_file fresh version' now' d' t' out = Err ValueError.
Proof.
  intros H Ne. apply to_file_obj in H as (fs & m & -> & Hm & Hc & -> & ->).
  unfold from_file. cbn [find_doc]. rewrite path_refl.
  destruct (read_written version version' minimal (cls_name t) comment (now, Some 0) fs m Hc Hm) as (v & E & _).
  rewrite E. cbn [bind w_datatype]. destruct (String.eqb_spec (cls_name t) (cls_name t')); [congruence | reflexivity].
Qed.

Lemma stored_header version now d t p file comment minimal d' out version' :
  to_file version now d t p file comment minimal = Ok (d', out) ->
  exists y w, find_doc d' out = Some y /\ read_wrap version' y = Ok w /\
    w_datatype w = cls_name t /\ w_comment w = comment /\ w_created w = Some (now, Some 0) /\
    (minimal = true -> w_lib_ver w = Some version') /\ (minimal = false -> w_lib_ver w = Some version).
Proof.
  intros H. apply to_file_obj in H as (fs & m & -> & Hm & Hc & -> & ->).
  destruct (read_written version version' minimal (cls_name t) comment (now, Some 0) fs m Hc Hm) as (v & E & E1 & E2).
  eexists. eexists. cbn [find_doc]. rewrite path_refl. split; [reflexivity |]. split; [exact E |].
  cbn. repeat split; assumption.
Qed.

Lemma other_files version now d t p file comment minimal d' out q :
  to_file version now d t p file comment minimal = Ok (d', out) -> q <> out -> find_doc d' q = find_doc d q.
Proof.
  intros H Ne. apply to_file_obj in H as (fs & m & -> & Hm & Hc & -> & ->). cbn [find_doc].
  destruct (path_eqb _ q) eqn:E; [| reflexivity]. exfalso. apply Ne.
  unfold path_eqb in E. apply andb_true_iff in E as [E1 E2].
  apply String.eqb_eq in E1, E2. rewrite (surjective_pairing q), <- E1, <- E2. reflexivity.
Qed.

Lemma to_file_ok version now d t p file comment minimal :
  (exists fs, p = PObj fs) -> match comment with Some c => safe_str c | None => true end = true ->
  exists d', to_file version now d t p file comment minimal = Ok (d', (fst file, (stem (snd file) ++ ".yaml")%string)).
Proof. intros [fs ->] Hc. unfold to_file. cbn [model_dump]. rewrite Hc. eexists. reflexivity. Qed.

(** ** Tasks *)

Lemma dump_plain p : model_dump false (plain p) = model_dump false p.
Proof.
  revert p. fix IH 1. intros [| | | | | | | | | | l | fs]; try reflexivity; cbn [plain model_dump]; f_equal.
  - rewrite map_map. induction l as [| a l IHl]; cbn [map]; [reflexivity |]. now rewrite IH, IHl.
  - induction fs as [| [n [g v]] fs IHf]; cbn [map flat_map]; [reflexivity |]. rewrite IHf. cbn [andb app]. now rewrite IH.
Qed.

Lemma attr_plain n p : attr n (plain p) = option_map plain (attr n p).
Proof.
  destruct p as [| | | | | | | | | | l | fs]; try reflexivity. cbn [plain attr].
  induction fs as [| [k [g v]] fs IH]; cbn [map assoc]; [reflexivity |].
  destruct (k =? n)%string; [reflexivity | exact IH].
Qed.

Lemma get_tasks_plain p : get_tasks (plain p) = map plain (get_tasks p).
Proof.
  unfold get_tasks. generalize ["fw1_mod"; "fw2_mod"; "fw1_prog"; "fw2_prog"; "emulation"]%string.
  induction l as [| n l IH]; cbn [flat_map]; [reflexivity |]. rewrite IH, map_app, attr_plain. f_equal.
  destruct (attr n p) as [[] |]; reflexivity.
Qed.

Section Tasks.
Variables emulation harvest fw_mod programming obs_tasks tb_tasks : ty.
Hypothesis N1 : cls_name emulation = "EmulationTask"%string.
Hypothesis N2 : cls_name harvest = "HarvestTask"%string.
Hypothesis N3 : cls_name fw_mod = "FirmwareModTask"%string.
Hypothesis N4 : cls_name programming = "ProgrammingTask"%string.
Hypothesis N5 : cls_name obs_tasks = "ObserverTasks"%string.
Hypothesis N6 : cls_name tb_tasks = "TestbedTasks"%string.
Variables (fresh : string -> pval) (version : string) (now : Z).

Notation prepare := (prepare_task obs_tasks tb_tasks fresh version now).
Notation extract := (extract_tasks emulation harvest fw_mod programming obs_tasks tb_tasks fresh now).

Definition tasks (t : ty) (p : pval) : list pval :=
  if (cls_name t =? "ObserverTasks")%string then get_tasks p else [p].

Lemma extract_of t w p b : In t [emulation; harvest; fw_mod; programming; obs_tasks] ->
  w_datatype w = cls_name t -> validate fresh now t (YMap (w_parameters w)) = Ok p ->
  extract w b = Ok (tasks t p).
Proof.
  intros Ht Hn Hv. unfold extract_tasks. rewrite Hn, N1, N2, N3, N4, N5, N6. unfold tasks.
  destruct Ht as [<- | [<- | [<- | [<- | [<- | []]]]]];
    rewrite ?N1, ?N2, ?N3, ?N4, ?N5;
    cbn [String.eqb Ascii.eqb Bool.eqb]; rewrite Hv; reflexivity.
Qed.

Lemma obj_params fs : model_dump false (PObj fs) = YMap (params (PObj fs)).
Proof. reflexivity. Qed.

Lemma prepared d t p o : In t [emulation; harvest; fw_mod; programming; obs_tasks] ->
  prepare d (CModel t p) o = Ok (mkWrap (cls_name t) None None (Some version) (params p)).
Proof.
  intros Ht. unfold prepare_task. cbn [bind w_datatype]. rewrite N6.
  destruct Ht as [<- | [<- | [<- | [<- | [<- | []]]]]]; rewrite ?N1, ?N2, ?N3, ?N4, ?N5; reflexivity.
Qed.

Lemma has_is_obj t p : In t [emulation; harvest; fw_mod; programming; obs_tasks; tb_tasks] ->
  has now t p -> exists fs, p = PObj fs.
Proof.
  intros Ht Hp. assert (T : exists n pre f q, t = TObj n pre f q).
  { destruct t; try (now repeat eexists); exfalso;
      repeat (destruct Ht as [Ht | Ht]; [rewrite Ht in *; discriminate |]); exact Ht. }
  destruct T as (n & pre & f & q & ->). destruct p; try contradiction. now eexists.
Qed.

Lemma validate_params t p : In t [emulation; harvest; fw_mod; programming; obs_tasks; tb_tasks] ->
  distinct t -> has now t p -> calm (doc false false) t p ->
  validate fresh now t (YMap (params p)) = Ok (plain p).
Proof.
  intros Ht D H C. destruct (has_is_obj t p Ht H) as [fs ->]. rewrite <- obj_params.
  apply (load false false fresh now t (PObj fs)); try assumption; intros E; discriminate E.
Qed.

Lemma model_tasks d t p o b : In t [emulation; harvest; fw_mod; programming; obs_tasks] ->
  distinct t -> has now t p -> calm (doc false false) t p ->
  bind (prepare d (CModel t p) o) (fun w => extract w b) = Ok (tasks t (plain p)).
Proof.
  intros Ht D H C. rewrite prepared by exact Ht. cbn [bind]. apply extract_of; [exact Ht | reflexivity |].
  cbn [w_parameters]. apply validate_params; try assumption.
  cbn in *. tauto.
Qed.

Lemma file_tasks d t p o b version' now' file comment minimal d' out :
  In t [emulation; harvest; fw_mod; programming; obs_tasks] ->
  to_file version' now' d t p file comment minimal = Ok (d', out) ->
  distinct t -> has now t p -> whole p -> calm (doc true minimal) t p -> (minimal = true -> known t p) ->
  bind (prepare d' (CFile out) o) (fun w => extract w b) = Ok (tasks t (back minimal p)).
Proof.
  intros Ht H D Hp W C K. pose proof H as H0. apply to_file_obj in H as (fs & m & -> & Hm & Hc & -> & ->).
  unfold prepare_task. cbn [find_doc]. rewrite path_refl.
  destruct (read_written version' version minimal (cls_name t) comment (now', Some 0) fs m Hc Hm) as (v & E & _).
  rewrite E. cbn [bind w_datatype].
  assert (X : (cls_name t =? cls_name tb_tasks)%string = false).
  { rewrite N6. destruct Ht as [<- | [<- | [<- | [<- | [<- | []]]]]]; rewrite ?N1, ?N2, ?N3, ?N4, ?N5; reflexivity. }
  rewrite X. cbn [bind]. apply extract_of; [exact Ht | reflexivity |].
  cbn [w_parameters]. rewrite <- doc_obj. apply load; auto.
Qed.

(** The tasks of one observer out of those of the testbed. *)
Lemma find_plain name l : (forall t, In t l -> exists s, attr "observer" t = Some (PStr s)) ->
  find (fun t => match attr "observer" t with Some (PStr s) => (name =? s)%string | _ => false end) (map plain l)
  = option_map plain (find (fun t => match attr "observer" t with Some (PStr s) => (name =? s)%string | _ => false end) l).
Proof.
  intro H. induction l as [| t l IH]; cbn [map find]; [reflexivity |].
  rewrite attr_plain. destruct (H t (or_introl eq_refl)) as [s ->]. cbn [option_map plain].
  destruct (name =? s)%string; [reflexivity |]. apply IH. intros u Hu. apply H. now right.
Qed.

Section Set_.
Variables (p : pval) (l : list pval) (name : string) (d : disk) (b : bool).
Hypothesis Dp : distinct tb_tasks.
Hypothesis Hp : has now tb_tasks p.
Hypothesis Cp : calm (doc false false) tb_tasks p.
Hypothesis Al : attr "observer_tasks" p = Some (PList l).
Hypothesis Ol : forall t, In t l -> exists s, attr "observer" t = Some (PStr s).

Lemma prepared_set : prepare d (CModel tb_tasks p) (Some name) =
  match find (fun t => match attr "observer" t with Some (PStr s) => (name =? s)%string | _ => false end) l with
  | Some obt => Ok (mkWrap (cls_name obs_tasks) None None (Some version) (params obt))
  | None => Err ValueError
  end.
Proof.
  unfold prepare_task. cbn [bind w_datatype w_parameters]. rewrite String.eqb_refl.
  rewrite validate_params; try assumption; [| cbn; tauto]. cbn [bind].
  unfold get_observer_tasks. rewrite attr_plain, Al. cbn [option_map plain]. rewrite find_plain by exact Ol.
  destruct (find _ l) as [obt |]; [| reflexivity]. cbn [option_map]. unfold params. now rewrite dump_plain.
Qed.

Lemma unknown_observer : (forall t, In t l -> attr "observer" t <> Some (PStr name)) ->
  prepare d (CModel tb_tasks p) (Some name) = Err ValueError.
Proof.
  intro H. rewrite prepared_set. destruct (find _ l) as [obt |] eqn:E; [exfalso | reflexivity].
  apply find_some in E as [E1 E2]. apply (H obt E1). destruct (Ol obt E1) as [s Es]. rewrite Es in *.
  apply String.eqb_eq in E2. now subst s.
Qed.

Lemma known_observer obt : In obt l -> attr "observer" obt = Some (PStr name) ->
  (forall t, In t l -> attr "observer" t = Some (PStr name) -> t = obt) ->
  distinct obs_tasks -> has now obs_tasks obt -> calm (doc false false) obs_tasks obt ->
  bind (prepare d (CModel tb_tasks p) (Some name)) (fun w => extract w b) = Ok (map plain (get_tasks obt)).
Proof.
  intros Hi Ho Hu Do Hh Co. rewrite prepared_set.
  destruct (find _ l) as [obt' |] eqn:E.
  - apply find_some in E as [E1 E2]. destruct (Ol obt' E1) as [s Es]. rewrite Es in E2.
    apply String.eqb_eq in E2. subst s. rewrite (Hu obt' E1 Es). cbn [bind].
    rewrite (extract_of obs_tasks _ (plain obt)).
    + unfold tasks. rewrite N5. cbn [String.eqb Ascii.eqb Bool.eqb]. now rewrite get_tasks_plain.
    + cbn; tauto.
    + reflexivity.
    + cbn [w_parameters]. apply validate_params; try assumption. cbn; tauto.
  - exfalso. pose proof (find_none _ _ E obt Hi) as K. cbv beta in K. rewrite Ho, String.eqb_refl in K. discriminate.
Qed.

Lemma whole_set : prepare d (CModel tb_tasks p) None = Ok (mkWrap "TestbedTasks" None None (Some version) (params p))
  /\ extract (mkWrap "TestbedTasks" None None (Some version) (params p)) true = Err ValueError
  /\ extract (mkWrap "TestbedTasks" None None (Some version) (params p)) false = Ok [plain p].
Proof.
  unfold prepare_task, extract_tasks. cbn [bind w_datatype w_parameters].
  rewrite N1, N2, N3, N4, N5, N6. cbn [String.eqb Ascii.eqb Bool.eqb].
  split; [reflexivity |]. split; [reflexivity |].
  rewrite validate_params; try assumption; [reflexivity | cbn; tauto].
Qed.
End Set_.

Lemma unknown_class w b : ~ In (w_datatype w) (map cls_name [emulation; harvest; fw_mod; programming; obs_tasks; tb_tasks]) ->
  extract w b = Err ValueError.
Proof.
  intro H. unfold extract_tasks. cbn [map In] in H.
  repeat match goal with |- context [(w_datatype w =? cls_name ?t)%string] =>
    destruct (String.eqb_spec (w_datatype w) (cls_name t)); [exfalso; apply H; rewrite e; tauto |] end.
  reflexivity.
Qed.
End Tasks.

(** ** Tasks with a start time *)

Lemma each_same {A} (f : A -> res A) l : (forall a, In a l -> f a = Ok a) -> each f l = Ok l.
Proof.
  intro H. induction l as [| a l IH]; cbn; [reflexivity |].
  rewrite H by now left. cbn. rewrite IH; [reflexivity |]. intros b Hb. apply H. now right.
Qed.

Lemma doc_fields_in text minimal fs k y : In (k, y) (doc_fields text minimal fs) ->
  exists g v, In (k, (g, v)) fs /\ y = doc text minimal v.
Proof.
  induction fs as [| [n [g v]] fs IH]; cbn [doc_fields flat_map]; [easy |].
  fold (doc_fields text minimal fs). rewrite in_app_iff. intros [H | H].
  - destruct (minimal && negb g); [easy |]. destruct H as [H | []]. injection H as <- <-.
    exists g, v. split; [now left | reflexivity].
  - destruct (IH H) as (g' & v' & K & E). exists g', v'. split; [now right | exact E].
Qed.

Lemma doc_date text minimal us off : doc text minimal (PDate us off) = YDate us off.
Proof. now destruct text. Qed.
Lemma doc_none text minimal : doc text minimal PNone = YNull.
Proof. now destruct text. Qed.

Lemma F2_in {A B} (R : A -> B -> Prop) l m : Forall2 R l m -> forall b, In b m -> exists a, In a l /\ R a b.
Proof.
  induction 1 as [| x y l m Hxy H IH]; intros b Hb; [easy |]. destruct Hb as [<- | Hb].
  - exists x. split; [now left | exact Hxy].
  - destruct (IH b Hb) as (a & Ha & Hr). exists a. split; [now right | exact Hr].
Qed.

Lemma assoc_in {A} n (v : A) l : NoDup (map fst l) -> In (n, v) l -> assoc n l = Some v.
Proof.
  induction l as [| [k w] l IH]; cbn; intros N H; [easy |]. destruct H as [H | H].
  - injection H as -> ->. now rewrite String.eqb_refl.
  - inversion N as [| ? ? NI N']; subst. destruct (String.eqb_spec k n) as [-> | _]; [| now apply IH].
    exfalso. apply NI. apply in_map_iff. now exists (n, v).
Qed.

Lemma values_names fs : map fst (values fs) = map fst fs.
Proof. unfold values. rewrite map_map. now apply map_ext. Qed.

Lemma dates_stay text minimal tz iso now fields fs d0 :
  NoDup (map fst fields) -> Forall2 (fits now) fields fs ->
  In ("time_start"%string, (TOpt TDate, d0)) fields ->
  (forall us, assoc "time_start" (values fs) <> Some (PDate us None)) ->
  forall m, doc text minimal (PObj fs) = YMap m -> pre_correction tz iso m = Ok m.
Proof.
  intros N F Hf Hd m Hm. rewrite doc_obj in Hm. injection Hm as <-.
  apply each_same. intros [k y] Hy. apply doc_fields_in in Hy as (g & v & Hi & ->).
  destruct (String.eqb_spec k "time_start") as [-> | _]; [| reflexivity].
  destruct (F2_in _ _ _ F _ Hi) as ([n [t d]] & Ha & R). destruct R as (R1 & R2 & _). cbn in R1, R2. subst n.
  assert (T : t = TOpt TDate).
  { pose proof (assoc_in _ _ _ N Ha) as A1. pose proof (assoc_in _ _ _ N Hf) as A2. congruence. }
  subst t. destruct v; try contradiction.
  - now rewrite doc_none.
  - rewrite doc_date. destruct off as [o |]; [reflexivity |]. exfalso. apply (Hd us).
    apply assoc_in; [rewrite values_names, <- (fits_names _ _ _ F); exact N |].
    unfold values. apply in_map_iff. exists ("time_start"%string, (g, PDate us None)). split; [reflexivity | exact Hi].
Qed.

Lemma calm_build dc n pre fields post fs :
  (forall m, dc (PObj fs) = YMap m -> pre m = Ok m) ->
  Forall2 (fun f a => calm dc (fst (snd f)) (snd (snd a))) fields fs ->
  calm dc (TObj n pre fields post) (PObj fs).
Proof.
  intros H F. cbn [calm]. split; [exact H |]. clear H.
  induction F as [| [k [t d]] [k' [g v]] fields fs Hv F IH]; [exact I |]. now split.
Qed.

Lemma fields_calm dc (fields : list (string * (ty * dflt))) (fs : list (string * (bool * pval))) :
  Forall (fun f => unaltered (fst (snd f))) fields -> List.length fields = List.length fs ->
  Forall2 (fun f a => calm dc (fst (snd f)) (snd (snd a))) fields fs.
Proof.
  revert fs. induction fields as [| f fields IH]; intros [| a fs] U L; try discriminate; constructor.
  - apply unaltered_calm. now inversion U.
  - apply IH; [now inversion U | now injection L].
Qed.

Lemma harvest_calm text minimal tz iso now p :
  has now (harvest_task tz iso) p -> calm (doc text minimal) (harvest_task tz iso) p.
Proof.
  destruct p as [| | | | | | | | | | | fs]; try contradiction. intro H.
  apply has_obj in H as [F P]. apply calm_build.
  - apply (dates_stay text minimal tz iso now _ fs (Const PNone)) with (2 := F).
    + cbn. repeat constructor; cbn; intuition discriminate.
    + cbn; tauto.
    + intros us E. rewrite E in P. discriminate P.
  - apply fields_calm; [| exact (F2_len _ _ _ F)]. unfold flag. repeat constructor.
Qed.

Definition steady (now now' : Z) (t : ty) : Prop := forall p, has now t p -> has now' t p.

Lemma steady_opt now now' t : steady now now' t -> steady now now' (TOpt t).
Proof. intros H p. cbn [has]. destruct p; try exact (H _); trivial. Qed.

Lemma fits_later now now' fields fs : Forall (fun f => steady now now' (fst (snd f))) fields ->
  Forall2 (fits now) fields fs -> Forall2 (fits now') fields fs.
Proof.
  intros U F. induction F as [| [n [t d]] [k [g v]] fields fs R F IH]; [constructor |].
  destruct R as (R1 & R2 & R3). inversion U as [| ? ? U1 U2]; subst. constructor; [| now apply IH].
  split; [reflexivity |]. split; [apply U1, R2 | exact R3].
Qed.

Lemma steady_power now now' : steady now now' power_tracing.
Proof.
  intros p. destruct p as [| | | | | | | | | | | fs]; try contradiction. unfold power_tracing. rewrite !has_obj.
  intros [F P]. split; [| exact P]. eapply fits_later; [| exact F].
  unfold flag. repeat constructor; try (intros q; exact (fun H => H)).
Qed.

Lemma steady_logging now now' : steady now now' sys_logging.
Proof.
  intros p. destruct p as [| | | | | | | | | | | fs]; try contradiction. unfold sys_logging. rewrite !has_obj.
  intros [F P]. split; [| exact P]. eapply fits_later; [| exact F].
  unfold flag. repeat constructor; try (intros q; exact (fun H => H)).
Qed.

Lemma attr_values n fs : assoc n (values fs) = option_map plain (attr n (PObj fs)).
Proof.
  cbn [attr]. induction fs as [| [k [g v]] fs IH]; cbn; [reflexivity |].
  destruct (k =? n)%string; [reflexivity | exact IH].
Qed.

Lemma harvest_later tz iso now now' p :
  has now (harvest_task tz iso) p ->
  (forall us off, attr "time_start" p = Some (PDate us (Some off)) -> now' <= us - off * 60000000) ->
  has now' (harvest_task tz iso) p.
Proof.
  destruct p as [| | | | | | | | | | | fs]; try contradiction. unfold harvest_task. rewrite !has_obj.
  intros [F P] T. split.
  - eapply fits_later; [| exact F]. unfold flag.
    repeat constructor; try (intros q; exact (fun H => H)); try apply steady_power;
      apply steady_opt, steady_logging.
  - apply andb_true_iff in P as [P1 P2]. apply andb_true_iff. split; [| exact P2].
    rewrite attr_values in *. destruct (attr "time_start" (PObj fs)) as [v |]; [| exact P1].
    cbn [option_map] in *. destruct v; try exact P1. cbn [plain] in *. destruct off as [o |]; [| exact P1].
    apply Z.leb_le. now apply T.
Qed.

Lemma harvest_distinct tz iso : distinct (harvest_task tz iso).
Proof. cbn. repeat split; repeat constructor; cbn; intuition discriminate. Qed.

Lemma harvest_sound tz iso fresh now : sound fresh now (harvest_task tz iso).
Proof. cbn. repeat split; try (intro; discriminate). Qed.

Lemma lasting_known t : forall p, lasting t -> known t p.
Proof.
  induction t as [| ok | ok | ok | | | | ok | ok | t IH | ok t IH | n pre fields post IH] using ty_ind';
    intros p H; try exact I.
  - cbn [known]. destruct p; try exact I; apply IH, H.
  - cbn [known]. destruct p; try exact I. apply Forall_forall. intros v _. apply IH, H.
  - cbn [known]. destruct p as [| | | | | | | | | | | fs]; try exact I. cbn [lasting] in H. revert fs.
    induction fields as [| [k [t d]] fields IHf]; intros [| [k' [g v]] fs]; try exact I.
    inversion IH as [| ? ? IH1 IH2]; subst. destruct H as [[H1 H2] H3].
    split; [apply IH1, H1 |]. split; [intro E; now elim H2 | now apply IHf].
Qed.

Theorem harvest_back tz iso fresh now y p version now1 d file comment minimal d' out fresh' version' now' :
  validate fresh now (harvest_task tz iso) y = Ok p ->
  to_file version now1 d (harvest_task tz iso) p file comment minimal = Ok (d', out) -> whole p ->
  (forall us off, attr "time_start" p = Some (PDate us (Some off)) -> now' <= us - off * 60000000) ->
  from_file fresh' version' now' d' (harvest_task tz iso) out = Ok (back minimal p).
Proof.
  intros V T W L. pose proof (built fresh now _ y p (harvest_sound tz iso fresh now) V) as H.
  pose proof (harvest_later tz iso now now' p H L) as H'.
  eapply read_back; try eassumption.
  - apply harvest_distinct.
  - eapply harvest_calm, H.
  - intros _. apply lasting_known. cbn. repeat split; intro; discriminate.
Qed.

(** ** Durations *)

Lemma represent_cut minimal p : represent (model_dump minimal (cut p)) = represent (model_dump minimal p).
Proof.
  revert p. fix IH 1. intros [| | | | | | us | | | | l | fs]; try reflexivity.
  - cbn [cut model_dump represent]. rewrite Z.quot_mul by discriminate. reflexivity.
  - cbn [cut model_dump represent]. f_equal. rewrite !map_map.
    induction l as [| a l IHl]; cbn [map]; [reflexivity |]. now rewrite IH, IHl.
  - cbn [cut model_dump represent]. f_equal.
    induction fs as [| [n [g v]] fs IHf]; cbn [map flat_map]; [reflexivity |].
    rewrite !map_app, IHf. f_equal. destruct (minimal && negb g); cbn [map]; [reflexivity |]. now rewrite IH.
Qed.

Lemma whole_cut p : whole (cut p).
Proof.
  revert p. fix IH 1. intros [| | | | | | us | | | | l | fs]; try exact I.
  - cbn. apply Z.divide_factor_r.
  - cbn. induction l as [| a l IHl]; cbn; [exact I |]. split; [apply IH | exact IHl].
  - cbn. induction fs as [| [n [g v]] fs IHf]; cbn; [exact I |]. split; [apply IH | exact IHf].
Qed.

Lemma represent_app l1 l2 : represent (YMap (l1 ++ l2)) =
  match represent (YMap l1), represent (YMap l2) with YMap a, YMap b => YMap (a ++ b) | y, _ => y end.
Proof. cbn [represent]. now rewrite map_app. Qed.

Lemma wrap_same version minimal n c t l m m' : represent (YMap m) = represent (YMap m') ->
  represent (wrap_doc version minimal (mkWrap n c t l m)) = represent (wrap_doc version minimal (mkWrap n c t l m')).
Proof.
  intro E. unfold wrap_doc. cbn [w_datatype w_comment w_created w_parameters].
  repeat rewrite represent_app.
  assert (X : represent (YMap [("parameters"%string, YMap m)]) = represent (YMap [("parameters"%string, YMap m')])).
  { cbn [represent map] in *. injection E as E. now rewrite E. }
  now rewrite X.
Qed.

Theorem cut_back version now d t p file comment minimal d' out fresh version' now' :
  to_file version now d t p file comment minimal = Ok (d', out) ->
  distinct t -> has now' t (cut p) -> calm (doc true minimal) t (cut p) ->
  (minimal = true -> known t (cut p)) ->
  from_file fresh version' now' d' t out = Ok (back minimal (cut p)).
Proof.
  intros H D Hp C K.
  assert (X : exists m, to_file version now d t (cut p) file comment minimal = Ok (m, out)
    /\ find_doc m out = find_doc d' out).
  { pose proof H as H0. apply to_file_obj in H0 as (fs & m & -> & Hm & Hc & -> & ->).
    unfold to_file. pose proof (represent_cut minimal (PObj fs)) as R.
    rewrite Hm in R. destruct (model_dump minimal (cut (PObj fs))) eqn:Em; try discriminate Em.
    rewrite Hc. cbn [bind]. eexists. split; [reflexivity |]. cbn [find_doc]. rewrite path_refl. f_equal.
    now apply wrap_same. }
  destruct X as (m & X & E).
  pose proof (read_back version now d t (cut p) file comment minimal m out fresh version' now' X D Hp (whole_cut p) C K) as B.
  unfold from_file in *. now rewrite <- E.
Qed.

Fixpoint represent_portable (y : yval) : portable (represent y).
Proof.
  destruct y as [| | | | | | l | m | | | |]; try exact I.
  - cbn [represent portable]. induction l as [| v l IH]; cbn; [exact I |].
    split; [apply represent_portable | exact IH].
  - cbn [represent portable]. induction m as [| [k v] m IH]; cbn; [exact I |].
    split; [apply represent_portable | exact IH].
Qed.

Theorem document_portable version now d t p file comment minimal d' out :
  to_file version now d t p file comment minimal = Ok (d', out) ->
  exists doc, find_doc d' out = Some doc /\ portable doc.
Proof.
  unfold to_file. destruct (model_dump minimal p) as [| | | | | | | m | | | |]; try (intro H; discriminate H).
  destruct (match comment with Some c => safe_str c | None => true end); [| intro H; discriminate H].
  cbv zeta. match goal with |- context [represent ?y] => pose proof (represent_portable y) as P; revert P; generalize (represent y) end.
  intros doc P [= <- <-]. exists doc. split; [cbn [find_doc]; now rewrite path_refl | exact P].
Qed.

(** ** What the fields get *)

Lemma assoc_each {A} (f : string * A -> res (string * A)) m : forall m' n y,
  (forall k a k' a', f (k, a) = Ok (k', a') -> k' = k) -> each f m = Ok m' -> assoc n m = Some y ->
  exists y', f (n, y) = Ok (n, y') /\ assoc n m' = Some y'.
Proof.
  induction m as [| [k a] m IH]; intros m' n y K E H; [discriminate H |]. cbn [each] in E.
  destruct (f (k, a)) as [[k' a'] |] eqn:F; [| discriminate E]. cbn [bind] in E.
  destruct (each f m) as [r |] eqn:R; [| discriminate E]. injection E as <-.
  pose proof (K _ _ _ _ F) as ->. cbn [assoc] in *. destruct (String.eqb_spec k n) as [-> | N].
  - injection H as <-. now exists a'.
  - exact (IH r n y K eq_refl H).
Qed.

Lemma given_fields fresh now m fields : forall fs n t d y, NoDup (map fst fields) ->
  each (fun f => match f with (n, (t', d)) =>
          match assoc n m with
          | Some y' => let* v := validate fresh now t' y' in Ok (n, (true, v))
          | None => match d with
                    | Required => Err ValueError
                    | Const v => Ok (n, (false, v))
                    | Factory => Ok (n, (false, fresh n))
                    end
          end end) fields = Ok fs ->
  In (n, (t, d)) fields -> assoc n m = Some y ->
  exists v, validate fresh now t y = Ok v /\ attr n (PObj fs) = Some v.
Proof.
  induction fields as [| [k [t' d']] fields IH]; intros fs n t d y N E H Y; [destruct H |]. cbn [each] in E.
  inversion N as [| ? ? N1 N2]; subst.
  match type of E with (let* _ := ?X in _) = _ => destruct X as [[k' [b v]] |] eqn:F end; [| discriminate E].
  cbn [bind] in E. match type of E with (let* _ := ?X in _) = _ => destruct X as [r |] eqn:R end; [| discriminate E].
  injection E as <-.
  assert (Ek : k' = k).
  { destruct (assoc k m); [destruct (validate fresh now t' _); [| discriminate F] | destruct d'; try discriminate F];
      cbn [bind] in F; now injection F. }
  subst k'. destruct H as [H | H].
  - injection H as -> -> ->. rewrite Y in F. destruct (validate fresh now t y) as [v' |]; [| discriminate F].
    cbn [bind] in F. injection F as <- <-. exists v'. split; [reflexivity |]. cbn. now rewrite String.eqb_refl.
  - destruct (IH r n t d y N2 eq_refl H Y) as (v' & V & A). exists v'. split; [exact V |].
    cbn [attr assoc] in *. destruct (String.eqb_spec k n) as [-> | _]; [| exact A].
    exfalso. apply N1. apply in_map_iff. now exists (n, (t, d)).
Qed.

Theorem given fresh now c pre fields post m m' p n t d y : NoDup (map fst fields) ->
  validate fresh now (TObj c pre fields post) (YMap m) = Ok p -> pre m = Ok m' ->
  In (n, (t, d)) fields -> assoc n m' = Some y ->
  exists v, validate fresh now t y = Ok v /\ attr n p = Some v.
Proof.
  intros N V P H Y. cbn [validate] in V. rewrite P in V. cbn [bind] in V.
  destruct (forallb _ m'); [| discriminate V].
  match type of V with (let* _ := ?X in _) = _ => destruct X as [fs |] eqn:E end; [| discriminate V]. cbn [bind] in V.
  destruct (post now (values fs)); [| discriminate V]. injection V as <-.
  eapply given_fields; eassumption.
Qed.

(** A start given as a number is that instant. *)
Theorem harvest_instant tz iso fresh now m p y us :
  validate fresh now (harvest_task tz iso) (YMap m) = Ok p -> assoc "time_start" m = Some y ->
  (exists z, y = YInt z /\ us = z * 1000000) \/ (exists q, y = YFloat q /\ us = qround (q * 1000000)) ->
  exists wall, attr "time_start" p = Some (PDate wall (Some tz)) /\ wall - tz * 60000000 = us.
Proof.
  intros V A Y. unfold harvest_task in V.
  destruct (pre_correction tz iso m) as [m' |] eqn:P.
  2: { cbn [validate] in V. rewrite P in V. discriminate V. }
  assert (K : exists y', assoc "time_start" m' = Some y' /\ y' = YDate (us + tz * 60000000) (Some tz)).
  { unfold pre_correction in P. apply assoc_each with (n := "time_start"%string) (y := y) in P as (y' & F & A'); [| | exact A].
    - exists y'. split; [exact A' |]. cbn in F. destruct Y as [(z & -> & ->) | (q & -> & ->)]; now injection F as <-.
    - intros k a k' a' F. destruct (k =? "time_start")%string; [| now injection F].
      destruct a; try discriminate F; try (now injection F).
      destruct (iso s) as [[? ?] |]; [now injection F | discriminate F]. }
  destruct K as (y' & A' & ->).
  eapply given with (n := "time_start"%string) (t := TOpt TDate) in V; [| | exact P | cbn; tauto | exact A'].
  - destruct V as (v & Ev & Ea). cbn in Ev. injection Ev as <-. exists (us + tz * 60000000). split; [exact Ea | lia].
  - cbn. repeat constructor; cbn; intuition discriminate.
Qed.

(** Power is traced for no negative time, and something remains to be traced. *)
Theorem tracing_sensible fresh now y p : validate fresh now power_tracing y = Ok p ->
  (forall us, attr "delay" p = Some (PTime us) -> 0 <= us) /\
  (forall us, attr "duration" p = Some (PTime us) -> 0 <= us) /\
  (attr "discard_current" p = Some (PBool true) -> attr "discard_voltage" p = Some (PBool true) -> False) /\
  attr "calculate_power" p <> Some (PBool true).
Proof.
  unfold power_tracing. destruct y as [| | | | | | | m | | | |]; try (intro V; discriminate V).
  cbn [validate]. unfold no_pre at 1. cbn [bind]. destruct (forallb _ m); [| intro V; discriminate V].
  match goal with |- (let* _ := ?X in _) = _ -> _ => destruct X as [fs |] end; [| intro V; discriminate V]. cbn [bind].
  rewrite !attr_values.
  destruct (attr "delay" (PObj fs)) as [v1 |] eqn:E1, (attr "duration" (PObj fs)) as [v2 |] eqn:E2,
    (attr "discard_current" (PObj fs)) as [v3 |] eqn:E3, (attr "discard_voltage" (PObj fs)) as [v4 |] eqn:E4,
    (attr "calculate_power" (PObj fs)) as [v5 |] eqn:E5; cbn [option_map].
  all: match goal with |- (guard ?c or _ ;; _) = _ -> _ => destruct c eqn:C end; [| intro V; discriminate V].
  all: intros [= <-]; rewrite E1, E2, E3, E4, E5; apply andb_prop in C as [C C4]; apply andb_prop in C as [C C3];
    apply andb_prop in C as [C1 C2]; repeat split; intros.
  all: try discriminate; repeat match goal with H : Some _ = Some _ |- _ => injection H as -> end; cbn in *;
    try (apply Z.leb_le; assumption); try discriminate; intro; try discriminate.
  all: match goal with H : Some _ = Some _ |- _ => injection H as -> end; discriminate.
Qed.
