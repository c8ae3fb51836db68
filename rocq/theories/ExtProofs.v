(** Proofs about extracted tables, logs and metadata. *)
From Coq Require Import String Ascii Lia.
From Verif Require Import PyBase FileModel FileSpec FileSysProofs UartModel FwModel StoModel StoProofs RepModel RepSpec RepProofs ExtModel ExtSpec.
From Verif Require DsModel.
From Coq Require Import QArith.
Open Scope Z_scope.

(** ** Replacing commas *)

Lemma concat_cons sep a l : l <> [] -> String.concat sep (a :: l) = (a ++ sep ++ String.concat sep l)%string.
Proof. destruct l; [contradiction|reflexivity]. Qed.

Lemma append_nil_r (s : string) : (s ++ "")%string = s.
Proof. induction s as [|c s IH]; cbn; [reflexivity|now rewrite IH]. Qed.

Lemma commas_replaced_n sep n : forall s, (String.length s <= n)%nat -> replaced sep s (commas sep s).
Proof.
  induction n as [|n IH]; intros s L.
  { destruct s; [|cbn in L; lia]. exists [EmptyString]. split; [discriminate|]. split; [reflexivity|]. split; [reflexivity|].
    constructor; [|constructor]. intros (x & y & E). destruct x; discriminate E. }
  destruct s as [|c s].
  { apply IH. cbn; lia. }
  destruct s as [|c' s].
  { exists [String c EmptyString]. split; [discriminate|]. split; [reflexivity|]. split; [reflexivity|].
    constructor; [|constructor]. intros (x & y & E). destruct x as [|? [|? x]]; discriminate E. }
  change (commas sep (String c (String c' s))) with
    (if Ascii.eqb c "," && Ascii.eqb c' " " then (sep ++ commas sep s)%string else String c (commas sep (String c' s))).
  destruct (Ascii.eqb_spec c ",") as [->|N]; [destruct (Ascii.eqb_spec c' " ") as [->|N']|]; cbn [andb].
  - destruct (IH s) as (parts & Hn & E1 & E2 & F); [cbn in L; lia|].
    exists (EmptyString :: parts). split; [discriminate|]. rewrite !concat_cons by exact Hn.
    split; [cbn; now rewrite E1|]. split; [cbn; now rewrite E2|]. constructor; [|exact F].
    intros (x & y & E). destruct x; discriminate E.
  - destruct (IH (String c' s)) as (parts & Hn & E1 & E2 & F); [cbn in L |- *; lia|].
    destruct parts as [|p parts]; [contradiction|]. exists (String "," p :: parts). split; [discriminate|].
    split; [|split].
    + destruct parts as [|p' parts]; [cbn in E1 |- *; now rewrite E1|]. rewrite concat_cons in E1 |- * by discriminate.
      cbn [append]. now rewrite E1.
    + destruct parts as [|p' parts]; [cbn in E2 |- *; now rewrite E2|]. rewrite concat_cons in E2 |- * by discriminate.
      cbn [append]. now rewrite E2.
    + inversion F as [|? ? F1 F2]; subst. constructor; [|exact F2]. intros (x & y & E). destruct x as [|x0 x].
      * cbn in E. injection E as E. subst p. destruct parts as [|p' parts].
        -- cbn in E1. injection E1 as E1 _. congruence.
        -- rewrite concat_cons in E1 by discriminate. cbn in E1. injection E1 as E1 _. congruence.
      * injection E as _ E. apply F1. now exists x, y.
  - destruct (IH (String c' s)) as (parts & Hn & E1 & E2 & F); [cbn in L |- *; lia|].
    destruct parts as [|p parts]; [contradiction|]. exists (String c p :: parts). split; [discriminate|].
    split; [|split].
    + destruct parts as [|p' parts]; [cbn in E1 |- *; now rewrite E1|]. rewrite concat_cons in E1 |- * by discriminate.
      cbn [append]. now rewrite E1.
    + destruct parts as [|p' parts]; [cbn in E2 |- *; now rewrite E2|]. rewrite concat_cons in E2 |- * by discriminate.
      cbn [append]. now rewrite E2.
    + inversion F as [|? ? F1 F2]; subst. constructor; [|exact F2]. intros (x & y & E). destruct x as [|x0 x].
      * cbn in E. injection E as E _. congruence.
      * injection E as _ E. apply F1. now exists x, y.
Qed.
Lemma commas_replaced sep s : replaced sep s (commas sep s).
Proof. exact (commas_replaced_n sep (String.length s) s (Nat.le_refl _)). Qed.

(** ** The separator *)

Lemma blank_spec c : blank c = true <-> blank_char c.
Proof.
  unfold blank, blank_char. cbn zeta. rewrite orb_true_iff, !andb_true_iff, !Nat.leb_le. tauto.
Qed.
Lemma text_list s u : list_ascii_of_string (s ++ u) = list_ascii_of_string s ++ list_ascii_of_string u.
Proof. induction s as [|z s IH]; cbn; [reflexivity|now rewrite IH]. Qed.
Lemma lstrip_app l m : (forall c, In c l -> blank_char c) -> (forall c m', m = c :: m' -> ~ blank_char c) -> lstrip_blank (l ++ m) = m.
Proof.
  intros L M. induction l as [|c l IH]; cbn [app lstrip_blank].
  - destruct m as [|c m]; [reflexivity|]. cbn [lstrip_blank]. destruct (blank c) eqn:E; [|reflexivity].
    apply blank_spec in E. elim (M c m eq_refl E).
  - rewrite (proj2 (blank_spec c) (L c (or_introl eq_refl))). apply IH. intros c' H. apply L. now right.
Qed.
Lemma lstrip_split m : exists l, m = l ++ lstrip_blank m /\ (forall c, In c l -> blank_char c) /\
  forall c m', lstrip_blank m = c :: m' -> ~ blank_char c.
Proof.
  induction m as [|c m (l & E & L & H)]; [exists []; split; [reflexivity|]; split; [intros c []|discriminate]|].
  cbn [lstrip_blank]. destruct (blank c) eqn:B.
  - exists (c :: l). split; [cbn; now rewrite <- E|]. split; [|exact H]. intros c' [<-|I]; [now apply blank_spec|now apply L].
  - exists []. split; [reflexivity|]. split; [intros c' []|]. intros c' m' E'. injection E' as <- _. intros K.
    apply blank_spec in K. congruence.
Qed.

Lemma padded_ljust m : padded m (ljust2 m).
Proof.
  destruct m as [|c [|c' m]]; [left; now split|right; left; now exists c|right; right]. split; [cbn; lia|reflexivity].
Qed.
Lemma padded_unique m u : padded m u -> u = ljust2 m.
Proof.
  intros [[-> ->]|[(c & -> & ->)|[L ->]]]; [reflexivity|reflexivity|].
  destruct m as [|c [|c' m]]; cbn in L; [lia|lia|reflexivity].
Qed.

Lemma strip_middle l m r : all_blank l -> all_blank r ->
  (forall c m', m = String c m' -> ~ blank_char c) -> (forall c m', m = (m' ++ String c "")%string -> ~ blank_char c) ->
  strip_blank (l ++ m ++ r) = m.
Proof.
  intros L R H1 H2. unfold strip_blank. rewrite !text_list.
  destruct m as [|c m].
  - cbn [list_ascii_of_string app].
    rewrite <- (app_nil_r (list_ascii_of_string l ++ list_ascii_of_string r)).
    rewrite lstrip_app; [reflexivity| |discriminate]. intros c I. apply in_app_iff in I as [I|I]; [now apply L|now apply R].
  - rewrite lstrip_app; [|exact L|cbn [list_ascii_of_string app]; intros c' m' E; injection E as <- _; exact (H1 c m eq_refl)].
    rewrite rev_app_distr, lstrip_app.
    + rewrite rev_involutive. apply string_of_list_ascii_of_string.
    + intros c' I. apply in_rev in I. now apply R.
    + intros c' m' E. apply (H2 c' (string_of_list_ascii (rev m'))).
      apply (f_equal (@rev ascii)) in E. rewrite rev_involutive in E. cbn [rev] in E.
      rewrite <- (string_of_list_ascii_of_string (String c m)), E. clear.
      induction (rev m') as [|x l IH]; cbn; [reflexivity|now rewrite IH].
Qed.

Theorem separator_spec s u : csv_sep s = u <-> separator s u.
Proof.
  unfold csv_sep. split.
  - intros <-. destruct (lstrip_split (list_ascii_of_string s)) as (l & E & L & H1).
    set (k := lstrip_blank (list_ascii_of_string s)) in *. destruct (lstrip_split (rev k)) as (r & E2 & R & H2).
    set (j := lstrip_blank (rev k)) in *.
    assert (Ek : k = rev j ++ rev r) by (rewrite <- rev_app_distr, <- E2; symmetry; apply rev_involutive).
    exists (string_of_list_ascii l), (string_of_list_ascii (rev j)), (string_of_list_ascii (rev r)).
    split; [|split; [|split; [|split; [|split]]]].
    + rewrite <- (string_of_list_ascii_of_string s). rewrite E, Ek. clear.
      induction l as [|x l IH]; cbn; [|now rewrite IH]. induction (rev j) as [|x m IH]; cbn; [reflexivity|now rewrite IH].
    + intros c I. rewrite list_ascii_of_string_of_list_ascii in I. exact (L c I).
    + intros c I. rewrite list_ascii_of_string_of_list_ascii in I. apply in_rev in I. exact (R c I).
    + intros c m' E'. destruct (rev j) as [|c0 j'] eqn:Ej; [discriminate E'|]. cbn in E'. injection E' as <- _.
      apply (H1 c0 (j' ++ rev r)). rewrite Ek. reflexivity.
    + intros c m' E'. apply (f_equal list_ascii_of_string) in E'. rewrite list_ascii_of_string_of_list_ascii, text_list in E'.
      apply (f_equal (@rev ascii)) in E'. rewrite rev_involutive, rev_app_distr in E'. exact (H2 c _ E').
    + unfold strip_blank. fold k. fold j. apply padded_ljust.
  - intros (l & m & r & -> & L & R & H1 & H2 & P). rewrite (strip_middle l m r L R H1 H2). symmetry. now apply padded_unique.
Qed.

(** ** Tables *)

Section Text.
Variables (clock : Q -> string) (str : item -> string).

Lemma datasets_columns g : datasets g = columns g.
Proof.
  unfold datasets, columns. induction (lg_cols g) as [|[n [c|]] l IH]; cbn [fold_right flat_map snd app]; [reflexivity| |exact IH].
  now rewrite IH.
Qed.

Lemma item_shown sep raw c x : (raw = false -> dc_gain c <> None /\ dc_offset c <> None) ->
  (raw = false -> forall s, x <> IText s) -> exists t, csv_item str sep raw c x = Ok t /\ shown str sep raw c x t.
Proof.
  intros HC HT. unfold csv_item, shown, physical. destruct raw.
  - destruct x as [v|l|s].
    + eexists. split; [reflexivity|]. now exists v.
    + eexists. split; [reflexivity|]. exists l. split; [|reflexivity]. clear. induction l; constructor; auto.
    + eexists. split; [reflexivity|]. now split.
  - destruct (HC eq_refl) as [Hg Ho]. destruct (dc_gain c) as [g|]; [|contradiction]. destruct (dc_offset c) as [o|]; [|contradiction].
    destruct x as [v|l|s].
    + eexists. split; [reflexivity|]. eexists. now split.
    + eexists. split; [reflexivity|]. exists (map (fun v => (v * g + o)%Q) l). rewrite map_map. split; [|reflexivity].
      clear. induction l; constructor; auto.
    + elim (HT eq_refl s eq_refl).
Qed.

Lemma cells_ok sep raw idx cols :
  Forall (fun c => (raw = false -> dc_gain c <> None /\ dc_offset c <> None) /\
     exists x, nth_error (dc_val c) idx = Some (Ok x) /\ (raw = false -> forall s, x <> IText s)) cols ->
  exists ts, Forall2 (fun c t => exists x, nth_error (dc_val c) idx = Some (Ok x) /\ shown str sep raw c x t) cols ts /\
    csv_cells str sep raw idx cols = (fold_right (fun t s => (sep ++ t ++ s)%string) EmptyString ts, Ok tt).
Proof.
  induction 1 as [|c cols (HC & x & Hx & HT) _ (ts & F & E)]; [exists []; now split|].
  destruct (item_shown sep raw c x HC HT) as (t & E1 & S1). exists (t :: ts). split.
  - constructor; [now exists x|exact F].
  - cbn [csv_cells]. rewrite Hx. cbn [bind]. rewrite E1, E. reflexivity.
Qed.

Lemma concat_fold sep a ts :
  String.concat sep (a :: ts) = (a ++ fold_right (fun t s => (sep ++ t ++ s)%string) EmptyString ts)%string.
Proof.
  revert a. induction ts as [|t ts IH]; intros a; [cbn; now rewrite append_nil_r|].
  rewrite concat_cons by discriminate. rewrite IH. reflexivity.
Qed.

Lemma lines_ok sep raw gain cols times : forall idx,
  Forall (fun c => (raw = false -> dc_gain c <> None /\ dc_offset c <> None) /\
     forall k, (k < List.length times)%nat -> exists x, nth_error (dc_val c) (idx + k) = Some (Ok x) /\ (raw = false -> forall s, x <> IText s)) cols ->
  exists lines, List.length lines = List.length times /\
    (forall k t, nth_error times k = Some t -> exists ts,
       Forall2 (fun c t => exists x, nth_error (dc_val c) (idx + k) = Some (Ok x) /\ shown str sep raw c x t) cols ts /\
       nth_error lines k = Some (String.concat sep (clock (inject_Z t * gain) :: ts))) /\
    csv_lines clock str sep raw gain cols idx times
      = (fold_right (fun l s => ((l ++ newline) ++ s)%string) EmptyString lines, Ok tt).
Proof.
  induction times as [|t times IH]; intros idx F.
  - exists []. split; [reflexivity|]. split; [|reflexivity]. intros [|k] t H; discriminate H.
  - destruct (cells_ok sep raw idx cols) as (ts & F0 & E0).
    { eapply Forall_impl; [|exact F]. intros c [HC HX]. split; [exact HC|]. destruct (HX 0%nat) as (x & Hx & HT); [cbn; lia|].
      rewrite Nat.add_0_r in Hx. now exists x. }
    destruct (IH (S idx)) as (lines & L & G & E).
    { eapply Forall_impl; [|exact F]. intros c [HC HX]. split; [exact HC|]. intros k Hk.
      destruct (HX (S k)) as (x & Hx & HT); [cbn; lia|]. rewrite Nat.add_succ_r in Hx. now exists x. }
    exists (String.concat sep (clock (inject_Z t * gain) :: ts) :: lines). split; [cbn; now rewrite L|]. split.
    + intros [|k] t' H.
      * cbn in H. injection H as <-. exists ts. rewrite Nat.add_0_r. now split.
      * cbn [nth_error] in H |- *. rewrite Nat.add_succ_r. exact (G k t' H).
    + cbn [csv_lines fold_right]. rewrite E0, E. f_equal. rewrite concat_fold, !append_assoc'. reflexivity.
Qed.

Lemma collect_some (l : list (option string)) : Forall (fun o => o <> None) l ->
  exists r, DsModel.collect (map opt l) = Ok r /\ Forall2 (fun o s => o = Some s) l r.
Proof.
  induction 1 as [|o l H _ (r & E & F)]; [exists []; split; [reflexivity|constructor]|].
  destruct o as [s|]; [|contradiction]. exists (s :: r). cbn [map DsModel.collect opt bind]. rewrite E.
  split; [reflexivity|]. now constructor.
Qed.

Lemma text_of_lines (l : list string) :
  String.concat "" (map (fun l => (l ++ newline)%string) l) = fold_right (fun l s => ((l ++ newline) ++ s)%string) EmptyString l.
Proof. rewrite concat_empty. induction l as [|a l IH]; cbn; [reflexivity|now rewrite IH]. Qed.

(** What save_csv does with a group that can be shown, for any way of choosing the path. *)
Lemma table_saved other d file name g sep raw : filled g -> tabular raw g -> no_slash (strip_slash name) ->
  other (table_file file (strip_slash name)) = false ->
  exists d' n, save_csv clock str other d file name g sep raw = (d', Ok n) /\
  (exists t, is_table clock str (csv_sep sep) raw g t /\
     find_text d' (table_file file (strip_slash name)) = kept_or (find_text d (table_file file (strip_slash name))) t) /\
  (forall q, q <> table_file file (strip_slash name) -> find_text d' q = find_text d q).
Proof.
  intros (desc & tg & t0 & ts & E) HT N Ho. destruct (HT desc tg (t0 :: ts) E ltac:(discriminate)) as [Hd Hc].
  destruct (collect_some (desc :: map dc_desc (columns g))) as (header & Eh & Fh).
  { constructor; [exact Hd|]. apply Forall_map. eapply Forall_impl; [|exact Hc]. now intros c [H _]. }
  destruct (lines_ok (csv_sep sep) raw (match tg with Some x => x | None => 1 # 1000000000 end) (columns g) (t0 :: ts) 0)
    as (lines & L & G & El).
  { eapply Forall_impl; [|exact Hc]. intros c (_ & H1 & H2). split; [exact H1|exact H2]. }
  assert (T : is_table clock str (csv_sep sep) raw g
    (String.concat (csv_sep sep) (map (commas (csv_sep sep)) header) ++ newline ++
     fold_right (fun l s => ((l ++ newline) ++ s)%string) EmptyString lines)%string).
  { exists desc, tg, (t0 :: ts), (map (commas (csv_sep sep)) header), lines. split; [exact E|]. split.
    - clear -Fh. induction Fh as [|o s l r -> F IH]; constructor; [|exact IH]. exists s. split; [reflexivity|apply commas_replaced].
    - split; [exact L|]. split; [exact G|]. rewrite text_of_lines. cbn [fold_right]. rewrite append_assoc'. reflexivity. }
  unfold save_csv. rewrite E, datasets_columns.
  rewrite (suffixed_ok file "." (strip_slash name) ".csv" eq_refl eq_refl N).
  change (with_suffix file ("." ++ strip_slash name ++ ".csv")) with (table_file file (strip_slash name)).
  rewrite Ho. destruct (find_text d (table_file file (strip_slash name))) as [s|] eqn:Es.
  - exists d, 0. split; [reflexivity|]. split; [|reflexivity]. rewrite Es. eexists. split; [exact T|reflexivity].
  - rewrite Eh. cbn zeta. rewrite El. cbn [bind]. eexists _, _. split; [reflexivity|]. split.
    + eexists. split; [exact T|]. apply find_text_hd.
    + intros q Hq. apply find_text_tl. congruence.
Qed.

Lemma not_filled g : ~ filled g -> lg_time g = None \/ exists desc tg, lg_time g = Some (desc, tg, []).
Proof.
  intros H. destruct (lg_time g) as [[[desc tg] [|t ts]]|] eqn:E; [right; now exists desc, tg| |now left].
  elim H. now exists desc, tg, t, ts.
Qed.

Lemma filled_dec g : filled g \/ ~ filled g.
Proof.
  destruct (lg_time g) as [[[desc tg] [|t ts]]|] eqn:E; [right|left|right].
  - intros (? & ? & ? & ? & H). rewrite E in H. discriminate H.
  - now exists desc, tg, t, ts.
  - intros (? & ? & ? & ? & H). rewrite E in H. discriminate H.
Qed.

(** ** Logs *)

Lemma log_cols_text g : Forall (fun c => exists d, snd c = Some d) (lg_cols g) ->
  log_cols str g = map Some (as_text str g).
Proof.
  unfold log_cols, as_text, columns. induction 1 as [|[n c] l [d E] _ IH]; [reflexivity|]. cbn in E. subst c.
  cbn [map flat_map snd option_map app]. rewrite IH. f_equal.
Qed.

Lemma numbers_ok l : Forall (fun r => exists v, r = Ok (INum v)) l -> exists vs, numbers l = Ok vs /\
  List.length vs = List.length l /\ forall idx v, nth_error vs idx = Some v -> nth_error l idx = Some (Ok (INum v)).
Proof.
  induction 1 as [|r l [v ->] _ (vs & E & L & F)].
  - exists []. split; [reflexivity|]. split; [reflexivity|]. intros [|i] v H; discriminate H.
  - exists (v :: vs). cbn [numbers bind]. rewrite E. split; [reflexivity|]. split; [cbn; now rewrite L|].
    intros [|i] v' H; cbn in H |- *; [injection H as <-; reflexivity|exact (F i v' H)].
Qed.

Lemma warn_loop_ok levels msgs times : forall limit idx,
  (idx + List.length times <= List.length levels)%nat ->
  (forall k v, (k < idx + List.length times)%nat -> nth_error levels k = Some v -> (30 <= v)%Q ->
     exists m x, msgs = Some (Some m) /\ nth_error (dc_val m) k = Some (Ok x)) ->
  warn_loop 30 limit idx times levels msgs = Ok tt.
Proof.
  induction times as [|t times IH]; intros limit idx L H; [reflexivity|]. cbn [warn_loop]. cbn [List.length] in L, H.
  destruct (nth_error levels idx) as [lv|] eqn:E; [|apply nth_error_None in E; lia].
  unfold qle. destruct (Qle_bool 30 lv) eqn:Q.
  - destruct (H idx lv) as (m & x & -> & Em); [lia|exact E|now apply Qle_bool_iff|]. rewrite Em.
    destruct limit as [|[|limit]]; try reflexivity. apply IH; [lia|]. intros k v Hk. apply H. lia.
  - apply IH; [lia|]. intros k v Hk. apply H. lia.
Qed.

Lemma warn_group_ok g : warnable g -> warn_group g = Ok tt.
Proof.
  unfold warn_group. intros [->|(c & desc & tg & times & E1 & E2 & L & F & H)]; [reflexivity|].
  rewrite E1. destruct (numbers_ok (dc_val c) F) as (vs & -> & Lv & Fv). cbn [bind].
  destruct (existsb (qle 30) vs); [|reflexivity]. rewrite E2. apply warn_loop_ok; [cbn; lia|].
  intros k v Hk Ev Q. cbn in Hk. exact (H k v Hk (Fv k v Ev) Q).
Qed.

Lemma log_saved_group stamp d file name g : filled g -> logged g -> no_slash (strip_slash name) ->
  exists d' n, save_log stamp d file name (option_map snd (lg_time g)) (log_cols str g) true = (d', Ok n) /\
  (forall desc tg times, lg_time g = Some (desc, tg, times) ->
     find_text d' (logged_file file (strip_slash name))
     = kept_or (find_text d (logged_file file (strip_slash name))) (all_lines stamp 0 times (as_text str g))) /\
  (forall q, q <> logged_file file (strip_slash name) -> find_text d' q = find_text d q).
Proof.
  intros (desc & tg & t0 & ts & E) HL N. specialize (HL desc tg (t0 :: ts) E ltac:(discriminate)).
  rewrite log_cols_text by (eapply Forall_impl; [|exact HL]; intros c (x & H & _); now exists x).
  rewrite E. cbn [option_map snd].
  change (logged_file file (strip_slash name)) with (log_file file name).
  destruct (find_text d (log_file file name)) as [s|] eqn:Es.
  - destruct (save_log stamp d file name (Some (t0 :: ts)) (map Some (as_text str g)) true) as [d' r] eqn:Er.
    destruct (log_kept _ _ _ _ _ _ _ _ _ _ Es Er) as [-> Hr]. exists d, 0. rewrite (Hr N). split; [reflexivity|].
    split; [|reflexivity]. intros. now rewrite Es.
  - destruct (log_saved stamp d file name t0 ts (as_text str g) N Es) as (d' & Ed & Ef & K).
    + unfold as_text. apply Forall_map. apply Forall_forall. intros c Hc. unfold columns in Hc.
      apply in_flat_map in Hc as ([n o] & Hin & Hc). rewrite Forall_forall in HL.
      destruct (HL _ Hin) as (x & Hx & Lx & Fx). cbn [snd] in Hx, Hc. subst o. destruct Hc as [<-|[]].
      rewrite map_length. split; [exact Lx|]. apply Forall_map. eapply Forall_impl; [|exact Fx].
      intros [y|e] Hr e' He; [discriminate He|]. injection He as <-. exact (Hr e eq_refl).
    + exists d', (Z.of_nat (List.length (t0 :: ts))). split; [exact Ed|]. split; [|exact K].
      intros desc' tg' times' E'. injection E' as _ _ <-. rewrite Ef. reflexivity.
Qed.

(** ** One recording *)

Lemma for_names_ok body gs (out : string -> path) (T : lgrp -> string -> Prop) names :
  (forall d n g, In n names -> assoc n gs = Some g -> exists d', body d n g = (d', Ok tt) /\
     (filled g -> exists t, T g t /\ find_text d' (out n) = kept_or (find_text d (out n)) t) /\
     (forall q, q <> out n \/ ~ filled g -> find_text d' q = find_text d q)) ->
  NoDup names -> (forall a b, In a names -> In b names -> out a = out b -> a = b) ->
  forall d, exists d', for_names body gs d names = (d', Ok tt) /\
  (forall n g, In n names -> assoc n gs = Some g -> filled g ->
     exists t, T g t /\ find_text d' (out n) = kept_or (find_text d (out n)) t) /\
  (forall q, (forall n g, In n names -> assoc n gs = Some g -> filled g -> q <> out n) -> find_text d' q = find_text d q).
Proof.
  induction names as [|n names IH]; intros B N I d; cbn [for_names].
  - exists d. split; [reflexivity|]. split; [intros n g []|reflexivity].
  - inversion N as [|? ? N1 N2]; subst.
    assert (B' : forall d n' g, In n' names -> assoc n' gs = Some g -> exists d', body d n' g = (d', Ok tt) /\
     (filled g -> exists t, T g t /\ find_text d' (out n') = kept_or (find_text d (out n')) t) /\
     (forall q, q <> out n' \/ ~ filled g -> find_text d' q = find_text d q)) by (intros; apply B; [now right|assumption]).
    specialize (IH B' N2 (fun a b Ha Hb => I a b (or_intror Ha) (or_intror Hb))).
    destruct (assoc n gs) as [g|] eqn:E.
    + destruct (B d n g (or_introl eq_refl) E) as (d1 & -> & W1 & K1). destruct (IH d1) as (d' & -> & W2 & K2).
      exists d'. split; [reflexivity|]. split.
      * intros n' g' [<-|Hn] E' Fl.
        -- rewrite E in E'. injection E' as <-. destruct (W1 Fl) as (t & Ht & Et). exists t. split; [exact Ht|].
           rewrite K2; [exact Et|]. intros n' g' Hn' _ _ Eo. apply I in Eo; [|now left|now right]. subst n'. contradiction.
        -- destruct (W2 n' g' Hn E' Fl) as (t & Ht & Et). exists t. split; [exact Ht|]. rewrite Et, K1; [reflexivity|].
           left. intros Eo. apply I in Eo; [|now right|now left]. subst n'. contradiction.
      * intros q Hq. rewrite K2, K1; [reflexivity| |].
        -- destruct (filled_dec g) as [Fl|Fl]; [left; exact (Hq n g (or_introl eq_refl) E Fl)|now right].
        -- intros n' g' Hn'. apply Hq. now right.
    + destruct (IH d) as (d' & -> & W2 & K2). exists d'. split; [reflexivity|]. split.
      * intros n' g' [<-|Hn] E' Fl; [rewrite E in E'; discriminate E'|exact (W2 n' g' Hn E' Fl)].
      * intros q Hq. apply K2. intros n' g' Hn'. apply Hq. now right.
Qed.

Lemma names_stripped n : In n (tables ++ logs) -> strip_slash ("/" ++ n) = n /\ no_slash n /\ no_dot n.
Proof.
  intros H. cbn in H. repeat (destruct H as [<-|H]; [repeat split; discriminate|]). destruct H.
Qed.

Lemma csv_group_ok sep file d n g : In n tables -> tabular false g ->
  exists d', csv_group clock str sep file d n g = (d', Ok tt) /\
     (filled g -> exists t, is_table clock str (csv_sep sep) false g t /\
        find_text d' (table_file file n) = kept_or (find_text d (table_file file n)) t) /\
     (forall q, q <> table_file file n \/ ~ filled g -> find_text d' q = find_text d q).
Proof.
  intros Hn HT. destruct (names_stripped n) as (E & Ns & _); [apply in_app_iff; now left|]. unfold csv_group.
  destruct (filled_dec g) as [Fl|Fl].
  - destruct (table_saved (fun _ => false) d file ("/" ++ n) g sep false Fl HT) as (d' & k & Er & W & K);
      [now rewrite E|reflexivity|]. rewrite Er. rewrite E in W, K. exists d'. split; [reflexivity|]. split; [intros _; exact W|].
    intros q [Hq|Hq]; [exact (K q Hq)|contradiction].
  - assert (Er : save_csv clock str (fun _ => false) d file ("/" ++ n) g sep false = (d, Ok 0)).
    { unfold save_csv. destruct (not_filled g Fl) as [->|(desc & tg & ->)]; reflexivity. }
    rewrite Er. exists d. split; [reflexivity|]. split; [intros; contradiction|reflexivity].
Qed.

Lemma log_group_ok stamp file d n g : In n logs -> logged g -> warnable g ->
  exists d', log_group str stamp file d n g = (d', Ok tt) /\
     (filled g -> exists t, (forall desc tg times, lg_time g = Some (desc, tg, times) -> all_lines stamp 0 times (as_text str g) = t) /\
        find_text d' (logged_file file n) = kept_or (find_text d (logged_file file n)) t) /\
     (forall q, q <> logged_file file n \/ ~ filled g -> find_text d' q = find_text d q).
Proof.
  intros Hn HL HW. destruct (names_stripped n) as (E & Ns & _); [apply in_app_iff; now right|]. unfold log_group.
  rewrite (warn_group_ok g HW). destruct (filled_dec g) as [Fl|Fl].
  - destruct (log_saved_group stamp d file ("/" ++ n) g Fl HL) as (d' & k & Er & W & K); [now rewrite E|].
    rewrite Er. rewrite E in W, K. exists d'. split; [reflexivity|]. split.
    + intros _. destruct Fl as (desc & tg & t0 & ts & Et). exists (all_lines stamp 0 (t0 :: ts) (as_text str g)).
      split; [intros desc' tg' times' E'; rewrite Et in E'; now injection E' as _ _ <-|exact (W _ _ _ Et)].
    + intros q [Hq|Hq]; [exact (K q Hq)|contradiction].
  - assert (Er : save_log stamp d file ("/" ++ n) (option_map snd (lg_time g)) (log_cols str g) true = (d, Ok 0)).
    { unfold save_log. destruct (not_filled g Fl) as [->|(desc & tg & ->)]; reflexivity. }
    rewrite Er. exists d. split; [reflexivity|]. split; [intros; contradiction|reflexivity].
Qed.

(** Names of files. *)
Lemma last_char_differs a b c d x y : (a ++ String c x = b ++ String d y)%string -> x = EmptyString -> y = EmptyString -> c = d.
Proof.
  intros H -> ->. apply (f_equal (fun s => rev (list_ascii_of_string s))) in H.
  assert (A : forall s u, list_ascii_of_string (s ++ u) = list_ascii_of_string s ++ list_ascii_of_string u).
  { intros s u. induction s as [|z s IH]; cbn; [reflexivity|now rewrite IH]. }
  rewrite !A, !rev_app_distr in H. cbn in H. now injection H.
Qed.

Lemma dotted_inj a b x y e : no_dot x -> no_dot y -> (a ++ "." ++ x ++ e = b ++ "." ++ y ++ e)%string -> a = b /\ x = y.
Proof.
  intros N1 N2 H.
  assert (K : (a ++ String "." x = b ++ String "." y)%string).
  { apply (append_inj_r _ _ e). rewrite !append_assoc'. exact H. }
  pose proof (last_dot_app a x N1 0) as L1. pose proof (last_dot_app b y N2 0) as L2.
  rewrite K, L2 in L1. injection L1 as L1. cbn [Nat.add] in L1.
  apply append_split in K as [K1 K2]; [|symmetry; exact L1]. injection K2 as K2. now split.
Qed.

Lemma table_inj f1 f2 a b : no_dot a -> no_dot b -> table_file f1 a = table_file f2 b ->
  (fst f1, stem (snd f1)) = (fst f2, stem (snd f2)) /\ a = b.
Proof. intros N1 N2 H. injection H as H1 H2. apply (dotted_inj _ _ _ _ ".csv" N1 N2) in H2 as [-> ->]. now rewrite H1. Qed.
Lemma logged_inj f1 f2 a b : no_dot a -> no_dot b -> logged_file f1 a = logged_file f2 b ->
  (fst f1, stem (snd f1)) = (fst f2, stem (snd f2)) /\ a = b.
Proof. intros N1 N2 H. injection H as H1 H2. apply (dotted_inj _ _ _ _ ".log" N1 N2) in H2 as [-> ->]. now rewrite H1. Qed.
Lemma yaml_inj f1 f2 : yaml_file f1 = yaml_file f2 -> (fst f1, stem (snd f1)) = (fst f2, stem (snd f2)).
Proof. intros H. injection H as H1 H2. apply append_inj_r in H2. now rewrite H1, H2. Qed.
Lemma yaml_table f1 f2 a : yaml_file f1 <> table_file f2 a.
Proof.
  intros H. injection H as _ H.
  assert (K : ((stem (snd f1) ++ ".yam") ++ "l" = (stem (snd f2) ++ "." ++ a ++ ".cs") ++ "v")%string)
    by (rewrite !append_assoc'; exact H).
  pose proof (last_char_differs _ _ _ _ _ _ K eq_refl eq_refl) as E. discriminate E.
Qed.
Lemma yaml_logged f1 f2 a : yaml_file f1 <> logged_file f2 a.
Proof.
  intros H. injection H as _ H.
  assert (K : ((stem (snd f1) ++ ".yam") ++ "l" = (stem (snd f2) ++ "." ++ a ++ ".lo") ++ "g")%string)
    by (rewrite !append_assoc'; exact H).
  pose proof (last_char_differs _ _ _ _ _ _ K eq_refl eq_refl) as E. discriminate E.
Qed.
Lemma table_logged f1 f2 a b : table_file f1 a <> logged_file f2 b.
Proof.
  intros H. injection H as _ H.
  assert (K : ((stem (snd f1) ++ "." ++ a ++ ".cs") ++ "v" = (stem (snd f2) ++ "." ++ b ++ ".lo") ++ "g")%string)
    by (rewrite !append_assoc'; exact H).
  pose proof (last_char_differs _ _ _ _ _ _ K eq_refl eq_refl) as E. discriminate E.
Qed.

Lemma tables_dot n : In n tables -> no_dot n.
Proof. intros H. apply names_stripped, in_app_iff. now left. Qed.
Lemma logs_dot n : In n logs -> no_dot n.
Proof. intros H. apply names_stripped, in_app_iff. now right. Qed.

Lemma recording_ok dump stamp sep file rec d : intact dump rec ->
  exists d', extract_meta_one clock str dump stamp sep d (file, Ok rec) = (d', Ok tt) /\
  (forall q T, product clock str dump stamp (csv_sep sep) file rec q T ->
     exists t, T t /\ find_text d' q = kept_or (find_text d q) t) /\
  (forall q, (forall T, ~ product clock str dump stamp (csv_sep sep) file rec q T) -> find_text d' q = find_text d q).
Proof.
  intros ((m & Em & Ed) & HT & HL). unfold extract_meta_one. cbn [snd fst].
  assert (M : exists d1, save_metadata dump d file (rc_meta rec) = (d1, Ok tt) /\
    find_text d1 (yaml_file file) = kept_or (find_text d (yaml_file file)) (fst (dump m)) /\
    forall q, q <> yaml_file file -> find_text d1 q = find_text d q).
  { unfold save_metadata. change (with_suffix file ".yaml") with (yaml_file file). rewrite Em.
    destruct (find_text d (yaml_file file)) as [s|] eqn:Es.
    - exists d. split; [reflexivity|]. split; [now rewrite Es|reflexivity].
    - destruct (dump m) as [t r]. cbn in Ed |- *. subst r. eexists. split; [reflexivity|]. split; [apply find_text_hd|].
      intros q Hq. apply find_text_tl. congruence. }
  destruct M as (d1 & -> & W1 & K1).
  destruct (for_names_ok (csv_group clock str sep file) (rc_groups rec) (table_file file)
    (fun g t => is_table clock str (csv_sep sep) false g t) tables) with (d := d1) as (d2 & E2 & W2 & K2).
  { intros d0 n g Hn Hg. exact (csv_group_ok sep file d0 n g Hn (HT n g Hn Hg)). }
  { repeat constructor; cbn; intuition discriminate. }
  { intros a b Ha Hb E. apply table_inj in E; [tauto| |]; now apply tables_dot. }
  change csv_names with tables. rewrite E2.
  destruct (for_names_ok (log_group str stamp file) (rc_groups rec) (logged_file file)
    (fun g t => forall desc tg times, lg_time g = Some (desc, tg, times) -> all_lines stamp 0 times (as_text str g) = t) logs)
    with (d := d2) as (d3 & E3 & W3 & K3).
  { intros d0 n g Hn Hg. destruct (HL n g Hn Hg). now apply log_group_ok. }
  { repeat constructor; cbn; intuition discriminate. }
  { intros a b Ha Hb E. apply logged_inj in E; [tauto| |]; now apply logs_dot. }
  change log_names with logs. rewrite E3. exists d3. split; [reflexivity|]. split.
  - intros q T [m' Em'|k g Hk Hg Fl|k g desc tg times Hk Hg Et Hn].
    + rewrite Em in Em'. injection Em' as <-. exists (fst (dump m)). split; [reflexivity|].
      rewrite K3, K2; [exact W1| |]; intros n g _ _ _; [apply yaml_table|apply yaml_logged].
    + destruct (W2 k g Hk Hg Fl) as (t & Ht & Ew). exists t. split; [exact Ht|]. rewrite K3.
      * rewrite Ew, K1; [reflexivity|]. intros E. symmetry in E. exact (yaml_table _ _ _ E).
      * intros n' g' _ _ _. apply table_logged.
    + assert (Fl : filled g) by (destruct times as [|t0 ts]; [contradiction|]; now exists desc, tg, t0, ts).
      destruct (W3 k g Hk Hg Fl) as (t & Ht & Ew). exists t. split; [exact (Ht _ _ _ Et)|].
      rewrite Ew, K2, K1; [reflexivity| |].
      * intros E. symmetry in E. exact (yaml_logged _ _ _ E).
      * intros n' g' _ _ _ E. symmetry in E. exact (table_logged _ _ _ _ E).
  - intros q H. rewrite K3, K2, K1; [reflexivity| | |].
    + intros ->. exact (H _ (P_meta _ _ _ _ _ _ _ m Em)).
    + intros n g Hn Hg Fl ->. exact (H _ (P_table _ _ _ _ _ _ _ n g Hn Hg Fl)).
    + intros n g Hn Hg (desc & tg & t0 & ts & Et) ->.
      exact (H _ (P_log _ _ _ _ _ _ _ n g desc tg (t0 :: ts) Hn Hg Et ltac:(discriminate))).
Qed.

(** Files of different recordings differ. *)
Lemma product_path dump stamp sep f r q T : product clock str dump stamp sep f r q T ->
  q = yaml_file f \/ (exists k, no_dot k /\ q = table_file f k) \/ (exists k, no_dot k /\ q = logged_file f k).
Proof.
  intros [m E|k g I E F|k g de tg ti I E A B]; [now left| |].
  - right; left. exists k. split; [now apply tables_dot|reflexivity].
  - right; right. exists k. split; [now apply logs_dot|reflexivity].
Qed.
Lemma product_apart dump stamp sep f1 f2 r1 r2 q T1 T2 : product clock str dump stamp sep f1 r1 q T1 ->
  product clock str dump stamp sep f2 r2 q T2 -> (fst f1, stem (snd f1)) = (fst f2, stem (snd f2)).
Proof.
  intros P1 P2. apply product_path in P1, P2.
  destruct P1 as [->|[(k1 & N1 & ->)|(k1 & N1 & ->)]]; destruct P2 as [E|[(k2 & N2 & E)|(k2 & N2 & E)]].
  - now apply yaml_inj.
  - elim (yaml_table _ _ _ E).
  - elim (yaml_logged _ _ _ E).
  - symmetry in E. elim (yaml_table _ _ _ E).
  - now apply table_inj in E.
  - elim (table_logged _ _ _ _ E).
  - symmetry in E. elim (yaml_logged _ _ _ E).
  - symmetry in E. elim (table_logged _ _ _ _ E).
  - now apply logged_inj in E.
Qed.

Theorem meta_extracted dump stamp sep files d :
  Forall (fun f => snd f = Err TypeError \/ exists rec, snd f = Ok rec /\ intact dump rec) files -> apart files ->
  exists d', extract_meta clock str dump stamp sep d files = (d', Ok tt) /\
  (forall file rec q T, In (file, Ok rec) files -> product clock str dump stamp (csv_sep sep) file rec q T ->
     exists t, T t /\ find_text d' q = kept_or (find_text d q) t) /\
  (forall q, (forall file rec T, In (file, Ok rec) files -> ~ product clock str dump stamp (csv_sep sep) file rec q T) ->
     find_text d' q = find_text d q).
Proof.
  intros X A.
  destruct (each_file (extract_meta_one clock str dump stamp sep)
    (fun f q => exists rec T, snd f = Ok rec /\ product clock str dump stamp (csv_sep sep) (fst f) rec q T)
    (fun f q old new => forall rec T, snd f = Ok rec -> product clock str dump stamp (csv_sep sep) (fst f) rec q T ->
       exists t, T t /\ new = kept_or old t) files) with (d := d) as (d' & E & W & K).
  - eapply Forall_impl; [|exact X]. intros [file r] Hx d0. cbn [snd] in Hx. destruct Hx as [->|(rec & -> & HI)].
    + exists d0, (Err TypeError). split; [reflexivity|]. split; [now right|]. split; [|reflexivity].
      intros q (rec & T & E & _). discriminate E.
    + destruct (recording_ok dump stamp sep file rec d0 HI) as (d1 & E1 & W & K). exists d1, (Ok tt).
      split; [exact E1|]. split; [now left|]. split.
      * intros q _ rec' T E' P. injection E' as <-. exact (W q T P).
      * intros q Hq. apply K. intros T P. apply Hq. now exists rec, T.
  - apply (apart_pairs (fun _ => True)); [now apply Forall_forall|exact A|].
    intros f1 f2 _ _ N q (r1 & T1 & _ & P1) (r2 & T2 & _ & P2). apply N. exact (product_apart _ _ _ _ _ _ _ _ _ _ P1 P2).
  - exists d'. split; [exact E|]. split.
    + intros file rec q T Hf P. apply (W (file, Ok rec) q Hf) with (rec := rec); try easy. now exists rec, T.
    + intros q H. apply K. intros [file r] Hf (rec & T & E1 & P). cbn in E1. subst r. exact (H file rec T Hf P).
Qed.

(** ** Nothing is lost, however it ends *)

Lemma keeps_refl d : keeps d d. Proof. now intros q s. Qed.
Lemma keeps_trans a b c : keeps a b -> keeps b c -> keeps a c. Proof. intros H1 H2 q s H. apply H2, H1, H. Qed.
Lemma keeps_new d q t : find_text d q = None -> keeps d ((q, t) :: d).
Proof.
  intros H p s Hp. rewrite find_text_tl; [exact Hp|]. intros ->. rewrite H in Hp. discriminate Hp.
Qed.

Lemma save_csv_keeps other d file name g sep raw d' r : save_csv clock str other d file name g sep raw = (d', r) -> keeps d d'.
Proof.
  unfold save_csv. intros H. destruct (lg_time g) as [[[desc tg] [|t0 ts]]|]; try (injection H as <- _; apply keeps_refl).
  destruct (suffixed file _) as [out|]; [|injection H as <- _; apply keeps_refl].
  destruct (other out); [injection H as <- _; apply keeps_refl|].
  destruct (find_text d out) eqn:E; [injection H as <- _; apply keeps_refl|].
  destruct (DsModel.collect _); [|injection H as <- _; apply keeps_refl]. cbn zeta in H.
  destruct (csv_lines _ _ _ _ _ _ _ _) as [t rr]. injection H as <- _. now apply keeps_new.
Qed.

Lemma save_log_keeps stamp d file name times cols b d' r : save_log stamp d file name times cols b = (d', r) -> keeps d d'.
Proof.
  unfold save_log. intros H. destruct times as [[|t0 ts]|]; try (injection H as <- _; apply keeps_refl).
  destruct (suffixed file _) as [out|]; [|injection H as <- _; apply keeps_refl].
  destruct (find_text d out) eqn:E; [injection H as <- _; apply keeps_refl|].
  destruct (log_rows _ _ _ _ _) as [t rr]. injection H as <- _. now apply keeps_new.
Qed.

Lemma for_names_keeps body gs names : (forall d n g d' r, body d n g = (d', r) -> keeps d d') ->
  forall d d' r, for_names body gs d names = (d', r) -> keeps d d'.
Proof.
  intros B. induction names as [|n names IH]; intros d d' r H; cbn [for_names] in H; [injection H as <- _; apply keeps_refl|].
  destruct (assoc n gs) as [g|]; [|exact (IH _ _ _ H)]. destruct (body d n g) as [d1 [u|e]] eqn:E.
  - exact (keeps_trans _ _ _ (B _ _ _ _ _ E) (IH _ _ _ H)).
  - injection H as <- _. exact (B _ _ _ _ _ E).
Qed.

Theorem meta_keeps dump stamp sep files : forall d d' r,
  extract_meta clock str dump stamp sep d files = (d', r) -> keeps d d'.
Proof.
  assert (O : forall f d d' r, extract_meta_one clock str dump stamp sep d f = (d', r) -> keeps d d').
  { intros f d d' r H. unfold extract_meta_one in H. destruct (snd f) as [rec|e]; [|injection H as <- _; apply keeps_refl].
    assert (M : forall d1 u, save_metadata dump d (fst f) (rc_meta rec) = (d1, u) -> keeps d d1).
    { intros d1 u Hm. unfold save_metadata in Hm. destruct (find_text d _) eqn:E; [injection Hm as <- _; apply keeps_refl|].
      destruct (rc_meta rec) as [m|]; [|injection Hm as <- _; apply keeps_refl]. destruct (dump m) as [t r0].
      injection Hm as <- _. now apply keeps_new. }
    destruct (save_metadata dump d (fst f) (rc_meta rec)) as [d1 [u|e]] eqn:E1; [|injection H as <- _; exact (M _ _ eq_refl)].
    apply (keeps_trans _ _ _ (M _ _ eq_refl)).
    assert (C : forall d n g d' r, csv_group clock str sep (fst f) d n g = (d', r) -> keeps d d').
    { intros d0 n g d0' r0 H0. unfold csv_group in H0. destruct (save_csv _ _ _ _ _ _ _ _ _) as [dx rx] eqn:Ex.
      injection H0 as <- _. exact (save_csv_keeps _ _ _ _ _ _ _ _ _ Ex). }
    assert (L : forall d n g d' r, log_group str stamp (fst f) d n g = (d', r) -> keeps d d').
    { intros d0 n g d0' r0 H0. unfold log_group in H0. destruct (save_log _ _ _ _ _ _ _) as [dx rx] eqn:Ex.
      injection H0 as <- _. exact (save_log_keeps _ _ _ _ _ _ _ _ _ Ex). }
    destruct (for_names (csv_group clock str sep (fst f)) (rc_groups rec) d1 csv_names) as [d2 [u2|e2]] eqn:E2.
    - exact (keeps_trans _ _ _ (for_names_keeps _ _ _ C _ _ _ E2) (for_names_keeps _ _ _ L _ _ _ H)).
    - injection H as <- _. exact (for_names_keeps _ _ _ C _ _ _ E2). }
  unfold extract_meta. induction files as [|f files IH]; intros d d' r H; cbn [for_files] in H; [injection H as <- _; apply keeps_refl|].
  destruct (extract_meta_one clock str dump stamp sep d f) as [d1 [u|e]] eqn:E.
  - exact (keeps_trans _ _ _ (O _ _ _ _ E) (IH _ _ _ H)).
  - destruct e; try (injection H as <- _; exact (O _ _ _ _ E)).
    exact (keeps_trans _ _ _ (O _ _ _ _ E) (IH _ _ _ H)).
Qed.
End Text.
