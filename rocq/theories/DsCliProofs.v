(** Proofs about save_csv and the command line. *)
From Coq Require Import QArith Qabs Qround String Lqa.
From Verif Require Import PyBase UartModel FileModel FileSpec FileSysProofs DsModel DsSpec DsProofs DsFileProofs.
Open Scope Z_scope.

(* ------------------------------------------------------------------ CSV *)

Lemma collect_ok {A B} (f : A -> res B) : forall l ys, collect (map f l) = Ok ys ->
  Forall2 (fun x y => f x = Ok y) l ys.
Proof.
  induction l as [|x l IH]; intros ys H; cbn in H.
  - injection H as <-. constructor.
  - destruct (f x) as [y|] eqn:E; [|discriminate]. cbn in H.
    destruct (collect (map f l)) as [zs|]; [|discriminate]. cbn in H. injection H as <-.
    constructor; auto.
Qed.
Lemma collect_total {A B} (f : A -> res B) : forall l, (forall x, In x l -> exists y, f x = Ok y) ->
  exists ys, collect (map f l) = Ok ys.
Proof.
  induction l as [|x l IH]; intros H; cbn; [eauto|].
  destruct (H x (or_introl eq_refl)) as (y & ->). cbn.
  destruct IH as (ys & ->); [intros z Hz; apply H; right; exact Hz|]. cbn. eauto.
Qed.

Lemma Forall2_length {A B} (P : A -> B -> Prop) l1 l2 : Forall2 P l1 l2 -> List.length l1 = List.length l2.
Proof. induction 1; cbn; congruence. Qed.
Lemma Forall2_impl {A B} (P Q : A -> B -> Prop) l1 l2 : (forall a b, P a b -> Q a b) ->
  Forall2 P l1 l2 -> Forall2 Q l1 l2.
Proof. intros H. induction 1; constructor; auto. Qed.

Lemma scale_calibrated g o x : calibrated g o x (scale g o x).
Proof.
  destruct x as [x|l]; cbn; [reflexivity|].
  induction l; cbn; constructor; auto. reflexivity.
Qed.

Definition col_entry (raw : bool) (idx : nat) (c : column) (y : cell) : Prop :=
  exists x, nth_error (co_val c) idx = Some x /\
    (if raw then y = x
     else y = scale (match co_gain c with Some g => g | None => 1 end)
                    (match co_offset c with Some o => o | None => 1 end) x).

Lemma entry_ok raw idx c y : csv_entry raw idx c = Ok y -> col_entry raw idx c y.
Proof.
  unfold csv_entry, col_entry. destruct (nth_error (co_val c) idx) as [x|]; [|discriminate].
  intros [= <-]. exists x. destruct raw; auto.
Qed.

Lemma combine_seq_nth {A} (l : list A) : forall k idx t, nth_error l idx = Some t ->
  nth_error (combine (seq k (List.length l)) l) idx = Some ((k + idx)%nat, t).
Proof.
  induction l as [|x l IH]; intros k idx t H; [destruct idx; discriminate|].
  destruct idx as [|idx]; cbn in *.
  - injection H as <-. rewrite Nat.add_0_r. reflexivity.
  - rewrite (IH (S k) idx t H). rewrite Nat.add_succ_r. reflexivity.
Qed.
Lemma Forall2_nth {A B} (P : A -> B -> Prop) l1 l2 : Forall2 P l1 l2 -> forall k x,
  nth_error l1 k = Some x -> exists y, nth_error l2 k = Some y /\ P x y.
Proof.
  induction 1 as [|a b l1 l2 Hab Hl IH]; intros [|k] x Hx; cbn in *; try discriminate.
  - injection Hx as <-. eauto.
  - apply IH. exact Hx.
Qed.

Lemma csv_spec g raw header rows n :
  save_csv g false raw = Ok (Some (header, rows), n) ->
  exists desc tg time, cg_time g = Some (desc, tg, time) /\ n = List.length time
    /\ List.length rows = List.length time
    /\ Forall2 (fun d h => d = Some h) (desc :: map co_desc (cg_cols g)) header
    /\ forall idx t, nth_error time idx = Some t -> exists cells,
         nth_error rows idx
           = Some ((inject_Z t * match tg with Some x => x | None => 1 # 1000000000 end)%Q, cells)
         /\ Forall2 (col_entry raw idx) (cg_cols g) cells.
Proof.
  unfold save_csv. destruct (cg_time g) as [[[desc tg] time]|] eqn:E; [|discriminate].
  destruct (List.length time <? 1)%nat; [discriminate|].
  destruct (collect (map opt (desc :: map co_desc (cg_cols g)))) as [h|] eqn:Eh; [|discriminate].
  cbn [bind]. unfold csv_rows.
  match goal with |- context [collect (map ?f ?l)] => destruct (collect (map f l)) as [rs|] eqn:Er end;
    [|discriminate]. cbn [bind].
  intros [= <- <- <-]. exists desc, tg, time.
  apply collect_ok in Eh. apply collect_ok in Er.
  split; [reflexivity|]. split; [reflexivity|]. split; [|split].
  - apply Forall2_length in Er. rewrite <- Er, combine_length, seq_length. lia.
  - eapply Forall2_impl; [|exact Eh]. intros d h0 Hd. destruct d; cbn in Hd; congruence.
  - intros idx t Ht.
    destruct (Forall2_nth _ _ _ Er idx _ (combine_seq_nth time 0 idx t Ht)) as (row & Hrow & Hb).
    cbn in Hb. destruct (collect (map (csv_entry raw idx) (cg_cols g))) as [cells|] eqn:Ec; [|discriminate].
    cbn in Hb. injection Hb as <-. exists cells. split; [exact Hrow|].
    apply collect_ok in Ec. eapply Forall2_impl; [|exact Ec]. intros c y. apply entry_ok.
Qed.

(** Success of the export. *)
Lemma csv_total g raw desc tg time : cg_time g = Some (Some desc, tg, time) -> time <> [] ->
  Forall (fun c => co_desc c <> None /\ (List.length time <= List.length (co_val c))%nat) (cg_cols g) ->
  exists header rows, save_csv g false raw = Ok (Some (header, rows), List.length time).
Proof.
  intros E Hne H. unfold save_csv. rewrite E.
  destruct time as [|t0 time]; [congruence|]. set (tm := t0 :: time) in *.
  replace (List.length tm <? 1)%nat with false by reflexivity.
  rewrite Forall_forall in H.
  destruct (collect_total opt (Some desc :: map co_desc (cg_cols g))) as (h & ->).
  { intros x [<-|Hx]; [cbn; eauto|]. apply in_map_iff in Hx. destruct Hx as (c & <- & Hc).
    destruct (H c Hc) as [H1 _]. destruct (co_desc c); [cbn; eauto|congruence]. }
  cbn [bind]. unfold csv_rows.
  match goal with |- context [collect (map ?f ?l)] => destruct (collect_total f l) as (rs & ->) end.
  { intros [idx t] Hin. apply in_combine_l in Hin as Hl. apply in_seq in Hl.
    destruct (collect_total (csv_entry raw idx) (cg_cols g)) as (cs & ->); [|cbn; eauto].
    intros c Hc. destruct (H c Hc) as [_ H2]. unfold csv_entry.
    destruct (nth_error (co_val c) idx) eqn:En; [eauto|].
    apply nth_error_None in En. lia. }
  cbn [bind]. eauto.
Qed.

(* ------------------------------------------------------------------ validate *)

Lemma pair_from_err p d e : pair_from p d = Err e -> e = ValueError.
Proof. unfold pair_from. destruct (Qle_bool _ 0); intros [=]; congruence. Qed.
Lemma refresh_err c t s e : refresh c t s = Err e -> e = ZeroDivisionError.
Proof.
  unfold refresh. destruct (_ && _); [|discriminate]. destruct (Qeq_bool _ 0); [|discriminate].
  intros [=]; congruence.
Qed.
Lemma opt_err {A} (o : option A) e : opt o = Err e -> e = KeyError.
Proof. destruct o; cbn; [discriminate|]. intros [=]; congruence. Qed.
Lemma reader_init_err f e : reader_init f = Err e ->
  e = KeyError \/ e = ValueError \/ e = ZeroDivisionError.
Proof.
  unfold reader_init. intros H.
  destruct (opt (f_data f)) as [g|x] eqn:E1; cbn [bind] in H;
    [|injection H as <-; apply opt_err in E1; auto].
  destruct (opt (g_time g)) as [t|x] eqn:E2; cbn [bind] in H;
    [|injection H as <-; apply opt_err in E2; auto].
  destruct (opt (g_voltage g)) as [v|x] eqn:E3; cbn [bind] in H;
    [|injection H as <-; apply opt_err in E3; auto].
  destruct (opt (g_current g)) as [i|x] eqn:E4; cbn [bind] in H;
    [|injection H as <-; apply opt_err in E4; auto].
  destruct (pair_from _ i) as [pi|x] eqn:E5; cbn [bind] in H;
    [|injection H as <-; apply pair_from_err in E5; auto].
  destruct (pair_from _ v) as [pv|x] eqn:E6; cbn [bind] in H;
    [|injection H as <-; apply pair_from_err in E6; auto].
  destruct (pair_from _ t) as [pt|x] eqn:E7; cbn [bind] in H;
    [|injection H as <-; apply pair_from_err in E7; auto].
  destruct (refresh _ _ _) as [s|x] eqn:E8; cbn [bind] in H;
    [discriminate|injection H as <-; apply refresh_err in E8; auto].
Qed.

Lemma validate_file_true d p : validate_file d p = Ok true <-> accepted d p.
Proof.
  unfold validate_file, accepted. split.
  - destruct (open_reader d p) as [r|]; [|discriminate]. cbn [bind].
    destruct (check_timediffs r) as [t|] eqn:E; [|discriminate]. cbn [bind]. intros [= H].
    apply andb_true_iff in H. exists r. destruct H as [H1 ->]. auto.
  - intros (r & -> & H1 & H2). cbn [bind]. rewrite H2. cbn [bind]. rewrite H1. reflexivity.
Qed.
Lemma validate_file_type d p : validate_file d p = Err TypeError <-> unreadable d p.
Proof.
  unfold validate_file, unreadable, open_reader. split.
  - destruct (lookup d p) as [[f| |]|]; try reflexivity; try discriminate.
    destruct (reader_init f) as [r|e] eqn:E; cbn [bind].
    + unfold check_timediffs. destruct (data_timediffs _ _ _ _) as [|? [|? ?]]; discriminate.
    + intros [= ->]. apply reader_init_err in E. intuition discriminate.
  - intros ->. reflexivity.
Qed.

Lemma validate_loop_spec d : forall files b,
  validate_loop d files b = Ok true <->
  b = true /\ Forall (fun p => accepted d p \/ unreadable d p) files.
Proof.
  induction files as [|p files IH]; intros b; cbn [validate_loop].
  - split; [intros [= ->]; auto|]. intros [-> _]. reflexivity.
  - pose proof (validate_file_true d p) as T. pose proof (validate_file_type d p) as U.
    destruct (validate_file d p) as [v|e].
    + rewrite IH, andb_true_iff. split.
      * intros [[-> ->] H]. split; [reflexivity|]. constructor; [|exact H]. left. apply T. reflexivity.
      * intros [-> H]. inversion_clear H as [|? ? Hp Hf].
        destruct Hp as [Hp|Hp]; [apply T in Hp; injection Hp as ->; auto|].
        apply U in Hp. discriminate.
    + assert (K : e = TypeError \/ e <> TypeError) by (destruct e; auto; right; discriminate).
      destruct K as [->|K].
      * rewrite IH. split; intros [-> H].
        -- split; [reflexivity|]. constructor; [right; apply U; reflexivity|exact H].
        -- inversion_clear H. auto.
      * replace (match e with TypeError => validate_loop d files b | _ => Err e end)
          with (@Err bool e) by (destruct e; congruence).
        split; [discriminate|]. intros [_ H]. inversion_clear H as [|? ? Hp Hf].
        destruct Hp as [Hp|Hp]; [apply T in Hp; discriminate|]. apply U in Hp. congruence.
Qed.

Lemma validate_zero d p : validate d p = 0 <->
  Forall (fun f => accepted d f \/ unreadable d f) (path_to_flist d p).
Proof.
  unfold validate. pose proof (validate_loop_spec d (path_to_flist d p) true) as H.
  destruct (validate_loop d (path_to_flist d p) true) as [[|]|e].
  - split; [|reflexivity]. intros _. apply H. reflexivity.
  - split; [discriminate|]. intros F. assert (@Ok bool false = Ok true) by (apply H; auto). discriminate.
  - split; [discriminate|]. intros F. assert (@Err bool e = Ok true) by (apply H; auto). discriminate.
Qed.

(* ------------------------------------------------------------------ downsample command *)

Lemma open_preserved d d' p : preserved d d' -> lookup d p <> None -> open_reader d' p = open_reader d p.
Proof.
  intros Hp Hl. unfold open_reader. destruct (lookup d p) as [n|] eqn:E; [|congruence].
  rewrite (Hp _ _ E). reflexivity.
Qed.
Lemma ds_files_preserves fl p r ss es : forall l d d' x,
  ds_files fl d p r ss es l = (d', x) -> preserved d d'.
Proof.
  induction l as [|f l IH]; intros d d' x H; cbn in H.
  - injection H as <- _. apply preserved_refl.
  - destruct (cut_and_downsample fl d p r ss es f) as [d1 [q|e]] eqn:E.
    + apply cut_preserves in E. apply IH in H. eapply preserved_trans; eauto.
    + injection H as <- _. apply cut_preserves in E. exact E.
Qed.

Lemma cli_spec fl ss es sr (P : reader -> list Q -> Prop) (I : option Q -> Prop) :
  forall files d ds d' chosen x,
  I ds ->
  (forall ds p r, In p files -> open_reader d p = Ok r -> I ds ->
     let '(f, l) := ds_choice (st_rate (r_stats r)) ds sr in I f /\ P r l) ->
  (forall p, In p files -> lookup d p <> None) ->
  cli_downsample fl d files ds sr ss es = (d', chosen, x) ->
  preserved d d' /\ Forall (fun c => exists r, open_reader d (fst c) = Ok r /\ P r (snd c)) chosen.
Proof.
  induction files as [|p files IH]; intros d ds d' chosen x HI HP HL H; cbn [cli_downsample] in H.
  - injection H as <- <- _. split; [apply preserved_refl|constructor].
  - destruct (open_reader d p) as [r|e] eqn:Eo.
    + pose proof (HP ds p r (or_introl eq_refl) Eo HI) as Hc.
      destruct (ds_choice (st_rate (r_stats r)) ds sr) as [f l]. destruct Hc as [Hf Hl].
      destruct (ds_files fl d p r ss es l) as [d1 y] eqn:Ef.
      apply ds_files_preserves in Ef.
      assert (HP' : forall ds p r, In p files -> open_reader d1 p = Ok r -> I ds ->
        let '(f, l) := ds_choice (st_rate (r_stats r)) ds sr in I f /\ P r l).
      { intros ds0 p0 r0 Hin Ho. apply (HP ds0 p0); [right; exact Hin|].
        rewrite <- (open_preserved d d1 p0 Ef); [exact Ho|]. apply HL. right; exact Hin. }
      assert (HL' : forall p, In p files -> lookup d1 p <> None).
      { intros p0 Hin. specialize (HL p0 (or_intror Hin)).
        destruct (lookup d p0) as [n|] eqn:En; [|congruence]. rewrite (Ef _ _ En). discriminate. }
      assert (Hgo : forall d2 ch y2, cli_downsample fl d1 files f sr ss es = (d2, ch, y2) ->
        preserved d d2 /\ Forall (fun c => exists r, open_reader d (fst c) = Ok r /\ P r (snd c)) ((p, l) :: ch)).
      { intros d2 ch y2 E2. destruct (IH d1 f d2 ch y2 Hf HP' HL' E2) as [Q1 Q2].
        split; [eapply preserved_trans; eauto|]. constructor; [exists r; auto|].
        assert (Hin : forall c, In c ch -> In (fst c) files).
        { clear - E2. revert d1 f d2 ch y2 E2. induction files as [|p0 fs IHf]; intros d1 f d2 ch y2 E c Hc; cbn [cli_downsample] in E.
          - injection E as _ <- _. destruct Hc.
          - destruct (open_reader d1 p0) as [r0|e0].
            + destruct (ds_choice (st_rate (r_stats r0)) f sr) as [f0 l0].
              destruct (ds_files fl d1 p0 r0 ss es l0) as [d3 [u|e3]].
              * destruct (cli_downsample fl d3 fs f0 sr ss es) as [[d4 c4] y4] eqn:E4.
                injection E as _ <- _. destruct Hc as [<-|Hc]; [left; reflexivity|]. right. eapply IHf; eauto.
              * destruct (cli_downsample fl d3 fs f0 sr ss es) as [[d4 c4] y4] eqn:E4.
                destruct e3; injection E as _ <- _; destruct Hc as [<-|Hc];
                  try (left; reflexivity); try (right; eapply IHf; eauto; fail); destruct Hc.
            + destruct e0; try (injection E as _ <- _; destruct Hc; fail); right; eapply IHf; eauto. }
        rewrite Forall_forall in *. intros c Hc. destruct (Q2 c Hc) as (r1 & Hr1 & HP1).
        exists r1. split; [|exact HP1]. rewrite <- (open_preserved d d1 (fst c) Ef); [exact Hr1|].
        apply HL. right. apply Hin. exact Hc. }
      destruct y as [u|e].
      * destruct (cli_downsample fl d1 files f sr ss es) as [[d2 ch] y2]. injection H as <- <- _.
        eapply Hgo. reflexivity.
      * destruct (cli_downsample fl d1 files f sr ss es) as [[d2 ch] y2].
        destruct e; injection H as <- <- _; try (eapply Hgo; reflexivity);
          (split; [exact Ef|constructor; [exists r; auto|constructor]]).
    + assert (Hgo : forall d2 ch y2, cli_downsample fl d files ds sr ss es = (d2, ch, y2) ->
        preserved d d2 /\ Forall (fun c => exists r, open_reader d (fst c) = Ok r /\ P r (snd c)) ch).
      { intros d2 ch y2 E2. eapply IH; [exact HI| | |exact E2].
        - intros ds0 p0 r0 Hin. apply HP. right; exact Hin.
        - intros p0 Hin. apply HL. right; exact Hin. }
      destruct e; try (injection H as <- <- _; split; [apply preserved_refl|constructor]; fail);
        (eapply Hgo; exact H).
Qed.

Lemma qle_div a b : 1 <= b -> b <= a -> Qle_bool 1 (inject_Z a / inject_Z b) = true.
Proof.
  intros Hb Ha. apply Qle_bool_iff.
  assert (Hp : (0 < inject_Z b)%Q) by (change 0%Q with (inject_Z 0); rewrite <- Zlt_Qlt; lia).
  apply Qle_shift_div_l; [exact Hp|]. rewrite Qmult_1_l. rewrite <- Zle_Qle. exact Ha.
Qed.

Lemma cli_same_rate fl d files sr R ss es d' chosen x :
  1 <= sr -> sr <= R ->
  (forall p, In p files -> lookup d p <> None) ->
  (forall p r, In p files -> open_reader d p = Ok r -> st_rate (r_stats r) = R) ->
  cli_downsample fl d files None (Some sr) ss es = (d', chosen, x) ->
  Forall (fun c => snd c = [inject_Z R / inject_Z sr]%Q) chosen.
Proof.
  intros H1 H2 HL HR H.
  pose proof (cli_spec fl ss es (Some sr) (fun _ l => l = [inject_Z R / inject_Z sr]%Q)
    (fun o => o = None \/ o = Some (inject_Z R / inject_Z sr)%Q) files d None d' chosen x (or_introl eq_refl)) as S.
  destruct S as [_ S]; auto.
  - intros ds p r Hin Ho Hds. rewrite (HR p r Hin Ho). unfold ds_choice.
    replace (1 <=? sr) with true by (symmetry; apply Z.leb_le; lia).
    destruct Hds as [->| ->]; rewrite qle_div by assumption; auto.
  - eapply Forall_impl; [|exact S]. intros c (r & _ & Hc). exact Hc.
Qed.

Lemma cli_first_file fl d p sr ss es d' chosen x :
  1 <= sr -> lookup d p <> None ->
  cli_downsample fl d [p] None (Some sr) ss es = (d', chosen, x) ->
  Forall (fun c => exists r, open_reader d (fst c) = Ok r
    /\ (sr <= st_rate (r_stats r) -> snd c = [inject_Z (st_rate (r_stats r)) / inject_Z sr]%Q)) chosen.
Proof.
  intros H1 HL H. cbn [cli_downsample] in H.
  destruct (open_reader d p) as [r|e] eqn:Eo.
  - destruct (ds_choice (st_rate (r_stats r)) None (Some sr)) as [f l] eqn:Ec.
    unfold ds_choice in Ec. replace (1 <=? sr) with true in Ec by (symmetry; apply Z.leb_le; lia).
    injection Ec as <- <-.
    assert (K : chosen = [(p, if Qle_bool 1 (inject_Z (st_rate (r_stats r)) / inject_Z sr)
                     then [(inject_Z (st_rate (r_stats r)) / inject_Z sr)%Q] else ds_default)]).
    { destruct (ds_files _ _ _ _ _ _ _) as [d1 [u|e]]; [|destruct e]; injection H as _ <- _; reflexivity. }
    subst chosen. constructor; [|constructor]. exists r. split; [exact Eo|]. cbn [snd].
    intros Hle. rewrite qle_div by assumption. reflexivity.
  - destruct e; injection H as _ <- _; constructor.
Qed.

Lemma cli_explicit fl d files sr f ss es d' chosen x :
  (1 <= f)%Q -> (forall p, In p files -> lookup d p <> None) ->
  cli_downsample fl d files (Some f) sr ss es = (d', chosen, x) ->
  preserved d d' /\ Forall (fun c => snd c = [f]) chosen.
Proof.
  intros H1 HL H.
  destruct (cli_spec fl ss es sr (fun _ l => l = [f]) (fun o => o = Some f) files d (Some f) d' chosen x eq_refl)
    as [S0 S]; auto.
  - intros ds p r Hin Ho ->. unfold ds_choice.
    replace (Qle_bool 1 f) with true by (symmetry; apply Qle_bool_iff; exact H1). auto.
  - split; [exact S0|]. eapply Forall_impl; [|exact S]. intros c (r & _ & Hc). exact Hc.
Qed.

(* ------------------------------------------------------------------ files of a path *)

Lemma flist_single d dir name ext f : lookup d (dir, (name ++ ext)%string) = Some (NFile f) ->
  In ext [".h5"; ".H5"]%string -> name <> EmptyString ->
  path_to_flist d (dir, (name ++ ext)%string) = [(dir, (name ++ ext)%string)].
Proof.
  intros H Hext Hn. unfold path_to_flist, is_file. rewrite H. cbn [snd andb].
  assert (Hs : suffix (name ++ ext)%string = ext).
  { unfold suffix.
    destruct Hext as [<-|[<-|[]]].
    - rewrite (split_plain name "h5" Hn); [reflexivity|discriminate|repeat split; discriminate].
    - rewrite (split_plain name "H5" Hn); [reflexivity|discriminate|repeat split; discriminate]. }
  rewrite Hs. destruct Hext as [<-|[<-|[]]]; reflexivity.
Qed.

Lemma ends_with_app e : forall pre, ends_with e (pre ++ e)%string = true.
Proof.
  intros pre. unfold ends_with.
  assert (L : String.length (pre ++ e)%string = (String.length pre + String.length e)%nat).
  { induction pre as [|c pre IH]; cbn; [reflexivity|]. now rewrite IH. }
  rewrite L. apply andb_true_intro. split; [apply Nat.leb_le; lia|].
  replace (String.length pre + String.length e - String.length e)%nat with (String.length pre) by lia.
  apply String.eqb_eq. induction pre as [|c pre IH]; cbn.
  - clear. induction e as [|c e IH]; cbn; [reflexivity|]. now rewrite IH.
  - apply IH. cbn in L. lia.
Qed.
Lemma substring_split : forall k s, (k <= String.length s)%nat ->
  exists pre, s = (pre ++ substring k (String.length s - k) s)%string.
Proof.
  induction k as [|k IH]; intros s H.
  - exists EmptyString. rewrite Nat.sub_0_r. cbn. clear. induction s as [|c s IH]; cbn; [reflexivity|].
    now rewrite <- IH.
  - destruct s as [|c s]; cbn in H; [lia|]. destruct (IH s ltac:(lia)) as [pre E].
    exists (String c pre). cbn. now rewrite <- E.
Qed.
Lemma ends_with_iff e s : ends_with e s = true <-> exists pre, s = (pre ++ e)%string.
Proof.
  split.
  - unfold ends_with. intros H. apply andb_prop in H. destruct H as [H1 H2].
    apply Nat.leb_le in H1. apply String.eqb_eq in H2.
    destruct (substring_split (String.length s - String.length e) s ltac:(lia)) as [pre E].
    replace (String.length s - (String.length s - String.length e))%nat with (String.length e) in E by lia.
    rewrite H2 in E. eauto.
  - intros [pre ->]. apply ends_with_app.
Qed.

Lemma names_in_spec dir : forall d seen n,
  In n (names_in d dir seen) <-> ~ In n seen /\ lookup d (dir, n) <> None.
Proof.
  induction d as [|[q nd] d IH]; intros seen n; cbn.
  - split; [intros []|intros [_ H]; congruence].
  - unfold path_eqb. cbn. destruct (String.eqb_spec (fst q) dir) as [Ed|Ed]; cbn.
    + destruct (existsb (String.eqb (snd q)) seen) eqn:Es; cbn.
      * rewrite IH. apply existsb_exists in Es. destruct Es as (m & Hm & Em).
        apply String.eqb_eq in Em. subst m.
        destruct (String.eqb_spec (snd q) n) as [En|En]; [|tauto].
        subst n. tauto.
      * rewrite IH. cbn.
        assert (Hq : ~ In (snd q) seen).
        { intros Hin. assert (existsb (String.eqb (snd q)) seen = true); [|congruence].
          apply existsb_exists. exists (snd q). split; [exact Hin|apply String.eqb_refl]. }
        destruct (String.eqb_spec (snd q) n) as [En|En].
        -- subst n. split; [intros _; split; [exact Hq|discriminate]|intros _; left; reflexivity].
        -- tauto.
    + rewrite IH. tauto.
Qed.
Lemma names_in_nodup dir : forall d seen, NoDup (names_in d dir seen).
Proof.
  induction d as [|[q nd] d IH]; intros seen; cbn; [constructor|].
  destruct (_ && _); [|apply IH]. constructor; [|apply IH].
  rewrite names_in_spec. cbn. tauto.
Qed.

(** The files of a directory: each once, exactly those whose name ends in ".h5". *)
Lemma flist_dir d p : lookup d p = Some NDir ->
  NoDup (path_to_flist d p) /\
  forall f, In f (path_to_flist d p) <->
    fst f = (fst p ++ "/" ++ snd p)%string /\ (exists pre, snd f = (pre ++ ".h5")%string) /\ is_file d f = true.
Proof.
  intros H.
  assert (E : path_to_flist d p =
    filter (is_file d) (map (fun n => ((fst p ++ "/" ++ snd p)%string, n))
      (filter (ends_with ".h5") (names_in d (fst p ++ "/" ++ snd p)%string [])))).
  { unfold path_to_flist.
    replace (is_file d p) with false by (unfold is_file; now rewrite H).
    replace (is_dir d p) with true by (unfold is_dir; now rewrite H). reflexivity. }
  rewrite E. clear E. split.
  - apply NoDup_filter. apply FinFun.Injective_map_NoDup.
    + intros a b E. now injection E.
    + apply NoDup_filter, names_in_nodup.
  - intros [fd fn]. rewrite filter_In, in_map_iff. cbn [fst snd]. split.
    + intros [(n & E & Hn) Hf]. injection E as <- <-. apply filter_In in Hn. destruct Hn as [Hn He].
      apply ends_with_iff in He. auto.
    + intros (-> & He & Hf). split; [|exact Hf]. exists fn. split; [reflexivity|].
      apply filter_In. split; [|now apply ends_with_iff]. apply names_in_spec. split; [intros []|].
      unfold is_file in Hf. intros E. rewrite E in Hf. discriminate.
Qed.
