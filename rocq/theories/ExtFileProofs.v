(** Proofs about extracted samples. *)
From Coq Require Import String Ascii Lia Qround.
From Verif Require Import PyBase FileModel FileSpec FileSysProofs FileDataProofs UartModel FwModel StoModel StoProofs RepModel RepSpec RepProofs.
From Verif Require Import DsModel DsSpec DsProofs DsFileProofs.
From Verif Require Import ExtModel ExtSpec ExtProofs.
From Coq Require Import QArith.
From RecordUpdate Require Import RecordUpdate.
Open Scope Z_scope.

(** ** The new file *)

Lemma refresh_again c t s s' st : refresh c t s = Ok st -> exists st', refresh c t s' = Ok st'.
Proof.
  unfold refresh. destruct (_ && _); [|intros _; now eexists]. destruct (Qeq_bool _ 0); [discriminate|]. intros _. now eexists.
Qed.

Lemma close_refresh w f : close w = Ok f -> exists s st, refresh (r_cal w) (f_time f) s = Ok st.
Proof.
  unfold close. intros H. destruct (align w) as [w'|] eqn:A; [|discriminate H]. cbn [bind] in H.
  assert (C : r_cal w' = r_cal w).
  { unfold align in A. destruct (refresh (r_cal w) _ _) as [s|]; [|discriminate A]. cbn [bind] in A.
    match type of A with context [if ?b then _ else _] => destruct b end;
      [match type of A with context [if negb ?b then _ else _] => destruct (negb b) end|]; injection A as <-; reflexivity. }
  destruct (refresh (r_cal w') (f_time (r_file w')) (r_stats w')) as [st|] eqn:R; [|discriminate H].
  injection H as <-. rewrite C in R. now exists (r_stats w'), st.
Qed.

Lemma calibrated_set c f t v i : calibrated_by c f -> calibrated_by c (set_values f t v i).
Proof.
  intros (g & dt & dv & di & E & Et & Ev & Ei & H). unfold set_values, upd_grp, calibrated_by. rewrite E. cbn.
  rewrite Et, Ev, Ei. cbn. do 4 eexists. repeat (split; [reflexivity|]). exact H.
Qed.
Lemma calibrated_has c f : calibrated_by c f -> has_ds f.
Proof. intros (g & t & v & i & E & Et & Ev & Ei & _). now exists g, t, v, i. Qed.

(** A file with its calibration can be opened. *)
Lemma calibrated_opens c f s st : calibrated_by c f -> pos_series c -> refresh c (f_time f) s = Ok st ->
  exists r, reader_init f = Ok r /\ r_file r = f /\ r_cal r = c.
Proof.
  intros (g & t & v & i & E & Et & Ev & Ei & G1 & O1 & G2 & O2 & G3 & O3) (P1 & P2 & P3) R.
  assert (F : f_time f = ds_val t) by (unfold f_time; rewrite E, Et; reflexivity). rewrite F in R.
  destruct (refresh_again _ _ _ stats_init _ R) as [st' R'].
  assert (Q : forall x, (0 < x)%Q -> Qle_bool x 0 = false).
  { intros x H. destruct (Qle_bool x 0) eqn:B; [|reflexivity]. apply Qle_bool_iff in B. elim (Qlt_not_le _ _ H B). }
  unfold reader_init, pair_from. rewrite E. cbn [opt bind]. rewrite Et, Ev, Ei. cbn [opt bind].
  rewrite G1, O1, G2, O2, G3, O3, !Q by assumption. cbn [bind].
  destruct c as [[a b] [a2 b2] [a3 b3]]. cbn [c_voltage c_current c_time gain offset] in *. rewrite R'. cbn [bind].
  eexists. split; [reflexivity|]. split; reflexivity.
Qed.

Lemma cut_file fl d p r ss es factor d' q :
  cut_and_downsample fl d p r ss es factor = (d', Ok q) -> lookup d q = None ->
  q = out_path r p (cut_start ss) (cut_end r es) factor /\
  exists f', lookup d' q = Some (NFile f') /\ calibrated_by (r_cal r) f' /\
  exists r2, reader_init f' = Ok r2 /\ r_file r2 = f' /\ r_cal r2 = r_cal r.
Proof.
  intros H Hq.
  unfold cut_and_downsample in H.
  destruct (_ <? _); [discriminate|]. destruct (qltb factor 1); [discriminate|]. destruct (qltb _ 1000); [discriminate|].
  set (q0 := out_path _ _ _ _ _) in H |- *. destruct (exists_ d q0) eqn:Ex.
  { injection H as <- <-. apply exists_spec in Ex. congruence. }
  destruct (f_data (r_file r)) as [g|]; [|discriminate].
  destruct (writer_init _ d q0) as [d1 w0] eqn:Ew. set (a := mkArgs _ _ _ _ _ _) in Ew.
  destruct w0 as [[q1 w]|y]; [|discriminate].
  destruct (writer_init_new a _ _ _ _ eq_refl eq_refl Ew) as [_ P2].
  destruct (P2 q1 w eq_refl) as (_ & Hsame & _). apply not_exists_spec in Ex. specialize (Hsame Ex). subst q1.
  destruct (writer_init_fresh a _ _ _ _ _ eq_refl Ew) as [K _].
  destruct (configure_skeleton _ _ _ K) as (m & dt & wn & Hf & Hr & _ & _ & Hpos & _). cbn [a_cal a] in Hf, Hr, Hpos.
  destruct (get_config _) as [c|y]; [|discriminate].
  destruct (ds_all fl r _ _ factor) as [[[t v] i] x].
  set (w2 := _ <| r_file := _ |>) in H. destruct (close w2) as [f'|y] eqn:Ec; [|discriminate].
  destruct x; [discriminate H|]. injection H as <- <-. split; [reflexivity|]. exists f'.
  rewrite lookup_store, path_eqb_refl. split; [reflexivity|].
  assert (C0 : calibrated_by (r_cal r) (r_file w2)).
  { unfold w2. cbn. apply calibrated_set. rewrite Hf. unfold fresh, calibrated_by. cbn. do 4 eexists. repeat split. }
  assert (Cal : r_cal w2 = r_cal r) by (unfold w2; rewrite Hr; reflexivity).
  assert (C1 : calibrated_by (r_cal r) f').
  { clear -C0 Ec. unfold close in Ec. destruct (align w2) as [w'|] eqn:A; [|discriminate Ec]. cbn [bind] in Ec.
    destruct (refresh _ _ _); [|discriminate Ec]. injection Ec as <-. unfold align in A.
    destruct (refresh (r_cal w2) _ _) as [s|]; [|discriminate A]. cbn [bind] in A.
    match type of A with context [if ?b then _ else _] => destruct b end;
      [match type of A with context [if negb ?b then _ else _] => destruct (negb b) end|]; injection A as <-; try exact C0.
    now apply calibrated_set. }
  split; [exact C1|]. destruct (close_refresh _ _ Ec) as (s & st & R). rewrite Cal in R.
  exact (calibrated_opens _ _ _ _ C1 Hpos R).
Qed.

Lemma cut_others fl d p r ss es factor d' y q : cut_and_downsample fl d p r ss es factor = (d', y) ->
  q <> out_path r p (cut_start ss) (cut_end r es) factor -> lookup d' q = lookup d q.
Proof.
  intros H Hq. unfold cut_and_downsample in H.
  destruct (_ <? _); [injection H as <- _; reflexivity|]. destruct (qltb factor 1); [injection H as <- _; reflexivity|].
  destruct (qltb _ 1000); [injection H as <- _; reflexivity|].
  set (q0 := out_path _ _ _ _ _) in H, Hq. destruct (exists_ d q0) eqn:Ex; [injection H as <- _; reflexivity|].
  assert (L : forall n, lookup (store d q0 n) q = lookup d q).
  { intros n. rewrite lookup_store. destruct (path_eqb q0 q) eqn:E; [|reflexivity]. apply path_eqb_eq in E. congruence. }
  destruct (f_data (r_file r)) as [g|]; [|injection H as <- _; reflexivity].
  unfold writer_init, choose_path in H. cbn [a_modify a_overwrite orb] in H. rewrite Ex in H. cbn [negb] in H.
  apply not_exists_spec in Ex. rewrite Ex in H. destruct (configure _ skeleton) as [f1 [w|e]]; [|injection H as <- _; apply L].
  destruct (get_config _) as [c|e]; [|injection H as <- _; apply L]. destruct (ds_all _ _ _ _ _) as [[[t v] i] x].
  assert (L2 : forall n, lookup (store (store d q0 (NFile f1)) q0 n) q = lookup d q).
  { intros n. rewrite !lookup_store. destruct (path_eqb q0 q) eqn:E; [|reflexivity]. apply path_eqb_eq in E. congruence. }
  destruct (close _); injection H as <- _; apply L2.
Qed.

(** Cutting does not depend on other files. *)
Lemma cut_frame fl d1 d2 p r ss es factor :
  let q := out_path r p (cut_start ss) (cut_end r es) factor in
  lookup d1 q = None -> lookup d2 q = None ->
  snd (cut_and_downsample fl d2 p r ss es factor) = snd (cut_and_downsample fl d1 p r ss es factor) /\
  lookup (fst (cut_and_downsample fl d2 p r ss es factor)) q = lookup (fst (cut_and_downsample fl d1 p r ss es factor)) q.
Proof.
  intros q H1 H2. apply not_exists_spec in H1 as X1. apply not_exists_spec in H2 as X2. unfold cut_and_downsample. fold q.
  destruct (_ <? _); [split; [reflexivity|cbn [fst]; congruence]|]. destruct (qltb factor 1); [split; [reflexivity|cbn [fst]; congruence]|].
  destruct (qltb _ 1000); [split; [reflexivity|cbn [fst]; congruence]|]. rewrite X1, X2.
  destruct (f_data (r_file r)) as [g|]; [|split; [reflexivity|cbn [fst]; congruence]].
  unfold writer_init, choose_path. cbn [a_modify a_overwrite orb]. rewrite X1, X2. cbn [negb]. rewrite H1, H2.
  destruct (configure _ skeleton) as [f1 [w|e]]; [|cbn [fst snd]; rewrite !lookup_store, !path_eqb_refl; now split].
  destruct (get_config _) as [c|e]; [|cbn [fst snd]; rewrite !lookup_store, !path_eqb_refl; now split].
  destruct (ds_all _ _ _ _ _) as [[[t v] i] x].
  destruct (close _); cbn [fst snd]; rewrite !lookup_store, !path_eqb_refl; now split.
Qed.

(** ** The table *)

Section Text.
Variables (clock : Q -> string) (str : item -> string).


Lemma sample_lines sep raw c : forall t i v k pi pv, List.length i = List.length t -> List.length v = List.length t ->
  List.length pi = k -> List.length pv = k ->
  csv_lines clock str sep raw (gain (c_time c))
    [sample_col "current [A] = value * gain + offset" (mkDset (Some (gain (c_current c))) (Some (offset (c_current c))) (pi ++ i));
     sample_col "voltage [V] = value * gain + offset" (mkDset (Some (gain (c_voltage c))) (Some (offset (c_voltage c))) (pv ++ v))] k t
  = (String.concat "" (map (fun l => (l ++ newline)%string)
      (map (fun '(t, (i, v)) => sample_line clock str sep raw c t i v) (combine t (combine i v)))), Ok tt).
Proof.
  intros t. induction t as [|t0 t IH]; intros i v k pi pv Li Lv Lpi Lpv; [reflexivity|].
  destruct i as [|i0 i]; [discriminate Li|]. destruct v as [|v0 v]; [discriminate Lv|].
  assert (N : forall n g o (l : list Z) z tl, List.length l = k ->
    nth_error (dc_val (sample_col n (mkDset (Some g) (Some o) (l ++ z :: tl)))) k = Some (Ok (INum (inject_Z z)))).
  { intros n g o l z tl L. cbn [sample_col dc_val ds_val]. rewrite map_app, nth_error_app2; rewrite map_length, L; [|lia].
    now rewrite Nat.sub_diag. }
  assert (M : forall n g o (l : list Z) z, csv_item str sep raw (sample_col n (mkDset (Some g) (Some o) l)) (INum (inject_Z z))
    = Ok (str (INum (if raw then inject_Z z else inject_Z z * g + o)%Q))) by reflexivity.
  cbn [csv_lines csv_cells]. rewrite !N by assumption. cbn [bind]. rewrite !M.
  specialize (IH i v (S k) (pi ++ [i0]) (pv ++ [v0])). rewrite !app_length in IH. cbn [List.length] in IH, Li, Lv.
  rewrite <- !app_assoc in IH. cbn [app] in IH. rewrite IH; try lia.
  cbn [combine map]. rewrite !concat_empty. cbn [fold_right]. f_equal.
  unfold sample_line. cbv zeta. rewrite !append_assoc'. cbn [append]. reflexivity.
Qed.

Lemma sample_saved other x q f c sep raw : calibrated_by c f -> f_time f <> [] ->
  List.length (f_voltage f) = List.length (f_time f) -> List.length (f_current f) = List.length (f_time f) ->
  exists g, f_data f = Some g /\
  let tq := table_file q "data" in
  save_csv clock str other x q "/data" (data_group g) sep raw
  = if other tq then (x, Ok 0)
    else match find_text x tq with
         | Some _ => (x, Ok 0)
         | None => ((tq, sample_table clock str (csv_sep sep) raw c (f_time f) (f_current f) (f_voltage f)) :: x,
                    Ok (Z.of_nat (List.length (f_time f))))
         end.
Proof.
  intros (g & t & v & i & E & Et & Ev & Ei & G1 & O1 & G2 & O2 & G3 & O3) N Lv Li. exists g. split; [exact E|].
  unfold f_time, f_voltage, f_current in *. rewrite E in *. cbn zeta. rewrite Et, Ev, Ei in *.
  destruct t as [gt ot t], v as [gv ov v], i as [gi oi i]. cbn in G1, O1, G2, O2, G3, O3. subst.
  cbn [FileModel.values ds_val] in *. unfold data_group. rewrite Et, Ev, Ei. cbn [option_map ds_gain ds_val member app].
  destruct t as [|t0 t]; [contradiction|]. unfold save_csv. cbn [lg_time].
  change (strip_slash "/data") with "data"%string.
  rewrite (suffixed_ok q "." "data" ".csv" eq_refl eq_refl) by (cbn; repeat split; discriminate).
  change (with_suffix q ("." ++ "data" ++ ".csv")) with (table_file q "data").
  destruct (other (table_file q "data")); [reflexivity|]. destruct (find_text x (table_file q "data")); [reflexivity|].
  unfold datasets, sample_col. cbn [lg_cols fold_right snd map dc_desc DsModel.collect opt bind ds_gain ds_offset ds_val].
  pose proof (sample_lines (csv_sep sep) raw c (t0 :: t) i v 0 [] [] Li Lv eq_refl eq_refl) as S. cbn [app] in S.
  unfold sample_col in S. cbn [ds_gain ds_offset ds_val] in S. rewrite S. cbn [bind].
  match goal with |- ((_, ?a) :: _, _) = ((_, ?b) :: _, _) => replace b with a; [reflexivity|] end.
  unfold sample_table. cbn [map]. rewrite !concat_empty. cbn [fold_right]. rewrite !append_assoc'.
  reflexivity.
Qed.

(** ** One file, and all *)

Lemma table_not_h5 r p s e factor q : out_path r p s e factor <> table_file q "data".
Proof.
  unfold out_path, table_file, out_suffix. intros H. apply (f_equal snd) in H. cbn [snd] in H.
  match type of H with (?a ++ ?c ++ ?b ++ ".h5" = _)%string =>
    assert (K : ((a ++ c ++ b ++ ".h") ++ "5" = (stem (snd q) ++ ".data.cs") ++ "v")%string)
      by (rewrite !append_assoc'; exact H) end.
  pose proof (last_char_differs _ _ _ _ _ _ K eq_refl eq_refl) as E. discriminate E.
Qed.

Lemma one_effect fl ss es factor sep raw d x p d' x' y :
  extract_one clock str fl ss es factor sep raw d x p = (d', x', y) ->
  preserved d d' /\ keeps x x' /\
  forall tq, (forall r, open_reader d p = Ok r ->
      table_file (out_path r p (cut_start ss) (cut_end r es) factor) "data" <> tq) ->
    find_text x' tq = find_text x tq /\
    forall q, table_file q "data" = tq -> lookup d' q = lookup d q /\ lookup d' tq = lookup d tq.
Proof.
  unfold extract_one. intros H.
  destruct (open_reader d p) as [r|e] eqn:Eo;
    [|injection H as <- <- _; split; [apply preserved_refl|]; split; [now intros ? ?|]; intros tq _; split; [reflexivity|now split]].
  destruct (cut_and_downsample fl d p r ss es factor) as [d1 [q|e]] eqn:Ec;
    pose proof (cut_preserves _ _ _ _ _ _ _ _ _ Ec) as P.
  2:{ injection H as <- <- _. split; [exact P|]. split; [now intros q s|]. intros tq Ht. split; [reflexivity|].
      intros q <-. split; apply (cut_others _ _ _ _ _ _ _ _ _ _ Ec).
      - intros ->. exact (Ht r eq_refl eq_refl).
      - intros E. symmetry in E. exact (table_not_h5 _ _ _ _ _ _ E). }
  assert (Eq : q = out_path r p (cut_start ss) (cut_end r es) factor).
  { clear -Ec. unfold cut_and_downsample in Ec.
    destruct (_ <? _); [discriminate|]. destruct (qltb factor 1); [discriminate|]. destruct (qltb _ 1000); [discriminate|].
    destruct (exists_ d _); [injection Ec as _ <-; reflexivity|]. destruct (f_data (r_file r)); [|discriminate].
    destruct (writer_init _ _ _) as [d2 [[q1 w]|]]; [|discriminate]. destruct (get_config _); [|discriminate].
    destruct (ds_all _ _ _ _ _) as [[[t v] i] [z|]]; destruct (close _); try discriminate. injection Ec as _ <-. reflexivity. }
  assert (L : forall tq, (forall r0, Ok r = Ok r0 ->
      table_file (out_path r0 p (cut_start ss) (cut_end r0 es) factor) "data" <> tq) ->
      forall q0, table_file q0 "data" = tq -> lookup d1 q0 = lookup d q0 /\ lookup d1 tq = lookup d tq).
  { intros tq Ht q0 <-. split; apply (cut_others _ _ _ _ _ _ _ _ _ _ Ec).
    - intros ->. exact (Ht r eq_refl eq_refl).
    - intros E. symmetry in E. exact (table_not_h5 _ _ _ _ _ _ E). }
  destruct (open_reader d1 q) as [r2|e]; [|injection H as <- <- _; split; [exact P|]; split; [now intros ? ?|]; intros tq Ht; split; [reflexivity|exact (L tq Ht)]].
  destruct (f_data (r_file r2)) as [g|]; [|injection H as <- <- _; split; [exact P|]; split; [now intros ? ?|]; intros tq Ht; split; [reflexivity|exact (L tq Ht)]].
  destruct (save_csv clock str (exists_ d1) x q "/data" (data_group g) sep raw) as [x1 n] eqn:Es. injection H as <- <- _.
  split; [exact P|]. split; [exact (save_csv_keeps _ _ _ _ _ _ _ _ _ _ _ Es)|]. intros tq Ht. split; [|exact (L tq Ht)].
  specialize (Ht r eq_refl). rewrite <- Eq in Ht. revert Es. unfold save_csv.
  destruct (lg_time (data_group g)) as [[[desc tg] [|t0 ts]]|]; try (intros E; injection E as <- _; reflexivity).
  change (strip_slash "/data") with "data"%string.
  rewrite (suffixed_ok q "." "data" ".csv" eq_refl eq_refl) by (cbn; repeat split; discriminate).
  change (with_suffix q ("." ++ "data" ++ ".csv")) with (table_file q "data").
  destruct (exists_ d1 _); [intros E; injection E as <- _; reflexivity|].
  destruct (find_text x _); [intros E; injection E as <- _; reflexivity|].
  destruct (DsModel.collect _); [|intros E; injection E as <- _; reflexivity]. cbn zeta.
  destruct (csv_lines _ _ _ _ _ _ _ _) as [t rr]. intros E. injection E as <- _. now apply find_text_tl.
Qed.

Lemma opened_same d d' p : preserved d d' -> lookup d p <> None -> open_reader d' p = open_reader d p.
Proof.
  intros P H. unfold open_reader. destruct (lookup d p) as [n|] eqn:E; [|contradiction]. now rewrite (P _ _ E).
Qed.

Lemma files_effect fl ss es factor sep raw files : forall d x d' x' y,
  extract_files clock str fl ss es factor sep raw d x files = (d', x', y) ->
  preserved d d' /\ keeps x x' /\
  (Forall (fun p => lookup d p <> None) files ->
   forall tq, (forall p r, In p files -> open_reader d p = Ok r ->
      table_file (out_path r p (cut_start ss) (cut_end r es) factor) "data" <> tq) ->
    find_text x' tq = find_text x tq /\
    forall q, table_file q "data" = tq -> lookup d' q = lookup d q /\ lookup d' tq = lookup d tq).
Proof.
  induction files as [|p files IH]; intros d x d' x' y H; cbn [extract_files] in H.
  { injection H as <- <- _. split; [apply preserved_refl|]. split; [now intros q s|]. auto. }
  destruct (extract_one clock str fl ss es factor sep raw d x p) as [[d1 x1] y1] eqn:E1.
  destruct (one_effect _ _ _ _ _ _ _ _ _ _ _ _ E1) as (P1 & K1 & N1).
  assert (C : (exists e, (d1, x1, Err e) = (d', x', y)) \/ extract_files clock str fl ss es factor sep raw d1 x1 files = (d', x', y)).
  { destruct y1 as [u|e]; [now right|]. destruct e; (right; exact H) || (left; eexists; exact H). }
  destruct C as [(e & C)|C].
  - injection C as <- <- _. split; [exact P1|]. split; [exact K1|]. intros _ tq Ht. apply N1. intros r. apply Ht. now left.
  - destruct (IH _ _ _ _ _ C) as (P2 & K2 & N2). split; [exact (preserved_trans _ _ _ P1 P2)|].
    split; [intros q s Hs; apply K2, K1, Hs|]. intros F tq Ht. inversion F as [|? ? F1 F2]; subst.
    destruct (N1 tq) as [A1 B1]; [intros r; apply Ht; now left|].
    destruct N2 with (tq := tq) as [A2 B2].
    + eapply Forall_impl; [|exact F2]. intros p' Hp'. destruct (lookup d p') as [n|] eqn:E; [|contradiction]. rewrite (P1 _ _ E). discriminate.
    + intros p' r Hp'. rewrite (opened_same d d1 p' P1); [apply Ht; now right|]. rewrite Forall_forall in F2. now apply F2.
    + split; [congruence|]. intros q Hq. destruct (B1 q Hq), (B2 q Hq). split; congruence.
Qed.

Lemma files_split fl ss es factor sep raw pre p post : forall d x d' x',
  extract_files clock str fl ss es factor sep raw d x (pre ++ p :: post) = (d', x', Ok tt) ->
  exists d1 x1 d2 x2 y, extract_files clock str fl ss es factor sep raw d x pre = (d1, x1, Ok tt) /\
    extract_one clock str fl ss es factor sep raw d1 x1 p = (d2, x2, y) /\
    extract_files clock str fl ss es factor sep raw d2 x2 post = (d', x', Ok tt).
Proof.
  induction pre as [|a pre IH]; intros d x d' x' H; cbn [app extract_files] in H |- *.
  - exists d, x. destruct (extract_one clock str fl ss es factor sep raw d x p) as [[d2 x2] y] eqn:E. exists d2, x2, y.
    split; [reflexivity|]. split; [reflexivity|]. destruct y as [u|e]; [exact H|]. destruct e; exact H || discriminate H.
  - destruct (extract_one clock str fl ss es factor sep raw d x a) as [[d2 x2] y] eqn:E.
    destruct y as [u|e]; [apply IH; exact H|]. destruct e; try discriminate H; apply IH; exact H.
Qed.

Lemma listed_there d p : Forall (fun q => lookup d q <> None) (path_to_flist d p).
Proof.
  unfold path_to_flist. destruct (is_file d p && _) eqn:E.
  - apply andb_true_iff in E as [E _]. constructor; [|constructor]. unfold is_file in E. destruct (lookup d p); [discriminate|discriminate E].
  - destruct (is_dir d p); [|constructor]. apply Forall_forall. intros q H. apply filter_In in H as [_ H].
    unfold is_file in H. destruct (lookup d q); [discriminate|discriminate H].
Qed.

(** A file that is cut, among others. *)
Theorem samples_extracted fl d x in_data ss es ds_factor factor sep sp raw d' x' pre p post r d1 q n L :
  let s0 := Z.to_nat (to_sample r (cut_start ss)) in
  let e0 := Z.to_nat (to_sample r (cut_end r es)) in
  let e := Nat.min L e0 in
  (ds_factor < 1 /\ factor = 1000 \/ 1 <= ds_factor /\ factor = ds_factor)%Q -> separator sep sp ->
  extract clock str fl d x in_data ss es ds_factor sep raw = (d', x', Ok tt) ->
  path_to_flist d in_data = pre ++ p :: post -> open_reader d p = Ok r ->
  cut_and_downsample fl d p r ss es factor = (d1, Ok q) -> lookup d q = None ->
  find_text x (table_file q "data") = None -> lookup d (table_file q "data") = None ->
  (forall p' r', In p' pre -> open_reader d p' = Ok r' ->
     table_file (out_path r' p' (cut_start ss) (cut_end r' es) factor) "data" <> table_file q "data") ->
  List.length (f_time (r_file r)) = L -> List.length (f_voltage (r_file r)) = L ->
  List.length (f_current (r_file r)) = L -> r_max_elements r = 4000000 ->
  Z.of_nat n = Z.max 1 (Qfloor factor) -> (s0 < e)%nat ->
  (e - s0 <= Z.to_nat 4000000 \/ Nat.divide n (Z.to_nat 4000000))%nat ->
  exists f t v i m,
    lookup d' q = Some (NFile f)
    /\ every_nth n (e - s0) (signal (file_env fl) true n (slice s0 e (f_time (r_file r)))) t
    /\ every_nth n (e - s0) (signal (file_env fl) false n (slice s0 e (f_voltage (r_file r)))) v
    /\ every_nth n (e - s0) (signal (file_env fl) false n (slice s0 e (f_current (r_file r)))) i
    /\ DsSpec.columns f (firstn m t) (firstn m v) (firstn m i)
    /\ (m = List.length v \/ m = Z.to_nat (Z.of_nat (List.length v) / 10000 * 10000))
    /\ (firstn m t <> [] -> find_text x' (table_file q "data")
        = Some (sample_table clock str sp raw (r_cal r) (firstn m t) (firstn m i) (firstn m v))).
Proof.
  intros s0 e0 e Hf Hsep H Hl Hr Hc Hq Hx Ht Hn Lt Lv Lc Hm Hfn Hse Hch. apply separator_spec in Hsep. subst sp.
  unfold extract in H.
  assert (F : (if qltb ds_factor 1 then 1000%Q else ds_factor) = factor).
  { unfold qltb. destruct Hf as [[Hf ->]|[Hf ->]].
    - destruct (Qle_bool 1 ds_factor) eqn:B; [|reflexivity]. apply Qle_bool_iff in B. elim (Qlt_not_le _ _ Hf B).
    - apply Qle_bool_iff in Hf. now rewrite Hf. }
  rewrite F, Hl in H. pose proof (listed_there d in_data) as A. rewrite Hl in A. apply Forall_app in A as [A1 A2].
  assert (A3 : lookup d p <> None) by (inversion A2; assumption).
  destruct (files_split _ _ _ _ _ _ _ _ _ _ _ _ _ H) as (da & xa & db & xb & y & Ha & Hb & Hz).
  destruct (files_effect _ _ _ _ _ _ _ _ _ _ _ _ Ha) as (Pa & Ka & Na).
  destruct (Na A1 (table_file q "data") Hn) as [Xa La]. destruct (La q eq_refl) as [Lq Ltq].
  destruct (files_effect _ _ _ _ _ _ _ _ _ _ _ _ Hz) as (Pz & Kz & _).
  destruct (cut_file _ _ _ _ _ _ _ _ _ Hc Hq) as (Eq & f & Hf1 & Hcal & r2 & Hr2 & Hrf & _).
  destruct (cut_every _ _ _ _ _ _ _ _ _ n L Hc Hq Lt Lv Lc Hm Hfn Hse Hch) as (f0 & t & v & i & m & G0 & Gt & Gv & Gi & Gc & Gm).
  rewrite Hf1 in G0. injection G0 as <-.
  destruct (cut_frame fl d da p r ss es factor) as [S1 S2]; [rewrite <- Eq; exact Hq|rewrite <- Eq; congruence|].
  rewrite <- Eq in S2. rewrite Hc in S1, S2. cbn [fst snd] in S1, S2.
  destruct (cut_and_downsample fl da p r ss es factor) as [dc yc] eqn:Ec. cbn [fst snd] in S1, S2. subst yc.
  unfold extract_one in Hb. rewrite (opened_same d da p Pa A3), Hr, Ec in Hb.
  unfold open_reader in Hb. rewrite S2, Hf1, Hr2, Hrf in Hb.
  assert (Ld : exists_ dc (table_file q "data") = false).
  { unfold exists_. rewrite (cut_others _ _ _ _ _ _ _ _ _ (table_file q "data") Ec); [now rewrite Ltq, Ht|].
    intros E. symmetry in E. exact (table_not_h5 _ _ _ _ _ _ E). }
  exists f, t, v, i, m.
  assert (Lf : lookup d' q = Some (NFile f)).
  { destruct (f_data f) as [g|]; [destruct (save_csv _ _ _ _ _ _ _ _ _)|]; injection Hb as <- _ _; apply Pz; rewrite S2; exact Hf1. }
  do 6 (split; [assumption|]). intros Hne. destruct Gc as (C1 & C2 & C3).
  destruct (sample_saved (exists_ dc) xa q f (r_cal r) sep raw Hcal) as (g & Eg & Es).
  - now rewrite C1.
  - rewrite C1, C2, !firstn_length, (proj1 Gt), (proj1 Gv). reflexivity.
  - rewrite C1, C3, !firstn_length, (proj1 Gt), (proj1 Gi). reflexivity.
  - rewrite Eg in Hb. cbn zeta in Es. rewrite Es, Ld, Xa, Hx in Hb. injection Hb as <- <- _.
    apply Kz. rewrite find_text_hd, C1, C2, C3. reflexivity.
Qed.

(** A result that is there already is shown as it is. *)
Lemma existing_extracted fl d x p r ss es factor sep sp raw q f r2 c : separator sep sp -> open_reader d p = Ok r ->
  cut_and_downsample fl d p r ss es factor = (d, Ok q) -> lookup d q = Some (NFile f) -> reader_init f = Ok r2 ->
  calibrated_by c f -> f_time f <> [] ->
  List.length (f_voltage f) = List.length (f_time f) -> List.length (f_current f) = List.length (f_time f) ->
  lookup d (table_file q "data") = None -> find_text x (table_file q "data") = None ->
  extract_one clock str fl ss es factor sep raw d x p
  = (d, (table_file q "data", sample_table clock str sp raw c (f_time f) (f_current f) (f_voltage f)) :: x, Ok tt).
Proof.
  intros Hsep Ho Hc Hf Hr Hcal Hne Lv Li Hd Hx. apply separator_spec in Hsep. subst sp.
  unfold extract_one. rewrite Ho, Hc. unfold open_reader. rewrite Hf, Hr.
  assert (E : r_file r2 = f).
  { clear -Hr. unfold reader_init in Hr. destruct (opt (f_data f)); [|discriminate]. cbn [bind] in Hr.
    destruct (opt (g_time _)); [|discriminate]. destruct (opt (g_voltage _)); [|discriminate]. destruct (opt (g_current _)); [|discriminate].
    cbn [bind] in Hr. destruct (pair_from _ _); [|discriminate]. cbn [bind] in Hr. destruct (pair_from _ _); [|discriminate].
    cbn [bind] in Hr. destruct (pair_from _ _); [|discriminate]. cbn [bind] in Hr. destruct (refresh _ _ _); [|discriminate].
    injection Hr as <-. reflexivity. }
  rewrite E. destruct (sample_saved (exists_ d) x q f c sep raw Hcal Hne Lv Li) as (g & -> & Es). cbn zeta in Es.
  rewrite Es. unfold exists_. rewrite Hd, Hx. reflexivity.
Qed.

(** Too few samples: no table, no failure. *)
Lemma short_skipped fl d x p r ss es ds_factor sep raw : 1000 <= ds_factor -> path_to_flist d p = [p] -> open_reader d p = Ok r ->
  to_sample r (cut_start ss) <= to_sample r (cut_end r es) ->
  to_sample r (cut_end r es) - to_sample r (cut_start ss) < 1000 * ds_factor ->
  extract clock str fl d x p ss es (inject_Z ds_factor) sep raw = (d, x, Ok tt).
Proof.
  intros Hf Hl Ho H1 H2. unfold extract. rewrite Hl.
  assert (F : qltb (inject_Z ds_factor) 1 = false).
  { unfold qltb. apply negb_false_iff, Qle_bool_iff. change 1%Q with (inject_Z 1). rewrite <- Zle_Qle. lia. }
  rewrite F. cbn [extract_files]. unfold extract_one. rewrite Ho. unfold cut_and_downsample.
  rewrite (proj2 (Z.ltb_ge _ _) H1), F.
  assert (G : qltb (inject_Z (to_sample r (cut_end r es) - to_sample r (cut_start ss)) / inject_Z ds_factor) 1000 = true).
  { unfold qltb. apply negb_true_iff. destruct (Qle_bool 1000 _) eqn:B; [|reflexivity]. apply Qle_bool_iff in B. exfalso.
    assert (P : (0 < inject_Z ds_factor)%Q) by (change 0%Q with (inject_Z 0); rewrite <- Zlt_Qlt; lia).
    apply (Qmult_le_r _ _ _ P) in B. unfold Qdiv in B. rewrite <- Qmult_assoc, (Qmult_comm (/ _)), Qmult_inv_r, Qmult_1_r in B.
    - change 1000%Q with (inject_Z 1000) in B. rewrite <- inject_Z_mult, <- Zle_Qle in B. lia.
    - intros E. rewrite E in P. discriminate P. }
  rewrite G. reflexivity.
Qed.

Lemma kept_all fl d x in_data ss es ds_factor sep raw d' x' y :
  extract clock str fl d x in_data ss es ds_factor sep raw = (d', x', y) -> preserved d d' /\ keeps x x'.
Proof. intros H. destruct (files_effect _ _ _ _ _ _ _ _ _ _ _ _ H) as (P & K & _). now split. Qed.
End Text.
