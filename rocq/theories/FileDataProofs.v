(** Proofs about appending to and closing a recording. *)
From Coq Require Import QArith Qabs Lqa String.
From Verif Require Import PyBase UartModel UartProofs FileModel FileSpec FileSysProofs.
From RecordUpdate Require Import RecordUpdate.
Open Scope Z_scope.

(** The file has a data group with all three datasets. *)
Definition has_ds (f : h5) : Prop :=
  exists g t v i, f_data f = Some g /\ g_time g = Some t /\ g_voltage g = Some v /\ g_current g = Some i.

Lemma set_values_has f t v i : has_ds f -> has_ds (set_values f t v i).
Proof.
  intros (g & dt & dv & di & H & Ht & Hv & Hi). unfold set_values, upd_grp. rewrite H.
  unfold has_ds. cbn. do 4 eexists. split; [reflexivity|]. cbn. rewrite Ht, Hv, Hi. repeat split; reflexivity.
Qed.
Lemma f_time_set f t v i : has_ds f -> f_time (set_values f t v i) = t.
Proof.
  intros (g & dt & dv & di & H & Ht & Hv & Hi). unfold set_values, upd_grp, f_time. rewrite H.
  cbn. rewrite Ht. reflexivity.
Qed.
Lemma f_voltage_set f t v i : has_ds f -> f_voltage (set_values f t v i) = v.
Proof.
  intros (g & dt & dv & di & H & Ht & Hv & Hi). unfold set_values, upd_grp, f_voltage. rewrite H.
  cbn. rewrite Hv. reflexivity.
Qed.
Lemma f_current_set f t v i : has_ds f -> f_current (set_values f t v i) = i.
Proof.
  intros (g & dt & dv & di & H & Ht & Hv & Hi). unfold set_values, upd_grp, f_current. rewrite H.
  cbn. rewrite Hi. reflexivity.
Qed.
Lemma set_set f t v i t' v' i' : set_values (set_values f t v i) t' v' i' = set_values f t' v' i'.
Proof.
  unfold set_values, upd_grp. destruct (f_data f) as [g|] eqn:H; cbn; [|now rewrite H].
  destruct f as [m c hn dd], g as [d0 w0 c0 gt gv gi]; cbn in *.
  destruct gt as [[? ? ?]|], gv as [[? ? ?]|], gi as [[? ? ?]|]; reflexivity.
Qed.
Lemma set_same f : set_values f (f_time f) (f_voltage f) (f_current f) = f.
Proof.
  unfold set_values, upd_grp, f_time, f_voltage, f_current.
  destruct f as [m c hn [g|]]; cbn; [|reflexivity].
  destruct g as [d0 w0 c0 gt gv gi]; cbn.
  destruct gt as [[? ? ?]|], gv as [[? ? ?]|], gi as [[? ? ?]|]; reflexivity.
Qed.

(* ------------------------------------------------------------------ append *)

Lemma put_eq n k new l : length l = n -> (k <= length new)%nat ->
  assign n (firstn k new) (resize (n + k) l) = l ++ firstn k new.
Proof.
  intros Hl Hk. unfold assign, resize.
  rewrite (firstn_all2 (n := (n + k)%nat) l) by lia.
  replace (n + k - length l)%nat with k by lia.
  rewrite firstn_app. replace (n - length l)%nat with 0%nat by lia. cbn [firstn].
  rewrite app_nil_r, firstn_all2 by lia. f_equal.
  rewrite firstn_length_le by lia.
  rewrite skipn_all2 by (rewrite app_length, repeat_length; lia). now rewrite app_nil_r.
Qed.

Lemma combine_fst {A B} (a : list A) (b : list B) :
  map fst (combine a b) = firstn (Nat.min (length a) (length b)) a.
Proof. revert b; induction a as [|x a IH]; intros [|y b]; cbn; congruence. Qed.
Lemma combine_snd {A B} (a : list A) (b : list B) :
  map snd (combine a b) = firstn (Nat.min (length a) (length b)) b.
Proof. revert b; induction a as [|x a IH]; intros [|y b]; cbn; congruence. Qed.

Lemma combine3 (t v i : list Z) :
  let k := Nat.min (Nat.min (length v) (length i)) (length t) in
  map (fun r => fst (fst r)) (combine (combine t v) i) = firstn k t
  /\ map (fun r => snd (fst r)) (combine (combine t v) i) = firstn k v
  /\ map snd (combine (combine t v) i) = firstn k i.
Proof.
  intros k. subst k. rewrite combine_snd, combine_length.
  rewrite <- (map_map fst fst), <- (map_map fst snd), !combine_fst, combine_length.
  rewrite <- !firstn_map, combine_fst, combine_snd, !firstn_firstn.
  repeat split; f_equal; lia.
Qed.

(** Expansion of a scalar time stamp: only the first [len0] values are used. *)
Lemma rows_scalar t0 (v i : list Z) :
  combine (combine (map (fun k => t0 + 10000 * Z.of_nat k) (seq 0 (length v))) v) i
  = combine (combine (map (fun k => t0 + 10000 * Z.of_nat k) (seq 0 (Nat.min (length v) (length i)))) v) i.
Proof.
  revert t0 i. generalize 0%nat as s. induction v as [|x v IH]; intros s t0 i; [reflexivity|].
  destruct i as [|y i]; cbn; [reflexivity|]. f_equal. apply IH.
Qed.

(** What an opened file looks like while it is recorded. *)
Definition sess (w : reader) : Prop :=
  has_ds (r_file w) /\ length (f_time (r_file w)) = length (f_voltage (r_file w))
  /\ length (f_current (r_file w)) = length (f_voltage (r_file w)).

Lemma append_rows w ts v i : sess w -> st_interval_ns (r_stats w) = 10000 -> ts <> TsOther ->
  append_raw w ts v i
  = Ok (w <| r_file := set_values (r_file w)
           (f_time (r_file w) ++ map (fun r => fst (fst r)) (rows (ts, v, i)))
           (f_voltage (r_file w) ++ map (fun r => snd (fst r)) (rows (ts, v, i)))
           (f_current (r_file w) ++ map snd (rows (ts, v, i))) |>).
Proof.
  intros (Hd & Lt & Lc) Hi Hts. unfold append_raw.
  assert (E : exists t, expand_ts (st_interval_ns (r_stats w)) ts (Nat.min (length v) (length i)) = Ok t
              /\ rows (ts, v, i) = combine (combine t v) i).
  { destruct ts as [t0|t|]; [| |congruence].
    - eexists; split; [reflexivity|]. rewrite Hi. apply rows_scalar.
    - eexists; split; reflexivity. }
  destruct E as (t & -> & ->). cbn [bind].
  destruct (combine3 t v i) as (-> & -> & ->).
  set (k := Nat.min (Nat.min (length v) (length i)) (length t)).
  rewrite !put_eq by (try assumption; try reflexivity; unfold k; lia). reflexivity.
Qed.

Lemma append_sess w ts v i w' : sess w -> st_interval_ns (r_stats w) = 10000 ->
  append_raw w ts v i = Ok w' ->
  sess w' /\ r_stats w' = r_stats w /\ r_cal w' = r_cal w.
Proof.
  intros Hs Hi H. destruct (match ts with TsOther => true | _ => false end) eqn:E.
  { destruct ts; discriminate. }
  assert (Hts : ts <> TsOther) by (destruct ts; congruence).
  rewrite (append_rows _ _ _ _ Hs Hi Hts) in H. injection H as <-.
  destruct Hs as (Hd & Lt & Lc). cbn. split; [|auto]. unfold sess; cbn.
  split; [now apply set_values_has|].
  rewrite f_time_set, f_voltage_set, f_current_set by assumption.
  rewrite !app_length, !map_length. lia.
Qed.

Lemma appends_rows bs : forall w, sess w -> st_interval_ns (r_stats w) = 10000 -> Forall usable bs ->
  exists w', appends w bs = Ok w' /\ sess w' /\ r_stats w' = r_stats w /\ r_cal w' = r_cal w
    /\ r_file w' = set_values (r_file w)
         (f_time (r_file w) ++ map (fun r => fst (fst r)) (flat_map rows bs))
         (f_voltage (r_file w) ++ map (fun r => snd (fst r)) (flat_map rows bs))
         (f_current (r_file w) ++ map snd (flat_map rows bs)).
Proof.
  induction bs as [|[[ts v] i] bs IH]; intros w Hs Hi Hu; cbn [appends flat_map].
  - exists w. split; [reflexivity|]. repeat (split; [solve [auto]|]).
    cbn. rewrite !app_nil_r, set_same. reflexivity.
  - inversion Hu as [|b bs' Hb Hbs]; subst. cbn in Hb.
    rewrite (append_rows _ _ _ _ Hs Hi Hb). cbn [bind].
    set (w1 := w <| r_file := _ |>).
    assert (Hw1 : append_raw w ts v i = Ok w1) by now apply append_rows.
    destruct (append_sess _ _ _ _ _ Hs Hi Hw1) as (Hs1 & St1 & C1).
    destruct (IH w1 Hs1) as (w' & H1 & H2 & H3 & H4 & H5); [now rewrite St1 | assumption |].
    exists w'. rewrite H1, H3, H4, St1, C1. repeat (split; [solve [auto]|]).
    rewrite H5. unfold w1; cbn [r_file set]. cbn.
    destruct Hs as (Hd & _ & _).
    rewrite f_time_set, f_voltage_set, f_current_set, set_set by assumption.
    rewrite !map_app, <- !app_assoc. reflexivity.
Qed.

(** An unusable time stamp is refused and nothing is written. *)
Lemma append_other w v i : append_raw w TsOther v i = Err TypeError.
Proof. reflexivity. Qed.

(* ------------------------------------------------------------------ fresh files *)

Lemma fresh_has m d wn c : has_ds (fresh m d wn c).
Proof. unfold has_ds, fresh. cbn. do 4 eexists. repeat split; reflexivity. Qed.

(** Facts about a just created Writer. *)
Definition newborn (w : reader) : Prop :=
  exists m d wn c, w = mkReader (fresh m d wn c) c stats_init 4000000
    /\ (exists l, mode_dtypes m = Some l /\ dtype_in (Some d) l = true)
    /\ (d = ivcurve -> 1 <= wn) /\ pos_series c.

Lemma writer_newborn a d p d' q w :
  a_modify a = false -> writer_init a d p = (d', Ok (q, w)) -> newborn w.
Proof.
  intros Hm H. destruct (writer_init_fresh _ _ _ _ _ _ Hm H) as [K _].
  destruct (configure_skeleton _ _ _ K) as (m & dt & wn & Hf & Hr & H1 & H2 & H3 & _).
  exists m, dt, wn, (match a_cal a with Some c => c | None => series_default end).
  rewrite Hr at 1. rewrite Hf. auto.
Qed.

Lemma newborn_sess w : newborn w -> sess w /\ r_stats w = stats_init.
Proof.
  intros (m & d & wn & c & -> & _). split; [|reflexivity].
  split; [apply fresh_has | split; reflexivity].
Qed.

Lemma newborn_rows w bs : newborn w -> Forall usable bs ->
  exists w', appends w bs = Ok w' /\ sess w' /\ r_stats w' = stats_init /\ r_cal w' = r_cal w
    /\ holds_rows (r_file w') (flat_map rows bs)
    /\ r_file w' = set_values (r_file w) (f_time (r_file w')) (f_voltage (r_file w')) (f_current (r_file w')).
Proof.
  intros Hn Hu. destruct (newborn_sess _ Hn) as [Hs Hst].
  destruct (appends_rows bs w Hs) as (w' & H1 & H2 & H3 & H4 & H5); [now rewrite Hst | exact Hu |].
  exists w'. repeat (split; [congruence || assumption|]).
  destruct Hn as (m & d & wn & c & -> & _). cbn [r_file] in *.
  assert (Hd := fresh_has m d wn c).
  rewrite H5. unfold holds_rows. rewrite f_time_set, f_voltage_set, f_current_set by assumption.
  cbn. auto.
Qed.

(** Usability is also necessary. *)
Lemma appends_usable bs : forall w w', appends w bs = Ok w' -> Forall usable bs.
Proof.
  induction bs as [|[[ts v] i] bs IH]; intros w w' H; [constructor|]. cbn in H.
  destruct (append_raw w ts v i) as [w1|] eqn:E; [|discriminate]. cbn in H.
  constructor; [|eauto]. intros C. cbn in C. subst ts. discriminate E.
Qed.

(* ------------------------------------------------------------------ close *)

Lemma resize_le n l : (n <= length l)%nat -> resize n l = firstn n l.
Proof. intros H. unfold resize. replace (n - length l)%nat with 0%nat by lia. apply app_nil_r. Qed.

(** What closing keeps. *)
Lemma close_spec w f' : sess w -> close w = Ok f' ->
  exists m s, refresh (r_cal w) (f_time (r_file w)) (r_stats w) = Ok s
    /\ let n := length (f_voltage (r_file w)) in
       let whole := Z.to_nat (Z.of_nat n / 10000 * 10000) in
       m = (if st_rate s =? 100000 then whole else n)
    /\ f' = set_values (r_file w) (firstn m (f_time (r_file w))) (firstn m (f_voltage (r_file w)))
              (firstn m (f_current (r_file w))).
Proof.
  intros (Hd & Lt & Lc) H. unfold close, align in H. unfold samples_per_buffer, samplerate_sps_default in H.
  destruct (refresh (r_cal w) (f_time (r_file w)) (r_stats w)) as [s|] eqn:R; [|discriminate].
  cbn [bind] in H.
  set (n := length (f_voltage (r_file w))) in *.
  set (whole := Z.to_nat (Z.of_nat n / 10000 * 10000)).
  exists (if st_rate s =? 100000 then whole else n), s. split; [reflexivity|]. cbn zeta. split; [reflexivity|].
  assert (Hw : (whole <= n)%nat) by (unfold whole; pose proof (Z.mul_div_le (Z.of_nat n) 10000); lia).
  assert (Hall : r_file w = set_values (r_file w) (firstn n (f_time (r_file w)))
                  (firstn n (f_voltage (r_file w))) (firstn n (f_current (r_file w)))).
  { rewrite !firstn_all2 by lia. now rewrite set_same. }
  destruct (Z.ltb_spec (Z.of_nat n / 10000 * 10000) (Z.of_nat n)) as [L|L].
  - destruct (st_rate s =? 100000) eqn:Rt; cbn [negb bind] in H.
    + match type of H with context [refresh ?a ?b ?c] => destruct (refresh a b c) end; [|discriminate].
      cbn in H. injection H as <-. fold whole. rewrite !resize_le by lia. reflexivity.
    + match type of H with context [refresh ?a ?b ?c] => destruct (refresh a b c) end; [|discriminate].
      cbn in H. injection H as <-. exact Hall.
  - cbn [bind] in H.
    match type of H with context [refresh ?a ?b ?c] => destruct (refresh a b c) end; [|discriminate].
    cbn in H. injection H as <-.
    assert (whole = n) as -> by (unfold whole in *; pose proof (Z.mul_div_le (Z.of_nat n) 10000); lia).
    destruct (st_rate s =? 100000); exact Hall.
Qed.

Lemma whole_facts n : let m := Z.to_nat (Z.of_nat n / 10000 * 10000) in
  (m <= n)%nat /\ Z.of_nat m mod 10000 = 0 /\ Z.of_nat n - Z.of_nat m < 10000.
Proof.
  cbn zeta. pose proof (Z.mul_div_le (Z.of_nat n) 10000). pose proof (Z.div_mod (Z.of_nat n) 10000).
  pose proof (Z.mod_pos_bound (Z.of_nat n) 10000). pose proof (Z.div_pos (Z.of_nat n) 10000).
  rewrite Z2Nat.id by lia. rewrite Z_mod_mult. lia.
Qed.

Lemma refresh_rate c time s s' : st_rate s = 100000 -> default_rate (c_time c) time ->
  refresh c time s = Ok s' -> st_rate s' = 100000.
Proof.
  intros Hs Hd. unfold refresh.
  destruct time as [|t0 time']; [cbn; intros [= <-]; exact Hs|].
  set (time := t0 :: time') in *. unfold default_rate in Hd.
  change (hd 0 time) with t0 in Hd.
  destruct (0 <? Z.of_nat (length time)) eqn:E1; [|cbn [andb]; intros [= <-]; exact Hs].
  destruct (Z.ltb_spec 0 (last time 0 - t0)) as [E2|E2]; [|cbn [andb]; intros [= <-]; exact Hs].
  cbn [andb]. destruct (Qeq_bool (raw_to_si (c_time c) (last time 0 - t0)) 0) eqn:Z0; [discriminate|].
  intros [= <-]. cbn [st_rate]. destruct Hd as [Hd|[H0 Hd]]; [lia|].
  rewrite (qround_near _ 100000); [reflexivity | exact Hd].
Qed.

(** Closing does not raise if durations are positive in seconds. *)
Lemma refresh_ok c time s : (0 < gain (c_time c))%Q -> (0 <= offset (c_time c))%Q ->
  exists s', refresh c time s = Ok s'.
Proof.
  intros Hg Ho. unfold refresh.
  set (d := match time with [] => 0 | t0 :: _ => last time 0 - t0 end).
  destruct (0 <? Z.of_nat (length time)); cbn [andb]; [|eauto].
  destruct (Z.ltb_spec 0 d); [|eauto].
  destruct (Qeq_bool _ 0) eqn:E; [|eauto]. exfalso. apply Qeq_bool_eq in E. unfold raw_to_si in E.
  assert (0 < inject_Z d)%Q by (change 0%Q with (inject_Z 0); rewrite <- Zlt_Qlt; lia).
  assert (0 < inject_Z d * gain (c_time c))%Q by (apply Qmult_lt_0_compat; assumption).
  lra.
Qed.

Lemma close_ok w : sess w -> (0 < gain (c_time (r_cal w)))%Q -> (0 <= offset (c_time (r_cal w)))%Q ->
  exists f', close w = Ok f'.
Proof.
  intros Hs Hg Ho. unfold close, align.
  destruct (refresh_ok (r_cal w) (f_time (r_file w)) (r_stats w) Hg Ho) as [s ->]. cbn [bind].
  destruct (_ <? _); [destruct (negb _)|]; cbn [bind];
    match goal with |- context [refresh ?a ?b ?c] =>
      destruct (refresh_ok a b c) as [s' ->]; [exact Hg | exact Ho | cbn; eauto] end.
Qed.

(* ------------------------------------------------------------------ closing twice *)

(** Re-reading the calibration gives the series that was written. *)
Lemma reader_init_fresh m d wn c t v i : pos_series c -> forall w,
  reader_init (set_values (fresh m d wn c) t v i) = Ok w ->
  r_cal w = c /\ r_file w = set_values (fresh m d wn c) t v i
  /\ refresh c t stats_init = Ok (r_stats w).
Proof.
  intros (Hv & Hi & Ht) w H. unfold reader_init, pair_from in H.
  cbn -[Qle_bool stats_init refresh] in H.
  assert (P : forall q, (0 < q)%Q -> Qle_bool q 0 = false).
  { intros q Hq. destruct (Qle_bool q 0) eqn:E; [|reflexivity]. apply Qle_bool_iff in E. lra. }
  rewrite (P _ Hi) in H. cbn -[Qle_bool stats_init refresh] in H.
  rewrite (P _ Hv) in H. cbn -[Qle_bool stats_init refresh] in H.
  rewrite (P _ Ht) in H. cbn -[Qle_bool stats_init refresh] in H.
  assert (Ec : {| c_voltage := {| gain := gain (c_voltage c); offset := offset (c_voltage c) |};
      c_current := {| gain := gain (c_current c); offset := offset (c_current c) |};
      c_time := {| gain := gain (c_time c); offset := offset (c_time c) |} |} = c)
    by (destruct c as [[? ?] [? ?] [? ?]]; reflexivity).
  rewrite Ec in H. destruct (refresh c t stats_init) as [s|]; [|discriminate].
  cbn -[stats_init] in H. injection H as <-. cbn [r_cal r_file r_stats]. auto.
Qed.

(** Re-opening a file (modify_existing) without further arguments only reads it. *)
Definition reopen : wargs := mkArgs None None None None true false.
Lemma configure_reopen m d wn c t v i f w :
  (exists l, mode_dtypes m = Some l /\ dtype_in (Some d) l = true) -> pos_series c ->
  configure reopen (set_values (fresh m d wn c) t v i) = (f, Ok w) ->
  f = set_values (fresh m d wn c) t v i /\ r_file w = f /\ r_cal w = c
  /\ refresh c t stats_init = Ok (r_stats w).
Proof.
  intros (l & Hm & Hd) Hc. unfold configure, reopen. cbn [a_mode a_datatype a_window a_cal].
  unfold step_mode, get_mode. cbn -[mode_dtypes reader_init step_datatype]. rewrite Hm. cbn [opt].
  unfold step_datatype. cbn -[dtype_in dtype_name reader_init].
  rewrite dtype_roundtrip, Hd. cbn -[dtype_name reader_init].
  intros H. apply pair_equal_spec in H. destruct H as [Hf Hr].
  assert (E : f = set_values (fresh m d wn c) t v i).
  { rewrite <- Hf. destruct c as [[? ?] [? ?] [? ?]]; reflexivity. }
  rewrite Hf in Hr. rewrite E in Hr.
  destruct (reader_init_fresh _ _ _ _ _ _ _ Hc _ Hr) as (H1 & H2 & H3).
  rewrite E. auto.
Qed.

Lemma refresh_prefix_rate c time m s1 s2 :
  (* a run that was not cut leads to the same statistics again *)
  m = length time -> refresh c time stats_init = Ok s1 -> refresh c (firstn m time) stats_init = Ok s2 ->
  s1 = s2.
Proof. intros -> H1 H2. rewrite firstn_all in H2. congruence. Qed.

Lemma refresh_twice c time s1 s2 : refresh c time stats_init = Ok s1 -> refresh c time s1 = Ok s2 -> s2 = s1.
Proof.
  unfold refresh. destruct (_ && _); [|congruence].
  destruct (Qeq_bool _ _); congruence.
Qed.

Lemma close_twice w f1 d p d2 q w2 f2 :
  newborn w -> forall bs w1, appends w bs = Ok w1 -> close w1 = Ok f1 ->
  lookup d p = Some (NFile f1) -> writer_init reopen d p = (d2, Ok (q, w2)) -> close w2 = Ok f2 ->
  f2 = f1.
Proof.
  intros Hn bs w1 Ha Hc Hl Hw Hc2.
  destruct (newborn_rows w bs Hn (appends_usable _ _ _ Ha)) as (w1' & E1 & Hs1 & Hst1 & Hcal1 & _ & Hf1).
  rewrite Ha in E1. injection E1 as <-.
  destruct Hn as (m & dt & wn & c & -> & Hm & Hwn & Hpos). cbn [r_file r_cal] in *.
  destruct (close_spec _ _ Hs1 Hc) as (k & s & Hr & Hk & Hfk). cbn zeta in Hk.
  rewrite Hst1, Hcal1 in Hr.
  set (t := f_time (r_file w1)) in *. set (v := f_voltage (r_file w1)) in *.
  set (i := f_current (r_file w1)) in *.
  rewrite Hf1, set_set in Hfk.
  unfold writer_init in Hw. cbn [a_modify reopen choose_path orb] in Hw.
  replace (choose_path reopen d p) with (Ok p) in Hw by reflexivity.
  rewrite Hl in Hw. destruct (configure reopen f1) as [f' r'] eqn:K.
  destruct r' as [w2'|]; [|discriminate]. injection Hw as _ _ <-. rewrite Hfk in K.
  destruct (configure_reopen _ _ _ _ _ _ _ _ _ Hm Hpos K) as (-> & Hf2 & Hcal2 & Hr2).
  assert (Hd := fresh_has m dt wn c).
  assert (Hs2 : sess w2').
  { unfold sess. rewrite Hf2. split; [now apply set_values_has|].
    rewrite f_time_set, f_voltage_set, f_current_set by assumption. rewrite !firstn_length.
    destruct Hs1 as (_ & L1 & L2). fold t v i in L1, L2. lia. }
  destruct (close_spec _ _ Hs2 Hc2) as (k2 & s2 & Hr3 & Hk2 & Hfk2). cbn zeta in Hk2.
  rewrite Hf2, set_set in Hfk2. rewrite f_time_set, f_voltage_set, f_current_set in Hfk2 by assumption.
  rewrite Hf2 in Hk2. rewrite f_voltage_set in Hk2 by assumption.
  rewrite Hf2, f_time_set in Hr3 by assumption. rewrite Hcal2 in Hr3.
  pose proof (refresh_twice _ _ _ _ Hr2 Hr3) as E2. subst s2. clear Hr3.
  assert (Hkn : (k <= length v)%nat).
  { rewrite Hk. destruct (_ =? _); [apply whole_facts | lia]. }
  assert (Lk : length (firstn k v) = k) by (rewrite firstn_length; lia).
  rewrite Lk in Hk2.
  assert (k2 = k) as ->.
  { rewrite Hk2. destruct (st_rate (r_stats w2') =? 100000) eqn:Rt; [|reflexivity].
    destruct (st_rate s =? 100000) eqn:Rs.
    - rewrite Hk. destruct (whole_facts (length v)) as (A & B & _). cbn zeta in A, B.
      set (x := Z.to_nat (Z.of_nat (length v) / 10000 * 10000)) in *.
      assert (Z.of_nat x = 10000 * (Z.of_nat x / 10000)) by (apply Z_div_exact_full_2; lia). lia.
    - exfalso. assert (k = length t) as Hkt by (destruct Hs1 as (_ & L1 & _); fold t v in L1; congruence).
      pose proof (refresh_prefix_rate _ _ _ _ _ Hkt Hr Hr2). subst s. congruence. }
  rewrite Hfk2, Hfk, !firstn_firstn, Nat.min_id. reflexivity.
Qed.

(* ------------------------------------------------------------------ validity *)

Lemma fresh_valid m d wn c t v i :
  (exists l, mode_dtypes m = Some l /\ dtype_in (Some d) l = true) -> (d = ivcurve -> 1 <= wn) ->
  is_valid (set_values (fresh m d wn c) t v i) = true.
Proof.
  intros (l & Hm & Hd) Hw. unfold is_valid. cbn -[mode_dtypes dtype_in get_datatype get_window_samples].
  rewrite Hm. unfold get_datatype, get_window_samples. cbn -[mode_dtypes dtype_in dtype_of_name dtype_name].
  rewrite dtype_roundtrip, Hd. cbn [andb]. destruct d; try reflexivity.
  destruct (Z.ltb_spec wn 1); [specialize (Hw eq_refl); lia | reflexivity].
Qed.

Lemma recording_valid w bs w' f' : newborn w -> appends w bs = Ok w' -> close w' = Ok f' ->
  is_valid f' = true.
Proof.
  intros Hn Ha Hc.
  destruct (newborn_rows w bs Hn (appends_usable _ _ _ Ha)) as (w1' & E1 & Hs1 & Hst1 & Hcal1 & _ & Hf1).
  rewrite Ha in E1. injection E1 as <-.
  destruct Hn as (m & dt & wn & c & -> & Hm & Hwn & Hpos). cbn [r_file r_cal] in *.
  destruct (close_spec _ _ Hs1 Hc) as (k & s & _ & _ & Hfk).
  rewrite Hf1, set_set in Hfk. rewrite Hfk. now apply fresh_valid.
Qed.
