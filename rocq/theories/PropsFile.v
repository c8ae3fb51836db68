(** Properties of recording files (C26 - C37, C58, C61).
    Vocabulary: FileSpec.v; code: FileModel.v. *)
From Coq Require Import QArith Qabs Lqa String.
From Verif Require Import PyBase UartModel UartProofs FileModel FileSpec FileSysProofs FileDataProofs FileReadProofs FileSiProofs.
Open Scope Z_scope.

(** * C26 Recorded buffers are stored completely, in order and in lockstep *)

Theorem C26_recording_complete :
  forall a d p d' q w bs,
    a_modify a = false -> writer_init a d p = (d', Ok (q, w)) -> Forall usable bs ->
    exists w', appends w bs = Ok w' /\ holds_rows (r_file w') (flat_map rows bs).
Proof.
  intros a d p d' q w bs Hm Hw Hu.
  destruct (newborn_rows w bs (writer_newborn _ _ _ _ _ _ Hm Hw) Hu) as (w' & H1 & _ & _ & _ & H2 & _).
  eauto.
Qed.
Print Assumptions C26_recording_complete.

(** Other time stamps are refused, not stored. *)
Theorem C26_unusable_rejected : forall w v i, append_raw w TsOther v i = Err TypeError.
Proof. exact append_other. Qed.
Print Assumptions C26_unusable_rejected.

Definition plain_args : wargs := mkArgs None None None None false false.

Example C26_example :
  match writer_init plain_args [] ("dir", "rec.h5")%string with
  | (_, Ok (_, w)) =>
    match appends w [(TsScalar 5, [1; 2; 3], [10; 20]); (TsArray [7], [4; 5], [40; 50; 60])] with
    | Ok w' => (f_time (r_file w'), f_voltage (r_file w'), f_current (r_file w'))
               = ([5; 10005; 7], [1; 2; 4], [10; 20; 40])
    | _ => False
    end
  | _ => False
  end.
Proof. reflexivity. Qed.

(** * C27 Closing a recording truncates only the incomplete last buffer *)

Theorem C27_close_aligns :
  forall a d p d' q w bs w' f',
    a_modify a = false -> writer_init a d p = (d', Ok (q, w)) ->
    appends w bs = Ok w' -> close w' = Ok f' ->
    exists m,
      let n := length (f_voltage (r_file w')) in
      length (f_time (r_file w')) = n /\ length (f_current (r_file w')) = n /\ (m <= n)%nat /\
      (* a prefix, in lockstep *)
      f_time f' = firstn m (f_time (r_file w')) /\ f_voltage f' = firstn m (f_voltage (r_file w')) /\
      f_current f' = firstn m (f_current (r_file w')) /\
      (* at 100 kHz: whole buffers, less than one buffer lost *)
      (default_rate (c_time (r_cal w)) (f_time (r_file w')) ->
         Z.of_nat m mod 10000 = 0 /\ Z.of_nat n - Z.of_nat m < 10000) /\
      (* aligned data is untouched *)
      (Z.of_nat n mod 10000 = 0 -> f' = r_file w').
Proof.
  intros a d p d' q w bs w' f' Hm Hw Ha Hc.
  pose proof (writer_newborn _ _ _ _ _ _ Hm Hw) as Hn.
  destruct (newborn_rows w bs Hn (appends_usable _ _ _ Ha)) as (w1 & E1 & Hs & Hst & Hcal & _).
  rewrite Ha in E1. injection E1 as <-.
  destruct (close_spec _ _ Hs Hc) as (m & s & Hr & Hk & ->). cbn zeta in Hk.
  destruct Hs as (Hd & Lt & Lc). exists m. cbn zeta.
  rewrite f_time_set, f_voltage_set, f_current_set by assumption.
  destruct (whole_facts (length (f_voltage (r_file w')))) as (W1 & W2 & W3).
  set (n := length (f_voltage (r_file w'))) in *.
  assert (Hmn : (m <= n)%nat) by (rewrite Hk; destruct (_ =? _); lia).
  repeat (split; [assumption || reflexivity|]). split.
  - intros Hdr. assert (Hs100 : st_rate s = 100000).
    { apply (refresh_rate (r_cal w') (f_time (r_file w')) (r_stats w')); [now rewrite Hst | | exact Hr].
      rewrite Hcal. exact Hdr. }
    rewrite Hs100 in Hk. cbn in Hk. change (100000 =? 100000) with true in Hk. cbn in Hk. subst m. auto.
  - intros Hal. assert (m = n) as ->.
    { rewrite Hk. destruct (_ =? _); [|reflexivity].
      pose proof (Z.div_mod (Z.of_nat n) 10000). lia. }
    rewrite !firstn_all2 by lia. apply set_same.
Qed.
Print Assumptions C27_close_aligns.

(** Opening the closed file again for modification and closing it changes nothing. *)
Theorem C27_close_twice :
  forall a d p d' q w bs w' f1 e r e' r' w2 f2,
    a_modify a = false -> writer_init a d p = (d', Ok (q, w)) ->
    appends w bs = Ok w' -> close w' = Ok f1 ->
    lookup e r = Some (NFile f1) -> writer_init reopen e r = (e', Ok (r', w2)) -> close w2 = Ok f2 ->
    f2 = f1.
Proof.
  intros a d p d' q w bs w' f1 e r e' r' w2 f2 Hm Hw Ha Hc Hl Hw2 Hc2.
  exact (close_twice w f1 e r e' r' w2 f2 (writer_newborn _ _ _ _ _ _ Hm Hw) bs w' Ha Hc Hl Hw2 Hc2).
Qed.
Print Assumptions C27_close_twice.

(** Closing succeeds unless a negative time offset makes the duration zero. *)
Theorem C27_close_succeeds :
  forall a d p d' q w bs w',
    a_modify a = false -> writer_init a d p = (d', Ok (q, w)) -> appends w bs = Ok w' ->
    (0 <= offset (c_time (r_cal w)))%Q -> exists f', close w' = Ok f'.
Proof.
  intros a d p d' q w bs w' Hm Hw Ha Ho.
  pose proof (writer_newborn _ _ _ _ _ _ Hm Hw) as Hn.
  destruct (newborn_rows w bs Hn (appends_usable _ _ _ Ha)) as (w1 & E1 & Hs & Hst & Hcal & _).
  rewrite Ha in E1. injection E1 as <-.
  apply close_ok; [exact Hs | | rewrite Hcal; exact Ho].
  rewrite Hcal. destruct Hn as (m & dt & wn & c & -> & _ & _ & _ & _ & Hg). exact Hg.
Qed.
Print Assumptions C27_close_succeeds.

Example C27_example :   (* three samples do not fill a buffer; a single buffer at 1 kHz is kept *)
  match writer_init plain_args [] ("dir", "rec.h5")%string with
  | (_, Ok (_, w)) =>
    (match appends w [(TsScalar 5, [1; 2; 3], [10; 20; 30])] with
     | Ok w' => match close w' with Ok f => f_voltage f = [] | _ => False end | _ => False end)
    /\ (match appends w [(TsArray [0; 1000000; 2000000], [1; 2; 3], [10; 20; 30])] with
     | Ok w' => match close w' with Ok f => f_voltage f = [1; 2; 3] | _ => False end | _ => False end)
  | _ => False
  end.
Proof. lazy. split; reflexivity. Qed.

(** * C28 Reading in buffers reproduces the recording exactly once *)

Theorem C28_read_buffers :
  forall r start stop n raw omit,
    let f := r_file r in
    let len := length (f_voltage f) in
    length (f_time f) = len -> length (f_current f) = len -> (0 < n)%nat ->
    exists bs,
      read_buffers r start stop (Some n) raw omit
      = Ok (map (if raw then tup_raw omit else tup_si (r_cal r) omit) bs)
      /\ let e := match stop with None => (len / n)%nat | Some e => Nat.min e (len / n) end in
         length bs = (e - start)%nat
      /\ (forall t v i, In (t, v, i) bs -> length t = n /\ length v = n /\ length i = n)
      /\ let whole l := firstn ((e - start) * n) (skipn (start * n) l) in
         concat (map (fun x => fst (fst x)) bs) = whole (f_time f)
      /\ concat (map (fun x => snd (fst x)) bs) = whole (f_voltage f)
      /\ concat (map snd bs) = whole (f_current f).
Proof. exact read_buffers_spec. Qed.
Print Assumptions C28_read_buffers.

(** The default size is 10000 samples. *)
Theorem C28_default_size :
  forall r start stop raw omit,
    read_buffers r start stop None raw omit = read_buffers r start stop (Some (Z.to_nat 10000)) raw omit.
Proof. reflexivity. Qed.
Print Assumptions C28_default_size.

Example C28_example :
  read_buffers (simple_reader series_default [1;2;3;4;5;6;7] [10;20;30;40;50;60;70] [0;1;0;1;0;1;0])
    1 None (Some 2%nat) true false
  = Ok [Raw (Some [3; 4]) [30; 40] [0; 1]; Raw (Some [5; 6]) [50; 60] [0; 1]].
Proof. reflexivity. Qed.

(** * C29 Creating a recording never overwrites an existing file unless asked to *)

Theorem C29_no_overwrite :
  forall a d p d' r,
    a_modify a = false -> a_overwrite a = false -> writer_init a d p = (d', r) ->
    preserved d d'
    /\ forall q w, r = Ok (q, w) ->
       lookup d q = None
       /\ (lookup d p = None -> q = p)
       /\ (lookup d p <> None -> exists k, q = candidate p k
             /\ forall j, (j < k)%nat -> lookup d (candidate p j) <> None).
Proof. exact writer_init_new. Qed.
Print Assumptions C29_no_overwrite.

(** The names tried for a request like name.ext are name.0.ext, name.1.ext, ... *)
Theorem C29_candidate_names :
  forall dir s t k, s <> EmptyString -> t <> EmptyString -> no_dot s -> no_dot t ->
    candidate (dir, (s ++ "." ++ t)%string) k = (dir, (s ++ "." ++ dec k ++ "." ++ t)%string).
Proof. exact candidate_plain. Qed.
Print Assumptions C29_candidate_names.

(** The search for a free name ends, and no two counters give the same name. *)
Theorem C29_search_ends :
  forall a d p, lookup d p <> Some NDir -> exists q, choose_path a d p = Ok q.
Proof. exact choose_ok. Qed.
Print Assumptions C29_search_ends.

Theorem C29_counters_distinct : forall p a b, candidate p a = candidate p b -> a = b.
Proof. exact candidate_inj. Qed.
Print Assumptions C29_counters_distinct.

Example C29_example :
  let d := [(("d", "rec.h5"), NFile skeleton); (("d", "rec.0.h5"), NOther); (("d", "rec.2.h5"), NDir)]%string in
  match writer_init plain_args d ("d", "rec.h5")%string with
  | (_, Ok (q, _)) => q = ("d", "rec.1.h5")%string
  | _ => False
  end.
Proof. reflexivity. Qed.

(** * C30 A rejected Writer call leaves existing recordings untouched *)

(** An unknown mode is refused after the file to be overwritten was already emptied. *)
Theorem C30_overwrite_refuted :
  exists a d p f d' e,
    lookup d p = Some (NFile f) /\ f_voltage f = [7; 8; 9] /\
    writer_init a d p = (d', Err e) /\ e = ValueError /\
    exists f', lookup d' p = Some (NFile f') /\ f_voltage f' = [].
Proof.
  exists (mkArgs (Some "harvestr"%string) None None None false true),
    [(("d", "rec.h5")%string, NFile (simple_file series_default [1; 2; 3] [7; 8; 9] [0; 0; 0]))],
    ("d", "rec.h5")%string. do 3 eexists.
  repeat (split; [reflexivity|]). eexists. split; reflexivity.
Qed.
Print Assumptions C30_overwrite_refuted.

(** Modifying: a refused datatype leaves the mode changed and the file invalid for its data. *)
Theorem C30_modify_refuted :
  exists a d p f d' f',
    lookup d p = Some (NFile f) /\ f_mode f = Some "harvester"%string /\
    writer_init a d p = (d', Err ValueError) /\
    lookup d' p = Some (NFile f') /\ f_mode f' = Some "emulator"%string.
Proof.
  exists (mkArgs (Some "emulator"%string) (Some "ivcurve"%string) None None true false),
    [(("d", "rec.h5")%string, NFile (simple_file series_default [1; 2; 3] [7; 8; 9] [0; 0; 0]))],
    ("d", "rec.h5")%string. do 3 eexists.
  repeat (split; [reflexivity|]). reflexivity.
Qed.
Print Assumptions C30_modify_refuted.

(** It holds whenever neither overwriting nor modifying was requested; missing: the other two. *)
Theorem C30_rejected_partial :
  forall a d p d' e,
    a_modify a = false -> a_overwrite a = false -> writer_init a d p = (d', Err e) -> preserved d d'.
Proof. intros a d p d' e Hm Ho H. exact (proj1 (writer_init_new _ _ _ _ _ Hm Ho H)). Qed.
Print Assumptions C30_rejected_partial.

(** Modifying something that is not a recording raises and changes nothing at all. *)
Theorem C30_modify_missing_partial :
  forall a d p, a_modify a = true -> (forall f, lookup d p <> Some (NFile f)) ->
    exists e, writer_init a d p = (d, Err e).
Proof.
  intros a d p Hm Hf. unfold writer_init, choose_path. rewrite Hm. cbn [orb].
  destruct (lookup d p) as [[f| |]|]; [exfalso; exact (Hf f eq_refl) | | |]; eauto.
Qed.
Print Assumptions C30_modify_missing_partial.

(** * C31 A freshly created recording is valid *)

Theorem C31_new_recording_valid :
  forall a d p d' q w bs w' f',
    a_modify a = false -> writer_init a d p = (d', Ok (q, w)) ->
    appends w bs = Ok w' -> close w' = Ok f' -> is_valid f' = true.
Proof.
  intros a d p d' q w bs w' f' Hm Hw. apply recording_valid. exact (writer_newborn _ _ _ _ _ _ Hm Hw).
Qed.
Print Assumptions C31_new_recording_valid.

(** The validity check is not trivial: these are refused. *)
Example C31_example :
  is_valid (mkH5 None None None None) = false
  /\ is_valid (fresh "emulator" ivcurve 10 series_default) = false
  /\ is_valid (fresh "harvester" ivcurve 0 series_default) = false
  /\ is_valid (fresh "harvester" ivcurve 10 series_default) = true.
Proof. repeat split; reflexivity. Qed.

(** The constructor stores what was asked for. *)
Theorem C31_arguments_stored :
  forall a d p d' q w,
    a_modify a = false -> writer_init a d p = (d', Ok (q, w)) ->
    exists g dt, f_data (r_file w) = Some g
    /\ (forall m, a_mode a = Some m -> f_mode (r_file w) = Some m)
    /\ g_datatype g = Some (dtype_name dt)
    /\ (forall s, a_datatype a = Some s -> dtype_of_name s = Some dt)
    /\ (forall x, a_window a = Some x -> g_window g = Some x)
    /\ (forall c, a_cal a = Some c -> r_cal w = c)
    /\ (a_cal a = None -> r_cal w = series_default).
Proof.
  intros a d p d' q w Hm Hw. destruct (writer_init_fresh _ _ _ _ _ _ Hm Hw) as [K _].
  destruct (configure_skeleton _ _ _ K) as (m & dt & wn & Hf & Hr & _ & _ & _ & H1 & H2 & H3).
  rewrite Hf. eexists; exists dt. split; [reflexivity|]. cbn [f_mode fresh g_datatype g_window].
  split; [intros m' Hm'; now rewrite (H1 m' Hm')|]. split; [reflexivity|]. split; [exact H2|].
  split; [intros x Hx; now rewrite (H3 x Hx)|].
  rewrite Hr. cbn [r_cal]. split; [intros c ->; reflexivity | intros ->; reflexivity].
Qed.
Print Assumptions C31_arguments_stored.

(** * C32 A stored configuration can be read back *)

(** store_config writes a root attribute, get_config reads an attribute of the data group. *)
Theorem C32_config_refuted :
  forall a d p d' q w c,
    a_modify a = false -> writer_init a d p = (d', Ok (q, w)) -> c <> [] ->
    get_config (r_file (store_config w c)) = Ok [] /\ get_config (r_file (store_config w c)) <> Ok c.
Proof.
  intros a d p d' q w c Hm Hw Hc.
  assert (E : get_config (r_file (store_config w c)) = Ok []).
  { destruct (writer_newborn _ _ _ _ _ _ Hm Hw) as (m & dt & wn & c' & -> & _). reflexivity. }
  split; [exact E|]. rewrite E. congruence.
Qed.
Print Assumptions C32_config_refuted.

(** The text can only be fetched as root attribute (reader["config"]); missing: get_config. *)
Theorem C32_config_partial : forall w c, getitem_config (r_file (store_config w c)) = Ok c.
Proof. reflexivity. Qed.
Print Assumptions C32_config_partial.

(** The host name, stored and read at the same place, does survive appends and closing. *)
Theorem C32_hostname : forall w name, get_hostname (r_file (store_hostname w name)) = name.
Proof. reflexivity. Qed.
Print Assumptions C32_hostname.

(** * C33 Re-opening a recording keeps its sample interval *)

(** The derived interval is (n - 1) / n of the true one, for every recording. *)
Theorem C33_interval_refuted :
  forall c t0 dt n s,
    (2 <= n)%nat -> 0 < dt -> (0 < gain (c_time c))%Q -> (offset (c_time c) == 0)%Q ->
    exists s', refresh c (equidistant t0 dt n) s = Ok s'
      /\ (st_interval_s s' < inject_Z dt * gain (c_time c))%Q.
Proof.
  intros c t0 dt n s Hn Hd Hg Ho.
  destruct (refresh_equidistant c t0 dt n s Hn Hd Hg Ho) as (s' & H1 & _ & H3). exists s'. split; [exact H1|].
  rewrite H3.
  assert (0 < inject_Z dt)%Q by (change 0%Q with (inject_Z 0); rewrite <- Zlt_Qlt; lia).
  assert (0 < inject_Z dt * gain (c_time c))%Q by now apply Qmult_lt_0_compat.
  assert (N0 : (0 < inject_Z (Z.of_nat n))%Q) by (change 0%Q with (inject_Z 0); rewrite <- Zlt_Qlt; lia).
  assert (L : (inject_Z (Z.of_nat n - 1) / inject_Z (Z.of_nat n) < 1)%Q).
  { apply Qlt_shift_div_r; [exact N0|]. rewrite Qmult_1_l, <- Zlt_Qlt. lia. }
  rewrite <- (Qmult_1_l (inject_Z dt * gain (c_time c))) at 2. apply Qmult_lt_compat_r; assumption.
Qed.
Print Assumptions C33_interval_refuted.

(** Effect: a recording of two samples continued with a scalar time stamp gets 5 us steps. *)
Theorem C33_append_refuted :
  exists d p w w',
    lookup d p = Some (NFile (simple_file series_default [0; 10000] [1; 1] [1; 1])) /\
    snd (writer_init reopen d p) = Ok (p, w) /\
    append_raw w (TsScalar 20000) [1; 1; 1] [1; 1; 1] = Ok w' /\
    f_time (r_file w') = [0; 10000; 20000; 25000; 30000].
Proof.
  exists [(("d", "rec.h5")%string, NFile (simple_file series_default [0; 10000] [1; 1] [1; 1]))],
    ("d", "rec.h5")%string. do 2 eexists. repeat (split; [reflexivity|]). reflexivity.
Qed.
Print Assumptions C33_append_refuted.

(** The rate is right, and the exact size of the error of the interval; missing: the interval. *)
Theorem C33_rate_partial :
  forall c t0 dt n s,
    (2 <= n)%nat -> 0 < dt -> (0 < gain (c_time c))%Q -> (offset (c_time c) == 0)%Q ->
    exists s', refresh c (equidistant t0 dt n) s = Ok s'
      /\ st_rate s' = Z.max (qround (1 / (inject_Z dt * gain (c_time c)))) 1
      /\ (st_interval_s s' == inject_Z (Z.of_nat n - 1) / inject_Z (Z.of_nat n) * (inject_Z dt * gain (c_time c)))%Q.
Proof. exact refresh_equidistant. Qed.
Print Assumptions C33_rate_partial.

(** With nanosecond time stamps every 10 us the rate is 100 kHz, for every length. *)
Theorem C33_default_rate_partial :
  forall t0 n s, (2 <= n)%nat ->
    exists s', refresh series_default (equidistant t0 10000 n) s = Ok s' /\ st_rate s' = 100000.
Proof.
  intros t0 n s Hn.
  destruct (refresh_equidistant series_default t0 10000 n s Hn) as (s' & H1 & H2 & _);
    [lia | reflexivity | reflexivity |]. exists s'. split; [exact H1|]. rewrite H2. reflexivity.
Qed.
Print Assumptions C33_default_rate_partial.

(** * C34 Energy of a recording is independent of how it is blocked *)

Theorem C34_energy :
  forall r, let f := r_file r in
    length (f_voltage f) = length (f_current f) -> 0 < r_max_elements r ->
    (energy r == st_interval_s (r_stats r)
       * power_sum (c_voltage (r_cal r)) (c_current (r_cal r)) (f_voltage f) (f_current f))%Q.
Proof. exact energy_spec. Qed.
Print Assumptions C34_energy.

Example C34_example :
  let c := mkSeries (mkPair 2 1) (mkPair 3 0) (mkPair (1 # 1000000000) 0) in
  let f := simple_file c [0; 1; 2; 3; 4] [1; 2; 3; 4; 5] [1; 0; 1; 0; 1] in
  (energy (mkReader f c stats_init 2) == (3 * 3 + 7 * 3 + 11 * 3) / 100000)%Q.
Proof. reflexivity. Qed.

(** * C35 Dataset statistics describe the whole dataset *)

Theorem C35_min_max :
  forall m c data st, (0 < m)%nat -> dset_statistics m c data = Some st ->
    ((exists x, In x data /\ s_min st == raw_to_si c x) /\ (forall x, In x data -> s_min st <= raw_to_si c x)
    /\ (exists x, In x data /\ s_max st == raw_to_si c x) /\ (forall x, In x data -> raw_to_si c x <= s_max st))%Q.
Proof. exact statistics_minmax. Qed.
Print Assumptions C35_min_max.

(** The mean is right if the length is a multiple of the block size; missing: other lengths. *)
Theorem C35_mean_partial :
  forall m c data k st,
    (0 < m)%nat -> (0 < k)%nat -> length data = (k * m)%nat -> dset_statistics m c data = Some st ->
    (s_mean st == si_sum c data / inject_Z (Z.of_nat (length data)))%Q.
Proof. exact statistics_mean. Qed.
Print Assumptions C35_mean_partial.

Theorem C35_short_mean_partial :
  forall m c data st,
    (length data <= m)%nat -> dset_statistics m c data = Some st ->
    (s_mean st == si_sum c data / inject_Z (Z.of_nat (length data)))%Q.
Proof. exact statistics_mean_short. Qed.
Print Assumptions C35_short_mean_partial.

(** 4 000 000 zeros (the block size in use) and a single one: the mean is said to be one half. *)
Theorem C35_mean_refuted :
  exists data st,
    Z.of_nat (length data) = 4000001
    /\ dset_statistics (Z.to_nat 4000000) (mkPair 1 0) data = Some st
    /\ (s_mean st == 1 # 2)%Q
    /\ (si_sum (mkPair 1 0) data / inject_Z (Z.of_nat (length data)) == 1 # 4000001)%Q.
Proof.
  set (N := Z.to_nat 4000000). assert (HN : Z.of_nat N = 4000000) by (unfold N; lia). clearbody N.
  exists (repeat 0 N ++ [1]).
  destruct (statistics_outlier N) as (st & H1 & H2 & H3); [lia|].
  exists st. rewrite app_length, repeat_length. cbn [length].
  assert (E : Z.of_nat (N + 1) = 4000001) by lia. rewrite E.
  split; [reflexivity|]. split; [exact H1|]. split; [exact H2|]. rewrite H3. reflexivity.
Qed.
Print Assumptions C35_mean_refuted.

Example C35_example :
  dset_statistics 2 (mkPair 1 0) [4; 2; 9; 7]
  = Some (mkDstats (qmean [qmean [4#1;2#1]; qmean [9#1;7#1]]) 2 9)%Q
  /\ dset_statistics 2 (mkPair 1 0) [] = None.
Proof. split; reflexivity. Qed.

(** * C36 The time-continuity check detects every jump and never crashes *)

(** Exactly: recordings of up to one buffer crash; otherwise all neighbouring buffers are compared
    except those at multiples of 400.  Missing: the property at these places. *)
Theorem C36_check_partial :
  forall r, r_max_elements r = 4000000 ->
    let time := f_time (r_file r) in
    (Z.of_nat (length time) <= 10000 -> check_timediffs r = Err IndexError)
    /\ (10000 < Z.of_nat (length time) ->
        exists b, check_timediffs r = Ok b
        /\ (b = true <-> forall k, (Z.of_nat k + 1) * 10000 < Z.of_nat (length time) ->
                                   (Z.of_nat k + 1) mod 400 <> 0 -> buffer_ok (c_time (r_cal r)) time k)).
Proof. exact check_spec. Qed.
Print Assumptions C36_check_partial.

Theorem C36_crash_refuted :
  exists t v i, t <> [] /\ is_valid (simple_file series_default t v i) = true
    /\ check_timediffs (simple_reader series_default t v i) = Err IndexError.
Proof.
  exists [0; 10000], [1; 1], [1; 1]. split; [discriminate|]. split; [reflexivity|].
  apply (check_spec (simple_reader series_default [0; 10000] [1; 1] [1; 1]) eq_refl). cbn. lia.
Qed.
Print Assumptions C36_crash_refuted.

(** A jump of one second after 40 s of recording is not seen. *)
Theorem C36_jump_refuted :
  exists time k,
    (Z.of_nat k + 1) * 10000 < Z.of_nat (length time)
    /\ ~ buffer_ok (c_time series_default) time k
    /\ check_timediffs (simple_reader series_default time [] []) = Ok true.
Proof. exact check_misses_jump. Qed.
Print Assumptions C36_jump_refuted.

(** * C37 Automatic voltage-step detection finds the step of the curve *)

(** For rising stair cases the step is found, but in raw units, taken as mV; missing: the
    conversion to volt and falling stair cases. *)
Theorem C37_raw_step_partial :
  forall r s,
    let dsv := firstn 2000 (f_voltage (r_file r)) in
    get_config (r_file r) = Ok [] -> 0 < s < 2 ^ 32 ->
    adjacent (fun a b => b = a \/ b = a + s \/ a - (2 ^ 32 - s) <= b < a) dsv ->
    (exists j, (S j < length dsv)%nat /\ nth (S j) dsv 0 = nth j dsv 0 + s) ->
    get_voltage_step r = Ok (Some ((1 # 1000) * inject_Z s)%Q).
Proof. exact voltage_step_raw. Qed.
Print Assumptions C37_raw_step_partial.

(** A ramp of 3 mV steps in the default calibration is reported as 1000 V. *)
Theorem C37_unit_refuted :
  let v := [0; 1000000; 2000000; 3000000; 4000000] in
  let r := simple_reader series_default [] v [] in
  (raw_to_si (c_voltage (r_cal r)) 1000000 == 3 # 1000)%Q
  /\ exists x, get_voltage_step r = Ok (Some x) /\ (x == 1000)%Q.
Proof. split; [reflexivity|]. eexists. split; reflexivity. Qed.
Print Assumptions C37_unit_refuted.

(** A falling ramp: the differences wrap around. *)
Theorem C37_falling_refuted :
  let v := [4000000; 3000000; 2000000; 1000000; 0] in
  exists x, get_voltage_step (simple_reader series_default [] v []) = Ok (Some x)
    /\ (x == (2 ^ 32 - 1000000) / 1000)%Q.
Proof. eexists. split; reflexivity. Qed.
Print Assumptions C37_falling_refuted.

(** A configured step is used as it is, in mV. *)
Theorem C37_configured_partial :
  forall r g c s mv,
    f_data (r_file r) = Some g -> g_config g = Some c ->
    assoc "virtual_harvester" c = Some s -> assoc "voltage_step_mV" s = Some mv ->
    get_voltage_step r = Ok (Some ((1 # 1000) * mv)%Q).
Proof.
  intros r g c s mv Hg Hc Hs Hm. unfold get_voltage_step, get_config. rewrite Hg, Hc. cbn [bind].
  rewrite Hs, Hm. reflexivity.
Qed.
Print Assumptions C37_configured_partial.

(** * C58 A file called valid has the promised structure *)

(** Exactly the well-structured files are valid; missing: equal lengths of the datasets. *)
Theorem C58_structure_iff_partial : forall f, is_valid f = true <-> well_structured f.
Proof. exact valid_structure. Qed.
Print Assumptions C58_structure_iff_partial.

(** Datasets of different lengths only lead to a warning. *)
Theorem C58_lengths_refuted :
  exists f, is_valid f = true /\ length (f_voltage f) <> length (f_current f)
    /\ length (f_voltage f) <> length (f_time f).
Proof. exists (simple_file series_default [0] [1; 2] [1; 2; 3]). cbn. repeat split; lia. Qed.
Print Assumptions C58_lengths_refuted.

(** A curve recording without window is refused. *)
Example C58_example :
  let f w := mkH5 (Some "harvester"%string) None None
               (Some (mkGrp (Some "ivcurves"%string) w None
                  (Some (mkDset (Some 1%Q) (Some 0%Q) [])) (Some (mkDset (Some 1%Q) (Some 0%Q) []))
                  (Some (mkDset (Some 1%Q) (Some 0%Q) [])))) in
  is_valid (f (Some 100)) = true /\ is_valid (f (Some 0)) = false /\ is_valid (f None) = false.
Proof. repeat split. Qed.

(** * C61 Values appended in SI units are stored as the nearest raw values *)

Theorem C61_si_stored :
  forall a d p d' q w bs,
    let c := match a_cal a with Some c => c | None => series_default end in
    a_modify a = false -> writer_init a d p = (d', Ok (q, w)) ->
    exists w' rs, appends_si w bs = Ok w' /\ holds_rows (r_file w') rs
      /\ Forall2 (row_stored c) (flat_map (rows_si (c_time c)) bs) rs.
Proof.
  intros a d p d' q w bs c Hm Hw.
  exact (si_rows w c bs (writer_newborn _ _ _ _ _ _ Hm Hw) (writer_cal _ _ _ _ _ _ Hm Hw)).
Qed.
Print Assumptions C61_si_stored.

Example C61_example :
  match writer_init plain_args [] ("dir", "rec.h5")%string with
  | (_, Ok (_, w)) =>
    match appends_si w [(SiArray [1 # 1; 100001 # 100000], [3 # 1; -1 # 1], [1 # 100; 2 # 100])]%Q with
    | Ok w' => (f_time (r_file w'), f_voltage (r_file w'), f_current (r_file w'))
               = ([1000000000; 1000010000], [1000000000; 0], [40000000; 80000000])
    | _ => False
    end
  | _ => False
  end.
Proof. vm_compute. reflexivity. Qed.
