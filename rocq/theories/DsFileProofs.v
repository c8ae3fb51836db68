(** Proofs about cut_and_downsample_to_file, save_csv and the command line. *)
From Coq Require Import QArith Qabs Qround String Lqa.
From Verif Require Import PyBase UartModel UartProofs FileModel FileSpec FileSysProofs FileDataProofs
  FileReadProofs FileSiProofs DsModel DsSpec DsProofs.
From RecordUpdate Require Import RecordUpdate.
Open Scope Z_scope.

(* ------------------------------------------------------------------ refutations of downsample *)

Definition np_env : dsenv unit Z Z := mkEnv tt (fun _ s x => (s, x)) (fun x => x) 0 ValueError.
Definition ramp (n : Z) : list Z := map Z.of_nat (seq 0 (Z.to_nat n)).
Lemma ramp_length n : List.length (ramp n) = Z.to_nat n.
Proof. unfold ramp. rewrite map_length, seq_length. reflexivity. Qed.
Lemma ramp_nth n j : (j < Z.to_nat n)%nat -> nth_error (ramp n) j = Some (Z.of_nat j).
Proof.
  intros H. unfold ramp. rewrite nth_error_map.
  assert (E : nth_error (seq 0 (Z.to_nat n)) j = Some j).
  { rewrite (nth_error_nth' _ 0%nat) by (rewrite seq_length; exact H). rewrite seq_nth by exact H. reflexivity. }
  rewrite E. reflexivity.
Qed.

Lemma block3 : Z.of_nat (Z.to_nat 1333333) =
  qround (inject_Z (Z.of_nat (Z.to_nat 4000000)) / inject_Z (Z.of_nat 3)).
Proof. rewrite !Z2Nat.id by lia. vm_compute. reflexivity. Qed.

Lemma irregular : exists out,
  downsample np_env (Z.to_nat 4000000) (ramp 8000000) None 0 None 3 true = (Some out, None)
  /\ nth_error out (Z.to_nat 1333333) = Some 4000000.
Proof.
  pose proof (run_multi np_env (Z.to_nat 4000000) (ramp 8000000) None 0 None 3 true 3 eq_refl
    ltac:(lia)) as H.
  cbn zeta in H. rewrite Nat.min_0_r, Nat.sub_0_r, ramp_length in H.
  specialize (H ltac:(lia) 1%nat (Z.to_nat 1333333)).
  specialize (H ltac:(lia) ltac:(lia) ltac:(lia) block3 ltac:(lia)).
  assert (Hd : (Z.to_nat 8000000 / 3 = Z.to_nat 2666666)%nat).
  { symmetry. apply (Nat.div_unique _ _ _ 2); lia. }
  rewrite Hd in H.
  destruct H as (out & E & L & V).
  { unfold ceil_div.
    apply Nat.div_le_lower_bound; lia. }
  exists out. split; [exact E|]. rewrite V by lia.
  set (o := Z.to_nat 1333333).
  assert (Ho : (0 < o)%nat) by (unfold o; lia).
  rewrite Nat.div_same, Nat.mod_same by lia.
  rewrite Nat.mul_0_l, Nat.add_0_r, Nat.mul_1_l. cbn [skipn signal orb].
  unfold signal. cbn [orb np_env e_copy]. rewrite ramp_nth by lia.
  cbn [option_map]. rewrite Z2Nat.id by lia. reflexivity.
Qed.

Lemma misfit {S} (env : dsenv S Z Z) src dst is_time : List.length src = Z.to_nat 24010000 ->
  exists d, downsample env (Z.to_nat 4000000) src dst 0 (Some (Z.to_nat 24010000)) 3 is_time
    = (Some d, Some (e_exn env)).
Proof.
  intros Hs.
  pose proof (run_multi_fails env (Z.to_nat 4000000) src dst 0 (Some (Z.to_nat 24010000)) 3 is_time 3 eq_refl
    ltac:(lia)) as H.
  cbn zeta in H. rewrite Hs, Nat.min_id, Nat.min_0_r, Nat.sub_0_r in H.
  specialize (H ltac:(lia) 6%nat (Z.to_nat 1333333)).
  specialize (H ltac:(lia) ltac:(lia) ltac:(lia) block3 ltac:(lia)).
  assert (Hd : (Z.to_nat 24010000 / 3 = Z.to_nat 8003333)%nat).
  { symmetry. apply (Nat.div_unique _ _ _ 1); lia. }
  rewrite Hd in H.
  assert (Ha : ceil_div (Nat.min (Z.to_nat 4000000) (Z.to_nat 24010000 - 0 - 6 * Z.to_nat 4000000)) 3
               = Z.to_nat 3334).
  { unfold ceil_div. symmetry. apply (Nat.div_unique _ _ _ 0); lia. }
  rewrite Nat.sub_0_r in Ha. rewrite Ha in H. apply H; lia.
Qed.

(* ------------------------------------------------------------------ runtime *)

Lemma qround_div_exact (a b q : Z) : 0 < b -> a = q * b -> qround (inject_Z a / inject_Z b) = q.
Proof.
  intros Hb ->. apply qround_near.
  setoid_replace (inject_Z (q * b) / inject_Z b - inject_Z q)%Q with 0%Q; [reflexivity|].
  rewrite inject_Z_mult. field. intros E. unfold Qeq in E. simpl in E. lia.
Qed.

Lemma rate_nonzero z : 0 < z -> ~ (inject_Z z == 0)%Q.
Proof. intros H E. unfold Qeq in E. simpl in E. lia. Qed.

Lemma runtime_exact r q : 0 < st_rate (r_stats r) ->
  10 * Z.of_nat (List.length (f_voltage (r_file r))) = q * st_rate (r_stats r) ->
  to_sample r (runtime_s r) = Z.of_nat (List.length (f_voltage (r_file r))).
Proof.
  unfold to_sample, runtime_s, round1. set (n := Z.of_nat _). set (R := st_rate _). clearbody n R.
  intros HR Hq.
  pose proof (rate_nonzero R HR) as HR0.
  assert (E : qround (inject_Z n / inject_Z R * 10) = q).
  { rewrite (qround_compat _ (inject_Z (10 * n) / inject_Z R)).
    - apply qround_div_exact; [exact HR|exact Hq].
    - rewrite inject_Z_mult. change (inject_Z 10) with 10%Q. field. exact HR0. }
  rewrite E.
  apply qround_near.
  setoid_replace (inject_Z q / 10 * inject_Z R - inject_Z n)%Q with 0%Q; [reflexivity|].
  assert (E2 : (inject_Z q * inject_Z R == 10 * inject_Z n)%Q).
  { rewrite <- inject_Z_mult. rewrite <- Hq. rewrite inject_Z_mult. reflexivity. }
  setoid_replace (inject_Z q / 10 * inject_Z R)%Q with (inject_Z q * inject_Z R / 10)%Q by field.
  rewrite E2. field.
Qed.

Lemma runtime_bound r : 0 < st_rate (r_stats r) ->
  20 * Z.abs (to_sample r (runtime_s r) - Z.of_nat (List.length (f_voltage (r_file r))))
  <= st_rate (r_stats r) + 10.
Proof.
  unfold to_sample, runtime_s, round1. set (n := Z.of_nat _). set (R := st_rate _). clearbody n R.
  intros HR. pose proof (rate_nonzero R HR) as HR0.
  set (a := qround (inject_Z n / inject_Z R * 10)).
  pose proof (qround_half (inject_Z n / inject_Z R * 10)) as H1. fold a in H1.
  set (b := qround (inject_Z a / 10 * inject_Z R)).
  pose proof (qround_half (inject_Z a / 10 * inject_Z R)) as H2. fold b in H2.
  clearbody a b.
  apply Qabs_Qle_condition in H1. apply Qabs_Qle_condition in H2.
  destruct H1 as [A1 A2], H2 as [B1 B2].
  assert (HRp : (0 < inject_Z R)%Q) by (change 0%Q with (inject_Z 0); rewrite <- Zlt_Qlt; lia).
  set (x := (inject_Z n / inject_Z R)%Q) in *.
  assert (Hx : (x * inject_Z R == inject_Z n)%Q) by (unfold x; field; exact HR0). clearbody x.
  apply (Qmult_le_compat_r _ _ (inject_Z R)) in A1; [|lra].
  apply (Qmult_le_compat_r _ _ (inject_Z R)) in A2; [|lra].
  set (y := (inject_Z a / 10 * inject_Z R)%Q) in *.
  assert (Hy : (y * 10 == inject_Z a * inject_Z R)%Q) by (unfold y; field). clearbody y.
  assert (C1 : (inject_Z (20 * b - 20 * n) <= inject_Z (R + 10))%Q).
  { unfold Z.sub. rewrite !inject_Z_plus, inject_Z_opp, !inject_Z_mult.
    change (inject_Z 20) with 20%Q. change (inject_Z 10) with 10%Q. nra. }
  assert (C2 : (inject_Z (20 * n - 20 * b) <= inject_Z (R + 10))%Q).
  { unfold Z.sub. rewrite !inject_Z_plus, inject_Z_opp, !inject_Z_mult.
    change (inject_Z 20) with 20%Q. change (inject_Z 10) with 10%Q. nra. }
  rewrite <- Zle_Qle in C1, C2. lia.
Qed.

(* ------------------------------------------------------------------ cut & downsample *)

Lemma preserved_refl d : preserved d d.
Proof. intros p n H. exact H. Qed.
Lemma preserved_trans a b c : preserved a b -> preserved b c -> preserved a c.
Proof. intros H1 H2 p n H. apply H2, H1, H. Qed.

Lemma cut_preserves fl d p r ss es factor d' x :
  cut_and_downsample fl d p r ss es factor = (d', x) -> preserved d d'.
Proof.
  unfold cut_and_downsample.
  destruct (_ <? _); [intros [= <- _]; apply preserved_refl|].
  destruct (qltb factor 1); [intros [= <- _]; apply preserved_refl|].
  destruct (qltb _ 1000); [intros [= <- _]; apply preserved_refl|].
  set (q := out_path _ _ _ _ _).
  destruct (exists_ d q) eqn:Ex; [intros [= <- _]; apply preserved_refl|].
  destruct (f_data (r_file r)) as [g|]; [|intros [= <- _]; apply preserved_refl].
  destruct (writer_init _ d q) as [d1 w0] eqn:Ew. set (a := mkArgs _ _ _ _ _ _) in Ew.
  destruct (writer_init_new a _ _ _ _ eq_refl eq_refl Ew) as [P1 P2].
  destruct w0 as [[q1 w]|y]; [|intros [= <- _]; exact P1].
  destruct (P2 q1 w eq_refl) as (Hq & _ & _).
  assert (P3 : forall n, preserved d (store d1 q1 n)).
  { intros n p' m Hm. rewrite lookup_store. destruct (path_eqb q1 p') eqn:E.
    - apply path_eqb_eq in E. congruence.
    - apply P1. exact Hm. }
  destruct (get_config _) as [c|y]; [|intros [= <- _]; exact P1].
  destruct (ds_all _ _ _ _ _) as [[[t v] i] y].
  destruct (close _) as [f|z]; intros [= <- _]; apply P3.
Qed.

Lemma set_values_store w h c t v i : has_ds (r_file w) ->
  let f := set_values (r_file (store_config (store_hostname w h) c)) t v i in
  has_ds f /\ f_time f = t /\ f_voltage f = v /\ f_current f = i.
Proof.
  intros H f.
  assert (H1 : has_ds (r_file (store_config (store_hostname w h) c))).
  { destruct H as (g & a & b & e & H). exists g, a, b, e. exact H. }
  split; [apply set_values_has; exact H1|].
  unfold f. rewrite f_time_set, f_voltage_set, f_current_set by exact H1. auto.
Qed.

Lemma cut_new fl d p r ss es factor d' q :
  cut_and_downsample fl d p r ss es factor = (d', Ok q) -> lookup d q = None ->
  let s := Z.to_nat (to_sample r (cut_start ss)) in
  let e := Z.to_nat (to_sample r (cut_end r es)) in
  exists f' t v i,
    lookup d' q = Some (NFile f')
    /\ ds_into fl r (f_time (r_file r)) s e factor true = (t, None)
    /\ ds_into fl r (f_voltage (r_file r)) s e factor false = (v, None)
    /\ ds_into fl r (f_current (r_file r)) s e factor false = (i, None)
    /\ (List.length t = List.length v -> List.length i = List.length v ->
        exists m, columns f' (firstn m t) (firstn m v) (firstn m i)
          /\ (m = List.length v \/ m = Z.to_nat (Z.of_nat (List.length v) / 10000 * 10000))).
Proof.
  intros H Hq s e. unfold cut_and_downsample in H.
  fold s in H. fold e in H.
  destruct (_ <? _); [discriminate|].
  destruct (qltb factor 1); [discriminate|].
  destruct (qltb _ 1000); [discriminate|].
  set (q0 := out_path _ _ _ _ _) in H.
  destruct (exists_ d q0) eqn:Ex.
  { injection H as <- <-. apply exists_spec in Ex. congruence. }
  destruct (f_data (r_file r)) as [g|]; [|discriminate].
  destruct (writer_init _ d q0) as [d1 w0] eqn:Ew. set (a := mkArgs _ _ _ _ _ _) in Ew.
  destruct w0 as [[q1 w]|y]; [|discriminate].
  destruct (writer_init_new a _ _ _ _ eq_refl eq_refl Ew) as [_ P2].
  destruct (P2 q1 w eq_refl) as (_ & Hsame & _).
  apply not_exists_spec in Ex. specialize (Hsame Ex). subst q1.
  pose proof (writer_newborn a _ _ _ _ _ eq_refl Ew) as Hnb.
  destruct (newborn_sess _ Hnb) as ((Hds & _) & Hst).
  destruct (get_config _) as [c|y]; [|discriminate].
  unfold ds_all in H.
  destruct (ds_into fl r (f_time (r_file r)) s e factor true) as [t [xt|]].
  { destruct (close _); discriminate. }
  destruct (ds_into fl r (f_voltage (r_file r)) s e factor false) as [v [xv|]].
  { destruct (close _); discriminate. }
  destruct (ds_into fl r (f_current (r_file r)) s e factor false) as [i [xi|]].
  { destruct (close _); discriminate. }
  set (w2 := _ <| r_file := _ |>) in H.
  destruct (close w2) as [f'|y] eqn:Ec; [|discriminate].
  injection H as <- <-.
  exists f', t, v, i. rewrite lookup_store, path_eqb_refl.
  repeat (split; [reflexivity|]). intros L1 L2.
  destruct (set_values_store w (get_hostname (r_file r)) c t v i Hds) as (W0 & W1 & W2 & W3).
  assert (Hsess : sess w2).
  { split; [exact W0|]. unfold w2. cbn [r_file set]. cbn.
    cbn in W1, W2, W3. rewrite W1, W2, W3. auto. }
  destruct (close_spec _ _ Hsess Ec) as (m & st & _ & Hm & Hf).
  assert (F1 : f_time (r_file w2) = t) by exact W1.
  assert (F2 : f_voltage (r_file w2) = v) by exact W2.
  assert (F3 : f_current (r_file w2) = i) by exact W3.
  rewrite F1, F2, F3 in Hf. rewrite F2 in Hm.
  exists m. split.
  - subst f'. unfold columns.
    assert (H0 : has_ds (r_file w2)) by apply Hsess.
    rewrite f_time_set, f_voltage_set, f_current_set by exact H0. auto.
  - destruct (st_rate st =? 100000); auto.
Qed.

Lemma into_every fl r src s0 e0 factor is_time n :
  let e := Nat.min (List.length src) e0 in
  let s := Nat.min e s0 in
  Z.of_nat n = Z.max 1 (Qfloor factor) -> (1 <= Z.to_nat (r_max_elements r))%nat -> (1 <= e - s)%nat ->
  (e - s <= Z.to_nat (r_max_elements r) \/ Nat.divide n (Z.to_nat (r_max_elements r)))%nat ->
  exists out, ds_into fl r src s0 e0 factor is_time = (out, None)
    /\ every_nth n (e - s) (signal (file_env fl) is_time n (slice s e src)) out.
Proof.
  intros e s Hn Hmax Hlen H.
  destruct (run_every (file_env fl) _ src (Some []) s0 (Some e0) factor is_time n Hn Hmax Hlen H)
    as (out & E & V).
  exists out. split; [|exact V]. unfold ds_into. rewrite E. reflexivity.
Qed.

Lemma cut_every fl d p r ss es factor d' q n L :
  let s0 := Z.to_nat (to_sample r (cut_start ss)) in
  let e0 := Z.to_nat (to_sample r (cut_end r es)) in
  let e := Nat.min L e0 in
  cut_and_downsample fl d p r ss es factor = (d', Ok q) -> lookup d q = None ->
  List.length (f_time (r_file r)) = L -> List.length (f_voltage (r_file r)) = L ->
  List.length (f_current (r_file r)) = L -> r_max_elements r = 4000000 ->
  Z.of_nat n = Z.max 1 (Qfloor factor) -> (s0 < e)%nat ->
  (e - s0 <= Z.to_nat 4000000 \/ Nat.divide n (Z.to_nat 4000000))%nat ->
  exists f' t v i m,
    lookup d' q = Some (NFile f')
    /\ every_nth n (e - s0) (signal (file_env fl) true n (slice s0 e (f_time (r_file r)))) t
    /\ every_nth n (e - s0) (signal (file_env fl) false n (slice s0 e (f_voltage (r_file r)))) v
    /\ every_nth n (e - s0) (signal (file_env fl) false n (slice s0 e (f_current (r_file r)))) i
    /\ columns f' (firstn m t) (firstn m v) (firstn m i)
    /\ (m = List.length v \/ m = Z.to_nat (Z.of_nat (List.length v) / 10000 * 10000)).
Proof.
  intros s0 e0 e H Hq Lt Lv Lc Hm Hn Hse Hc.
  destruct (cut_new _ _ _ _ _ _ _ _ _ H Hq) as (f' & t & v & i & Hf & Et & Ev & Ei & Hcol).
  fold s0 in Et, Ev, Ei. fold e0 in Et, Ev, Ei.
  assert (Hs : Nat.min e s0 = s0) by lia.
  assert (K : forall src is_time out, List.length src = L -> ds_into fl r src s0 e0 factor is_time = (out, None) ->
    every_nth n (e - s0) (signal (file_env fl) is_time n (slice s0 e src)) out).
  { intros src b out Hl Ho.
    destruct (into_every fl r src s0 e0 factor b n) as (out' & E & V); rewrite ?Hl, ?Hm; fold e;
      rewrite ?Hs; auto; try lia.
    rewrite Ho in E. injection E as <-. rewrite Hl in V. fold e in V. rewrite Hs in V. exact V. }
  apply K in Et; [|exact Lt]. apply K in Ev; [|exact Lv]. apply K in Ei; [|exact Lc].
  destruct Hcol as (m & C & D).
  { rewrite (proj1 Et), (proj1 Ev). reflexivity. }
  { rewrite (proj1 Ei), (proj1 Ev). reflexivity. }
  exists f', t, v, i, m. auto 10.
Qed.

(** A file that is already there is reported as the result, whatever it contains. *)
Lemma cut_existing fl d p r ss es factor :
  let s := cut_start ss in let e := cut_end r es in
  (to_sample r e <? to_sample r s) = false -> qltb factor 1 = false ->
  qltb (inject_Z (to_sample r e - to_sample r s) / factor) 1000 = false ->
  exists_ d (out_path r p s e factor) = true ->
  cut_and_downsample fl d p r ss es factor = (d, Ok (out_path r p s e factor)).
Proof.
  intros s e H1 H2 H3 H4. unfold cut_and_downsample. fold s. fold e.
  rewrite H1, H2, H3, H4. reflexivity.
Qed.

(** Recording with the default calibration, opened by a Reader that sees 100 kHz. *)
Definition rec_reader (t v i : list Z) : reader := simple_reader series_default t v i.
Definition out_args : wargs :=
  mkArgs (Some "harvester"%string) (Some "ivsample"%string) (Some 0) (Some series_default) false false.

Lemma writer_rec d q : lookup d q = None ->
  exists w, writer_init out_args d q = (store d q (NFile (r_file w)), Ok (q, w)) /\ newborn w /\ r_cal w = series_default.
Proof.
  intros H. unfold writer_init, choose_path. cbn [a_modify a_overwrite out_args orb].
  apply not_exists_spec in H as Hx. rewrite Hx. cbn [negb]. rewrite H.
  destruct (configure out_args skeleton) as [f r] eqn:E.
  assert (Hr : exists w, r = Ok w /\ f = r_file w /\ r_cal w = series_default).
  { vm_compute in E. injection E as <- <-. eexists. split; [reflexivity|]. split; reflexivity. }
  destruct Hr as (w & -> & -> & Hw). exists w. split; [reflexivity|]. split; [|exact Hw].
  apply (writer_newborn out_args d q (store d q (NFile (r_file w))) q w eq_refl).
  unfold writer_init, choose_path. cbn [a_modify a_overwrite out_args orb]. rewrite Hx. cbn [negb]. rewrite H, E.
  reflexivity.
Qed.

Lemma cut_rec fl d p t v i ss es factor dt dv di x :
  let r := rec_reader t v i in
  let s := cut_start ss in let e := cut_end r es in
  let q := out_path r p s e factor in
  (to_sample r e <? to_sample r s) = false -> qltb factor 1 = false ->
  qltb (inject_Z (to_sample r e - to_sample r s) / factor) 1000 = false ->
  lookup d q = None ->
  ds_all fl r (Z.to_nat (to_sample r s)) (Z.to_nat (to_sample r e)) factor = (dt, dv, di, x) ->
  exists d', cut_and_downsample fl d p r ss es factor = (d', match x with Some y => Err y | None => Ok q end)
    /\ exists_ d' q = true.
Proof.
  intros r s e q H1 H2 H3 H4 H5. unfold cut_and_downsample. fold s. fold e.
  rewrite H1, H2, H3. fold q. apply not_exists_spec in H4 as Hx. rewrite Hx.
  change (f_data (r_file r)) with
    (Some (mkGrp (Some "ivsample"%string) (Some 0) None
       (Some (mkDset (Some (gain (c_time series_default))) (Some (offset (c_time series_default))) t))
       (Some (mkDset (Some (gain (c_voltage series_default))) (Some (offset (c_voltage series_default))) v))
       (Some (mkDset (Some (gain (c_current series_default))) (Some (offset (c_current series_default))) i)))).
  cbv beta iota.
  match goal with |- context [writer_init ?a d q] => change a with out_args end.
  destruct (writer_rec d q H4) as (w & Ew & Hnb & Hcal). rewrite Ew.
  change (get_config (r_file r)) with (Ok (@nil (string * list (string * Q)))). cbv beta iota.
  rewrite H5.
  match goal with |- context [close ?w0] => set (w2 := w0) end.
  assert (Hc : exists f', close w2 = Ok f').
  { assert (Hcal2 : r_cal w2 = series_default) by exact Hcal. clearbody w2.
    unfold close, align.
    assert (Hg : forall tm st, exists st', refresh (r_cal w2) tm st = Ok st').
    { intros tm st. apply refresh_ok; rewrite Hcal2; [reflexivity|discriminate]. }
    destruct (Hg (f_time (r_file w2)) (r_stats w2)) as (st & ->). cbn [bind].
    set (big := Z.of_nat _ / samples_per_buffer * samples_per_buffer <? _).
    destruct big; [destruct (negb _)|]; cbn [bind];
      match goal with |- context [refresh ?a ?b ?c] =>
        destruct (Hg b c) as [st' Hst']; replace (refresh a b c) with (@Ok stats st') by (symmetry; exact Hst'); cbn [bind]; eauto end. }
  destruct Hc as (f' & ->).
  exists (store (store d q (NFile (r_file w))) q (NFile f')). split; [reflexivity|].
  unfold exists_. rewrite lookup_store, path_eqb_refl. reflexivity.
Qed.

Lemma rec_lengths t v i : f_time (r_file (rec_reader t v i)) = t
  /\ f_voltage (r_file (rec_reader t v i)) = v /\ f_current (r_file (rec_reader t v i)) = i.
Proof. auto. Qed.

Lemma rec_all fl t v i e0 factor n L : List.length t = L -> List.length v = L -> List.length i = L ->
  Z.of_nat n = Z.max 1 (Qfloor factor) -> (1 <= L)%nat -> (L <= Z.to_nat 4000000)%nat -> (L <= e0)%nat ->
  exists dt dv di, ds_all fl (rec_reader t v i) 0 e0 factor = (dt, dv, di, None).
Proof.
  intros Lt Lv Li Hn H1 H2 H3. unfold ds_all.
  destruct (rec_lengths t v i) as (-> & -> & ->).
  assert (K : forall src b, List.length src = L -> exists out,
    ds_into fl (rec_reader t v i) src 0 e0 factor b = (out, None)).
  { intros src b Hl.
    destruct (into_every fl (rec_reader t v i) src 0 e0 factor b n) as (out & E & _); rewrite ?Hl; auto;
      change (r_max_elements (rec_reader t v i)) with 4000000; try lia. exists out. exact E. }
  destruct (K t true Lt) as (dt & ->). destruct (K v false Lv) as (dv & ->).
  destruct (K i false Li) as (di & ->). eauto.
Qed.

Definition zeros (n : Z) : list Z := repeat 0 (Z.to_nat n).
Lemma zeros_length n : List.length (zeros n) = Z.to_nat n.
Proof. apply repeat_length. Qed.

Lemma rec_end v t i n q : List.length v = Z.to_nat n -> 0 <= n -> 10 * n = q * 100000 ->
  to_sample (rec_reader t v i) (runtime_s (rec_reader t v i)) = n.
Proof.
  intros Hl H0 Hn. rewrite (runtime_exact _ q).
  - change (f_voltage (r_file (rec_reader t v i))) with v. rewrite Hl. lia.
  - reflexivity.
  - change (f_voltage (r_file (rec_reader t v i))) with v.
    change (st_rate (r_stats (rec_reader t v i))) with 100000. rewrite Hl. lia.
Qed.
Lemma to_sample_0 r : to_sample r 0 = 0.
Proof.
  unfold to_sample. apply qround_near.
  setoid_replace (0 * inject_Z (st_rate (r_stats r)) - inject_Z 0)%Q with 0%Q by (unfold inject_Z at 2; ring).
  reflexivity.
Qed.

Definition stale_reader : reader := rec_reader (zeros 10000) (zeros 10000) (zeros 10000).
Lemma name_26_3 r p s e : out_path r p s e (13 # 5) = out_path r p s e 3.
Proof. reflexivity. Qed.
Lemma stale fl p : exists d' q,
  cut_and_downsample fl [] p stale_reader None None (13 # 5) = (d', Ok q)
  /\ cut_and_downsample fl d' p stale_reader None None 3 = (d', Ok q).
Proof.
  assert (He : to_sample stale_reader (runtime_s stale_reader) = 10000)
    by (apply (rec_end _ _ _ _ 1); [apply zeros_length|lia|lia]).
  destruct (rec_all fl (zeros 10000) (zeros 10000) (zeros 10000) (Z.to_nat 10000) (13 # 5) 2 (Z.to_nat 10000)
              (zeros_length _) (zeros_length _) (zeros_length _) eq_refl ltac:(lia) ltac:(lia) ltac:(lia))
    as (dt & dv & di & Hds).
  destruct (cut_rec fl [] p (zeros 10000) (zeros 10000) (zeros 10000) None None (13 # 5) dt dv di None)
    as (d' & E & X); fold stale_reader; cbn [cut_start cut_end]; rewrite ?He, ?to_sample_0;
    [reflexivity|reflexivity|reflexivity|reflexivity|exact Hds|].
  fold stale_reader in E, X. cbn [cut_start cut_end] in E, X.
  exists d', (out_path stale_reader p 0 (runtime_s stale_reader) (13 # 5)). split; [exact E|].
  rewrite name_26_3 in *.
  apply (cut_existing fl d' p stale_reader None None 3);
    cbn [cut_start cut_end]; rewrite ?He, ?to_sample_0; [reflexivity|reflexivity|reflexivity|exact X].
Qed.

Definition long_reader : reader := rec_reader (zeros 24010000) (zeros 24010000) (zeros 24010000).
Lemma failed_then_ok fl p : exists d' q,
  cut_and_downsample fl [] p long_reader None None 3 = (d', Err TypeError)
  /\ cut_and_downsample fl d' p long_reader None None 3 = (d', Ok q).
Proof.
  assert (He : to_sample long_reader (runtime_s long_reader) = 24010000)
    by (apply (rec_end _ _ _ _ 2401); [apply zeros_length|lia|lia]).
  assert (Hds : exists dt, ds_all fl long_reader 0 (Z.to_nat 24010000) 3 = (dt, [], [], Some TypeError)).
  { unfold ds_all, ds_into.
    change (Z.to_nat (r_max_elements long_reader)) with (Z.to_nat 4000000).
    change (f_time (r_file long_reader)) with (zeros 24010000).
    destruct (misfit (file_env fl) (zeros 24010000) (Some []) true (zeros_length _)) as (dt & Hd).
    exists dt. rewrite Hd. reflexivity. }
  destruct Hds as (dt & Hds).
  destruct (cut_rec fl [] p (zeros 24010000) (zeros 24010000) (zeros 24010000) None None 3 dt [] [] (Some TypeError))
    as (d' & E & X); fold long_reader; cbn [cut_start cut_end]; rewrite ?He, ?to_sample_0;
    [reflexivity|reflexivity|reflexivity|reflexivity|exact Hds|].
  fold long_reader in E, X. cbn [cut_start cut_end] in E, X.
  exists d', (out_path long_reader p 0 (runtime_s long_reader) 3). split; [exact E|].
  apply (cut_existing fl d' p long_reader None None 3);
    cbn [cut_start cut_end]; rewrite ?He, ?to_sample_0; [reflexivity|reflexivity|reflexivity|exact X].
Qed.

Definition odd_reader : reader := rec_reader (zeros 95001) (zeros 95001) (zeros 95001).
Lemma odd_end : to_sample odd_reader (runtime_s odd_reader) = 100000.
Proof.
  unfold to_sample, runtime_s.
  change (f_voltage (r_file odd_reader)) with (zeros 95001). rewrite zeros_length, Z2Nat.id by lia.
  vm_compute. reflexivity.
Qed.
Lemma into_nothing fl r src s0 e0 factor b : (List.length src <= s0)%nat ->
  ds_into fl r src s0 e0 factor b = ([], None).
Proof.
  intros H. unfold ds_into, downsample.
  replace (Nat.min (List.length src) e0 - Nat.min (Nat.min (List.length src) e0) s0)%nat with 0%nat by lia.
  reflexivity.
Qed.
Lemma empty_output fl p : exists d' q f,
  cut_and_downsample fl [] p odd_reader (Some (96 # 100)) None 1 = (d', Ok q)
  /\ lookup d' q = Some (NFile f) /\ columns f [] [] [].
Proof.
  assert (Hs : to_sample odd_reader (qmax2 0 (96 # 100)) = 96000) by (vm_compute; reflexivity).
  assert (Hn : forall src b, src = zeros 95001 ->
    ds_into fl odd_reader src (Z.to_nat 96000) (Z.to_nat 100000) 1 b = ([], None)).
  { intros src b ->. apply into_nothing. rewrite zeros_length. lia. }
  assert (Hds : ds_all fl odd_reader (Z.to_nat 96000) (Z.to_nat 100000) 1 = ([], [], [], None)).
  { unfold ds_all. rewrite !Hn by reflexivity. reflexivity. }
  destruct (cut_rec fl [] p (zeros 95001) (zeros 95001) (zeros 95001) (Some (96 # 100)) None 1 [] [] [] None)
    as (d' & E & X); fold odd_reader; cbn [cut_start cut_end]; rewrite ?odd_end, ?Hs;
    [reflexivity|reflexivity|reflexivity|reflexivity|exact Hds|].
  fold odd_reader in E. 
  destruct (cut_new _ _ _ _ _ _ _ _ _ E eq_refl) as (f & t & v & i & Hf & Et & Ev & Ei & Hcol).
  cbn [cut_start cut_end] in Et, Ev, Ei. rewrite odd_end, Hs in Et, Ev, Ei.
  rewrite Hn in Et by reflexivity. rewrite Hn in Ev by reflexivity. rewrite Hn in Ei by reflexivity.
  injection Et as <-. injection Ev as <-. injection Ei as <-.
  destruct (Hcol eq_refl eq_refl) as (m & Hc & _). rewrite !firstn_nil in Hc.
  eexists d', _, f. split; [exact E|]. split; [exact Hf|exact Hc].
Qed.

Definition tail_reader : reader := rec_reader (zeros 104000) (zeros 104000) (zeros 104000).
Lemma tail_end : to_sample tail_reader (cut_end tail_reader None) = 100000.
Proof.
  unfold to_sample, cut_end, runtime_s.
  change (f_voltage (r_file tail_reader)) with (zeros 104000). rewrite zeros_length, Z2Nat.id by lia.
  vm_compute. reflexivity.
Qed.

(* names *)
Lemma qround_inject z : qround (inject_Z z) = z.
Proof.
  apply qround_near. setoid_replace (inject_Z z - inject_Z z)%Q with 0%Q by ring. reflexivity.
Qed.
Lemma qltb_inject a b : qltb (inject_Z a) (inject_Z b) = (a <? b).
Proof.
  unfold qltb. destruct (Qle_bool (inject_Z b) (inject_Z a)) eqn:E.
  - apply Qle_bool_iff in E. rewrite <- Zle_Qle in E. cbn. symmetry. apply Z.ltb_ge. lia.
  - cbn. symmetry. apply Z.ltb_lt. destruct (Z.lt_ge_cases a b); [assumption|exfalso].
    assert (Qle_bool (inject_Z b) (inject_Z a) = true) by (apply Qle_bool_iff; rewrite <- Zle_Qle; lia). congruence.
Qed.
Lemma names_differ r p s e a b : 1 <= a -> 1 <= b ->
  out_path r p s e (inject_Z a) = out_path r p s e (inject_Z b) -> a = b.
Proof.
  intros Ha Hb H. unfold out_path in H. apply (f_equal snd) in H. cbn [snd] in H.
  apply append_inj_l in H. unfold out_suffix in H. apply append_inj_l in H. apply append_inj_r in H.
  change 1%Q with (inject_Z 1) in H. rewrite !qltb_inject, !qround_inject in H.
  destruct (Z.ltb_spec 1 a), (Z.ltb_spec 1 b).
  - apply append_inj_l in H. apply dec_inj in H. lia.
  - discriminate H.
  - discriminate H.
  - lia.
Qed.

(** The limits of a cut: an end after the recording is the end of the recording, an end within it
    is taken as given; a negative start is the beginning. *)
Lemma limits_end r s :
  ((runtime_s r <= s)%Q -> to_sample r (cut_end r (Some s)) = to_sample r (cut_end r None)) /\
  ((s <= runtime_s r)%Q -> to_sample r (cut_end r (Some s)) = qround (s * inject_Z (st_rate (r_stats r)))).
Proof.
  unfold to_sample, cut_end. destruct (qmin2_le (runtime_s r) s) as [[A B] C].
  split; intros H; apply qround_compat; destruct C as [C|C]; rewrite C in *; try reflexivity;
    (assert (E : (s == runtime_s r)%Q) by lra); now rewrite E.
Qed.
Lemma limits_start r s :
  ((s <= 0)%Q -> to_sample r (cut_start (Some s)) = 0) /\
  ((0 <= s)%Q -> to_sample r (cut_start (Some s)) = qround (s * inject_Z (st_rate (r_stats r)))).
Proof.
  split; intros H.
  - rewrite <- (to_sample_0 r). unfold to_sample, cut_start. apply qround_compat.
    destruct (qmax2_ge 0 s) as [[A B] [C|C]]; rewrite C in *; [reflexivity|].
    assert (E : (s == 0)%Q) by lra. now rewrite E.
  - unfold to_sample, cut_start. apply qround_compat.
    destruct (qmax2_ge 0 s) as [[A B] [C|C]]; rewrite C in *; [|reflexivity].
    assert (E : (s == 0)%Q) by lra. now rewrite E.
Qed.
