(** Proofs for [PropsPlot]: pictures and their files. *)
From Coq Require Import QArith Qround Qabs Qminmax String Ascii Decimal DecimalNat DecimalString Lqa.
From Verif Require Import PyBase UartModel UartProofs FileModel FileSpec FileReadProofs FileSiProofs FileSysProofs DsModel DsSpec
  DsProofs DsFileProofs DsCliProofs PlotModel PlotSpec PlotProofs.
From Coq Require Import Lia List.
Open Scope Z_scope.

(* ------------------------------------------------------------------ pictures *)

Lemma combine_map_fst {A B} (f : A -> Q) : forall (l : list A) (m : list B), List.length m = List.length l ->
  Forall2 (fun '(v, i) z => z == f v)%Q (combine l m) (map f l).
Proof. induction l as [|x l IH]; intros [|y m] H; try discriminate H; cbn; constructor; [reflexivity|]. apply IH. cbn in H. lia. Qed.

Lemma aligned_axes d : aligned d -> exists v i p,
  curve_v d = Ok v /\ curve_i d = Ok i /\ curve_p d = Ok p
  /\ voltage_axis d v /\ current_axis d i /\ power_axis d p.
Proof.
  intros [Hv Hi]. unfold curve_v, curve_i, curve_p, draw, milli, np_mul.
  replace (List.length (pd_voltage d) =? List.length (pd_current d))%nat with true
    by (symmetry; apply Nat.eqb_eq; congruence).
  rewrite bind_ok. rewrite !map_length, combine_length, Hv, Hi, Nat.min_id, Nat.eqb_refl.
  eexists _, _, _. split; [reflexivity|]. split; [reflexivity|]. split; [reflexivity|].
  assert (H : List.length (pd_current d) = List.length (pd_voltage d)) by congruence.
  unfold voltage_axis, current_axis, power_axis, curve_of. cbn [cu_label cu_x cu_y].
  split; [|split]; (split; [reflexivity|]); (split; [reflexivity|]).
  - clear -H. revert H. generalize (pd_current d). induction (pd_voltage d) as [|x l IH]; intros [|y m] H; try discriminate H; cbn; constructor.
    + reflexivity.
    + apply IH. cbn in H. lia.
  - clear -H. revert H. generalize (pd_current d). induction (pd_voltage d) as [|x l IH]; intros [|y m] H; try discriminate H; cbn; constructor.
    + ring.
    + apply IH. cbn in H. lia.
  - clear -H. revert H. generalize (pd_current d). induction (pd_voltage d) as [|x l IH]; intros [|y m] H; try discriminate H; cbn; constructor.
    + ring.
    + apply IH. cbn in H. lia.
Qed.

Lemma draw_all_ok (f : plot_data -> res curve) (P : plot_data -> curve -> Prop) : forall data,
  (forall d, In d data -> exists c, f d = Ok c /\ P d c) ->
  exists l, draw_all f data = Ok l /\ Forall2 P data l.
Proof.
  induction data as [|d data IH]; cbn; intros H; [eexists; split; [reflexivity|constructor]|].
  destruct (H d (or_introl eq_refl)) as (c & -> & Pc). destruct IH as (l & -> & Pl); [auto|].
  eexists. split; [reflexivity|]. constructor; assumption.
Qed.

Lemma assemble_ok data only_pwr : Forall aligned data ->
  exists fig, assemble_plot data only_pwr = Ok fig /\ pictured data only_pwr fig.
Proof.
  intros H. rewrite Forall_forall in H. unfold assemble_plot.
  destruct (draw_all_ok curve_p power_axis data) as (p & -> & Pp).
  { intros d Hd. destruct (aligned_axes d (H d Hd)) as (? & ? & ? & ? & ? & ? & ? & ? & ?). eauto. }
  destruct (draw_all_ok curve_v voltage_axis data) as (v & -> & Pv).
  { intros d Hd. destruct (aligned_axes d (H d Hd)) as (? & ? & ? & ? & ? & ? & ? & ? & ?). eauto. }
  destruct (draw_all_ok curve_i current_axis data) as (i & -> & Pi).
  { intros d Hd. destruct (aligned_axes d (H d Hd)) as (? & ? & ? & ? & ? & ? & ? & ? & ?). eauto. }
  rewrite !bind_ok. destruct only_pwr; eexists; (split; [reflexivity|]).
  - exists p. split; [reflexivity|exact Pp].
  - exists v, i, p. auto.
Qed.

(* ------------------------------------------------------------------ names *)

Lemma number_app a : forall b acc, number acc (a ++ b) = number (number acc a) b.
Proof. induction a as [|c a IH]; cbn; intros; [reflexivity|]. apply IH. Qed.
Lemma digits_app a b : digits (a ++ b) <-> digits a /\ digits b.
Proof. induction a as [|c a IH]; cbn; [tauto|]. rewrite IH. tauto. Qed.

Lemma digit_is n : (n <= 9)%nat -> digits (digit n) /\ forall acc, number acc (digit n) = 10 * acc + Z.of_nat n.
Proof.
  intros H. unfold digit. cbn [digits number]. unfold is_digit.
  rewrite nat_ascii_embedding by lia. split; [split; [lia|exact I]|intro acc; lia].
Qed.

Lemma of_uint_acc_spec u : forall acc, Z.of_nat (Nat.of_uint_acc u acc) = number (Z.of_nat acc) (NilEmpty.string_of_uint u).
Proof.
  induction u; intros acc; cbn [Nat.of_uint_acc NilEmpty.string_of_uint number]; try reflexivity;
    rewrite IHu; f_equal; rewrite Nat.tail_mul_spec, ?Nat2Z.inj_succ, Nat2Z.inj_mul;
    match goal with |- context [nat_of_ascii ?c] => let k := eval vm_compute in (nat_of_ascii c) in change (nat_of_ascii c) with k end; lia.
Qed.
Lemma digits_uint u : digits (NilEmpty.string_of_uint u).
Proof. induction u; cbn [NilEmpty.string_of_uint digits]; [exact I|..]; (split; [vm_compute; split; lia|assumption]). Qed.
Lemma dec_number n : number 0 (dec n) = Z.of_nat n.
Proof.
  unfold dec. change 0 with (Z.of_nat 0). rewrite <- of_uint_acc_spec. f_equal. apply Unsigned.of_to.
Qed.
Lemma dec_nonempty n : dec n <> EmptyString.
Proof.
  unfold dec. intros H. assert (E : Nat.to_uint n = Nil).
  { destruct (Nat.to_uint n); try discriminate H. reflexivity. }
  assert (n = 0%nat) by (rewrite <- (Unsigned.of_to n), E; reflexivity). subst n. discriminate E.
Qed.

Lemma fmt3_clock x : (0 <= x)%Q -> clock x (fmt3 x).
Proof.
  intros Hx. unfold fmt3. set (k := qround (x * 1000)).
  assert (Hk : 0 <= k).
  { apply qround_ge. change (inject_Z 0) with 0%Q. lra. }
  set (m := Z.to_nat k).
  exists (dec (m / 1000)), (digit (m / 100 mod 10) ++ digit (m / 10 mod 10) ++ digit (m mod 10))%string.
  assert (L : forall j, (j mod 10 <= 9)%nat) by (intro j; pose proof (Nat.mod_upper_bound j 10); lia).
  destruct (digit_is _ (L (m / 100)%nat)) as [D1 V1].
  destruct (digit_is _ (L (m / 10)%nat)) as [D2 V2].
  destruct (digit_is _ (L m)) as [D3 V3].
  split; [reflexivity|]. split; [apply dec_nonempty|]. split; [apply digits_uint|].
  split; [rewrite !digits_app; auto|]. split; [reflexivity|].
  rewrite !number_app, V3, V2, V1, dec_number.
  assert (E : Z.of_nat (m / 1000) * 1000 + (10 * (10 * (10 * 0 + Z.of_nat (m / 100 mod 10)) + Z.of_nat (m / 10 mod 10))
    + Z.of_nat (m mod 10)) = k).
  { rewrite <- (Z2Nat.id k) by exact Hk. fold m. clearbody m. clear.
    pose proof (Nat.div_mod m 10). pose proof (Nat.div_mod (m / 10) 10). pose proof (Nat.div_mod (m / 100) 10).
    rewrite !Nat.div_div in * by lia. change (10 * 10)%nat with 100%nat in *.
    change (100 * 10)%nat with 1000%nat in *. lia. }
  rewrite E. pose proof (qround_half (x * 1000)) as H. fold k in H. rewrite Qabs_Qminus. exact H.
Qed.

Lemma digits_no_dot s : digits s -> no_dot s.
Proof.
  induction s as [|c s IH]; cbn; [tauto|]. intros [H1 H2]. split; [|auto].
  intros ->. unfold is_digit in H1. vm_compute in H1. lia.
Qed.
Lemma no_dot_app a b : no_dot (a ++ b) <-> no_dot a /\ no_dot b.
Proof. induction a as [|c a IH]; cbn; [tauto|]. rewrite IH. tauto. Qed.
Lemma clock_no_dot x s : clock x s -> no_dot s.
Proof.
  intros (u & v & -> & _ & Du & Dv & _). rewrite !no_dot_app.
  split; [apply digits_no_dot; exact Du|]. split; [|apply digits_no_dot; exact Dv].
  cbn. split; [discriminate|exact I].
Qed.

Lemma append_assoc' (a b c : string) : ((a ++ b) ++ c = a ++ (b ++ c))%string.
Proof. induction a as [|x a IH]; cbn; [reflexivity|]. now rewrite IH. Qed.
Lemma append_split (a b c d : string) : String.length a = String.length b ->
  (a ++ c = b ++ d)%string -> a = b /\ c = d.
Proof.
  revert b. induction a as [| x a IH]; intros [| y b] L H; try discriminate L; cbn in *; [now split |].
  injection L as L. injection H as -> H. destruct (IH b L H) as [-> ->]. now split.
Qed.
Lemma dot_split a b u v : no_dot u -> no_dot v -> (a ++ String "." u = b ++ String "." v)%string -> a = b /\ u = v.
Proof.
  intros Nu Nv H. pose proof (last_dot_app a u Nu 0) as La. pose proof (last_dot_app b v Nv 0) as Lb.
  rewrite H, Lb in La. injection La as La. cbn [Nat.add] in La.
  apply append_split in H as [H1 H2]; [|symmetry; exact La]. injection H2 as H2. now split.
Qed.

Lemma called_inj kind dir1 base1 d1 dir2 base2 d2 q : no_dot kind ->
  called kind dir1 base1 d1 q -> called kind dir2 base2 d2 q -> dir1 = dir2 /\ base1 = base2.
Proof.
  intros Nk (a1 & b1 & -> & A1 & B1) (a2 & b2 & E & A2 & B2). injection E as Ed E. split; [exact Ed|].
  apply clock_no_dot in A1, B1, A2, B2.
  assert (K : ((base1 ++ String "." (kind ++ "_" ++ a1 ++ "_to_" ++ b1)) ++ ".png" =
               (base2 ++ String "." (kind ++ "_" ++ a2 ++ "_to_" ++ b2)) ++ ".png")%string).
  { repeat first [rewrite append_assoc' | progress cbn [append]].
    repeat first [rewrite append_assoc' in E | progress cbn [append] in E]. exact E. }
  apply append_inj_r in K.
  apply dot_split in K as [K _]; [exact K|..]; rewrite !no_dot_app; repeat split; try assumption; try discriminate.
Qed.

(* ------------------------------------------------------------------ one file *)

Lemma find_hd g p x : find_picture ((p, x) :: g) p = Some x.
Proof. cbn. now rewrite path_eqb_refl. Qed.
Lemma path_eqb_eq p q : path_eqb p q = true <-> p = q.
Proof.
  destruct p as [a b], q as [c e]. unfold path_eqb. cbn. rewrite andb_true_iff, !String.eqb_eq. split.
  - intros [-> ->]. reflexivity.
  - intros [= -> ->]. auto.
Qed.
Lemma find_tl g p q x : p <> q -> find_picture ((p, x) :: g) q = find_picture g q.
Proof.
  intros H. cbn. destruct (path_eqb p q) eqn:E; [|reflexivity]. apply path_eqb_eq in E. congruence.
Qed.
Lemma taken_spec d g q : taken d g q = true <-> occupied d g q.
Proof.
  unfold taken, occupied, exists_. destruct (lookup d q), (find_picture g q); cbn; split; intros H;
    try reflexivity; try discriminate H; try (left; discriminate); try (right; discriminate); destruct H; congruence.
Qed.
Lemma taken_false d g q : taken d g q = false -> ~ occupied d g q.
Proof. intros H O. apply taken_spec in O. congruence. Qed.

Lemma stem_recording p base : recording p base -> stem (snd p) = base.
Proof.
  intros [Hb E]. rewrite E. unfold stem. change ".h5"%string with (String "." "h5").
  rewrite split_plain; [reflexivity|exact Hb|discriminate|]. cbn. repeat split; discriminate.
Qed.
Lemma recording_named p base : recording p base -> (snd p =? "")%string = false.
Proof. intros [Hb E]. rewrite E. destruct base; [congruence|]. reflexivity. Qed.

Lemma suffix_called kind p base d : (0 <= pd_start d)%Q -> (0 <= pd_end d)%Q ->
  stem (snd p) = base -> (snd p =? "")%string = false ->
  exists q, with_suffix p (plot_suffix kind d) = Ok q /\ called kind (fst p) base d q.
Proof.
  intros H1 H2 <- Hn. unfold with_suffix. rewrite Hn. cbn [negb]. eexists. split; [reflexivity|].
  exists (fmt3 (pd_start d)), (fmt3 (pd_end d)).
  split; [unfold plot_suffix; reflexivity|]. split; apply fmt3_clock; assumption.
Qed.

(** The limits of plot data are not negative. *)
Lemma gen_limits fl r ss es rel pd : 0 < st_rate (r_stats r) ->
  generate_plot_data fl r ss es rel = Ok (Some pd) -> (0 <= pd_start pd)%Q /\ (0 <= pd_end pd)%Q.
Proof.
  intros HR H. 
  assert (H5 : 5 <= to_sample r (cut_end r es) - to_sample r (cut_start ss)).
  { destruct (Z.lt_ge_cases (to_sample r (cut_end r es) - to_sample r (cut_start ss)) 5) as [L|L]; [|lia].
    apply (gen_small fl r ss es rel) in L. congruence. }
  assert (E : pd_start pd = cut_start ss /\ pd_end pd = cut_end r es).
  { unfold generate_plot_data in H. destruct (_ <? 5); [discriminate H|]. cbv zeta in H.
    destruct (plot_column fl r (c_time (r_cal r)) _ _ _ _ _) as [t|]; [|discriminate H].
    destruct (plot_column fl r (c_voltage (r_cal r)) _ _ _ _ _) as [v|]; [|discriminate H].
    destruct (plot_column fl r (c_current (r_cal r)) _ _ _ _ _) as [i|]; [|discriminate H].
    rewrite !bind_ok in H. cbv beta in H.
    destruct rel; [destruct (f_time (r_file r)); [discriminate H|]|]; rewrite bind_ok in H; injection H as <-; auto. }
  destruct E as [-> ->]. pose proof (width_pos r ss es HR H5) as W.
  destruct (the_limits r ss es) as [A _].
  assert (S : (0 <= cut_start ss)%Q) by (rewrite A; destruct ss; [apply Q.le_max_l|apply Qle_refl]).
  split; [exact S|]. lra.
Qed.

Lemma plot_one fl d g p r ss es only_pwr pd base :
  0 < st_rate (r_stats r) -> generate_plot_data fl r ss es true = Ok (Some pd) -> aligned pd ->
  stem (snd p) = base -> (snd p =? "")%string = false ->
  exists q, called "plot" (fst p) base pd q /\
    (occupied d g q -> plot_to_file fl d g p r ss es only_pwr = (g, Ok tt)) /\
    (~ occupied d g q -> exists fig, plot_to_file fl d g p r ss es only_pwr = ((q, fig) :: g, Ok tt)
                                     /\ pictured [pd] only_pwr fig).
Proof.
  intros HR H Ha Hb Hn. destruct (gen_limits _ _ _ _ _ _ HR H) as [L1 L2].
  destruct (suffix_called "plot" p base pd L1 L2 Hb Hn) as (q & Eq & C).
  exists q. split; [exact C|]. unfold plot_to_file. rewrite H, Eq. split; intros O.
  - apply taken_spec in O. rewrite O. reflexivity.
  - destruct (taken d g q) eqn:T; [apply taken_spec in T; contradiction|].
    destruct (assemble_ok [pd] only_pwr) as (fig & -> & P); [constructor; [exact Ha|constructor]|].
    exists fig. split; [reflexivity|exact P].
Qed.

(** Readers have a positive rate. *)
Lemma reader_rate f r : reader_init f = Ok r -> 0 < st_rate (r_stats r) /\ r_max_elements r = 4000000.
Proof.
  unfold reader_init. intros H.
  repeat match type of H with bind ?x _ = _ => destruct x eqn:?; [rewrite bind_ok in H|discriminate H] end.
  injection H as <-. cbn [r_stats r_max_elements]. split; [|reflexivity].
  match goal with H : refresh _ _ _ = Ok _ |- _ => unfold refresh in H; rename H into HRF end.
  destruct (_ && _) in HRF; [|injection HRF as <-; reflexivity].
  destruct (Qeq_bool _ _) in HRF; [discriminate HRF|]. injection HRF as <-. cbn [st_rate]. lia.
Qed.
Lemma open_rate d p r : open_reader d p = Ok r -> 0 < st_rate (r_stats r) /\ r_max_elements r = 4000000.
Proof. unfold open_reader. destruct (lookup d p) as [[f| |]|]; try discriminate. apply reader_rate. Qed.

Lemma called_dec g q : {find_picture g q = None} + {find_picture g q <> None}.
Proof. destruct (find_picture g q); [right; discriminate|left; reflexivity]. Qed.

(** All files, each on its own. *)
Lemma files_single fl d ss es only_pwr : forall files g data,
  NoDup files -> (forall p, In p files -> harmless (attempt fl d ss es p)) ->
  (forall p, In p files -> (snd p =? "")%string = false) ->
  (forall p1 p2, In p1 files -> In p2 files -> fst p1 = fst p2 -> stem (snd p1) = stem (snd p2) -> p1 = p2) ->
  exists g', plot_files fl d g files ss es false only_pwr data = (g', Ok data) /\
    (forall q, find_picture g' q = find_picture g q \/
       ~ occupied d g q /\ exists p pd, In p files /\ attempt fl d ss es p = Ok (Some pd)
                                        /\ called "plot" (fst p) (stem (snd p)) pd q) /\
    (forall p pd, In p files -> attempt fl d ss es p = Ok (Some pd) ->
       exists q, called "plot" (fst p) (stem (snd p)) pd q /\
         (occupied d g q -> find_picture g' q = find_picture g q) /\
         (~ occupied d g q -> exists fig, find_picture g' q = Some fig /\ pictured [pd] only_pwr fig)).
Proof.
  induction files as [|p files IH]; intros g data Hnd Hh Hn Hs; cbn [plot_files].
  { exists g. split; [reflexivity|]. split; [left; reflexivity|]. intros p pd []. }
  inversion Hnd as [|? ? Hp Hnd']; subst.
  assert (IH' : forall g1, exists g', plot_files fl d g1 files ss es false only_pwr data = (g', Ok data) /\ _) by
    (intro g1; apply (IH g1 data Hnd'); [intros; apply Hh|intros; apply Hn|intros; apply Hs]; auto using in_cons).
  clear IH.
  assert (SAME : attempt fl d ss es p = Err TypeError \/ attempt fl d ss es p = Ok None ->
    exists g', plot_files fl d g files ss es false only_pwr data = (g', Ok data) /\
    (forall q, find_picture g' q = find_picture g q \/
       ~ occupied d g q /\ exists p' pd, In p' (p :: files) /\ attempt fl d ss es p' = Ok (Some pd)
                                        /\ called "plot" (fst p') (stem (snd p')) pd q) /\
    (forall p' pd, In p' (p :: files) -> attempt fl d ss es p' = Ok (Some pd) ->
       exists q, called "plot" (fst p') (stem (snd p')) pd q /\
         (occupied d g q -> find_picture g' q = find_picture g q) /\
         (~ occupied d g q -> exists fig, find_picture g' q = Some fig /\ pictured [pd] only_pwr fig))).
  { intros Ha. destruct (IH' g) as (g' & E & F1 & F2). exists g'. split; [exact E|]. split.
    - intros q. destruct (F1 q) as [L|(O & p' & pd & I1 & I2 & I3)]; [left; exact L|right].
      split; [exact O|]. exists p', pd. auto using in_cons.
    - intros p' pd [<-|I1] I2; [destruct Ha; congruence|]. apply F2; assumption. }
  destruct (Hh p (or_introl eq_refl)) as [HT|[HN|(pd & HS & Hal)]].
  - destruct (SAME (or_introl HT)) as (g' & E & F). exists g'. split; [|exact F].
    unfold attempt in HT. destruct (open_reader d p) as [r|x] eqn:Er.
    + unfold plot_to_file. rewrite HT. exact E.
    + injection HT as ->. exact E.
  - destruct (SAME (or_intror HN)) as (g' & E & F). exists g'. split; [|exact F].
    unfold attempt in HN. destruct (open_reader d p) as [r|x] eqn:Er; [|discriminate HN].
    unfold plot_to_file. rewrite HN. exact E.
  - clear SAME. unfold attempt in HS. destruct (open_reader d p) as [r|x] eqn:Er; [|discriminate HS].
    destruct (open_rate _ _ _ Er) as [HR _].
    destruct (plot_one fl d g p r ss es only_pwr pd (stem (snd p)) HR HS Hal eq_refl (Hn p (or_introl eq_refl)))
      as (q & C & P1 & P2).
    assert (HS' : attempt fl d ss es p = Ok (Some pd)) by (unfold attempt; rewrite Er; exact HS).
    assert (INJ : forall p' pd', In p' files -> called "plot" (fst p') (stem (snd p')) pd' q -> False).
    { intros p' pd' I1 C'. assert (no_dot "plot") by (cbn; repeat split; discriminate).
      destruct (called_inj "plot" _ _ _ _ _ _ q H C C') as [D1 D2].
      assert (p = p') by (apply Hs; auto using in_eq, in_cons). subst p'. contradiction. }
    destruct (taken d g q) eqn:T.
    + apply taken_spec in T as O. rewrite (P1 O). destruct (IH' g) as (g' & E & F1 & F2).
      exists g'. split; [exact E|]. split.
      * intros q'. destruct (F1 q') as [L|(O' & p' & pd' & I1 & I2 & I3)]; [left; exact L|right].
        split; [exact O'|]. exists p', pd'. auto using in_cons.
      * intros p' pd' [<-|I1] I2; [|apply F2; assumption].
        rewrite HS' in I2. injection I2 as <-. exists q. split; [exact C|]. split; [|intro; contradiction].
        intros _. destruct (F1 q) as [L|(O' & _)]; [exact L|contradiction].
    + assert (O : ~ occupied d g q) by (apply taken_false; exact T).
      destruct (P2 O) as (fig & Eg & Pf). rewrite Eg. destruct (IH' ((q, fig) :: g)) as (g' & E & F1 & F2).
      assert (OCC : forall q', q' <> q -> occupied d ((q, fig) :: g) q' <-> occupied d g q').
      { intros q' Hq'. unfold occupied. rewrite find_tl by congruence. reflexivity. }
      assert (KEEP : find_picture g' q = Some fig).
      { destruct (F1 q) as [L|(O' & p' & pd' & I1 & I2 & I3)].
        - rewrite L. apply find_hd.
        - exfalso. apply (INJ p' pd' I1 I3). }
      exists g'. split; [exact E|]. split.
      * intros q'. destruct (path_eqb q q') eqn:Q.
        -- apply path_eqb_eq in Q. subst q'. right. split; [exact O|]. exists p, pd. auto using in_eq.
        -- assert (q' <> q) by (intros ->; rewrite path_eqb_refl in Q; discriminate Q).
           destruct (F1 q') as [L|(O' & p' & pd' & I1 & I2 & I3)].
           ++ left. rewrite L. apply find_tl. congruence.
           ++ right. split; [rewrite <- OCC by assumption; exact O'|]. exists p', pd'. auto using in_cons.
      * intros p' pd' [<-|I1] I2.
        -- rewrite HS' in I2. injection I2 as <-. exists q. split; [exact C|].
           split; [intro; contradiction|]. intros _. exists fig. auto.
        -- destruct (F2 p' pd' I1 I2) as (q' & C' & G1 & G2).
           assert (q' <> q) by (intros ->; apply (INJ p' pd' I1 C')).
           exists q'. split; [exact C'|]. rewrite <- (OCC q') by assumption.
           split; [|exact G2]. intros O'. rewrite (G1 O'). apply find_tl. congruence.
Qed.

(** All files together. *)
Lemma files_multi fl d ss es only_pwr : forall files g data,
  (forall p, In p files -> harmless (attempt fl d ss es p)) ->
  plot_files fl d g files ss es true only_pwr data
  = (g, Ok (data ++ all_data (map (attempt fl d ss es) files))).
Proof.
  induction files as [|p files IH]; intros g data Hh; cbn [plot_files map].
  { cbn. now rewrite app_nil_r. }
  specialize (IH g). assert (Hh' : forall p', In p' files -> harmless (attempt fl d ss es p')) by auto using in_cons.
  destruct (Hh p (or_introl eq_refl)) as [HT|[HN|(pd & HS & Hal)]].
  - unfold all_data. cbn [flat_map]. rewrite HT. cbn [app]. unfold attempt in HT.
    destruct (open_reader d p) as [r|x] eqn:Er; [rewrite HT|injection HT as ->]; apply IH; exact Hh'.
  - unfold all_data. cbn [flat_map]. rewrite HN. cbn [app]. unfold attempt in HN.
    destruct (open_reader d p) as [r|x] eqn:Er; [rewrite HN|discriminate HN]; apply IH; exact Hh'.
  - unfold all_data. cbn [flat_map]. rewrite HS. unfold attempt in HS.
    destruct (open_reader d p) as [r|x] eqn:Er; [rewrite HS|discriminate HS].
    rewrite (IH (data ++ [pd]) Hh'), <- app_assoc. reflexivity.
Qed.

(* ------------------------------------------------------------------ command *)

Lemma flist_shape d p : (forall f, In f (path_to_flist d p) -> snd f <> ".h5"%string) ->
  NoDup (path_to_flist d p) /\
  (forall f, In f (path_to_flist d p) -> (snd f =? "")%string = false) /\
  (forall f1 f2, In f1 (path_to_flist d p) -> In f2 (path_to_flist d p) -> fst f1 = fst f2 ->
     stem (snd f1) = stem (snd f2) -> f1 = f2).
Proof.
  intros Hn.
  assert (Single : path_to_flist d p = [] \/ path_to_flist d p = [p] /\ (lower (suffix (snd p)) =? ".h5")%string = true ->
    NoDup (path_to_flist d p) /\
    (forall f, In f (path_to_flist d p) -> (snd f =? "")%string = false) /\
    (forall f1 f2, In f1 (path_to_flist d p) -> In f2 (path_to_flist d p) -> fst f1 = fst f2 ->
       stem (snd f1) = stem (snd f2) -> f1 = f2)).
  { intros [->|[-> Hs]].
    - split; [constructor|]. split; [intros ? []|intros f1 f2 []].
    - split; [constructor; [intros []|constructor]|]. split.
      + intros f0 [<-|[]]. destruct (String.eqb_spec (snd p) "") as [e|]; [|reflexivity]. rewrite e in Hs. discriminate Hs.
      + intros f1 f2 [<-|[]] [<-|[]] _ _. reflexivity. }
  destruct (lookup d p) as [n|] eqn:E.
  - destruct n as [f| |].
    1,2: apply Single; unfold path_to_flist, is_file, is_dir; rewrite E; cbn [andb]; destruct (lower _ =? _)%string; auto.
    destruct (flist_dir d p E) as [N I]. split; [exact N|]. split.
    + intros f Hf. apply I in Hf as (_ & (pre & Hp) & _). rewrite Hp. destruct pre; reflexivity.
    + intros f1 f2 H1 H2 Hd Hs.
      pose proof (Hn f1 H1) as N1. pose proof (Hn f2 H2) as N2.
      apply I in H1 as (_ & (p1 & E1) & _). apply I in H2 as (_ & (p2 & E2) & _).
      assert (R1 : recording f1 p1) by (split; [intros ->; apply N1; exact E1|exact E1]).
      assert (R2 : recording f2 p2) by (split; [intros ->; apply N2; exact E2|exact E2]).
      rewrite (stem_recording _ _ R1), (stem_recording _ _ R2) in Hs.
      destruct f1, f2. cbn in *. congruence.
  - assert (Hl : path_to_flist d p = []) by (unfold path_to_flist, is_file, is_dir; rewrite E; reflexivity).
    rewrite Hl. split; [constructor|]. split; [intros ? []|intros f1 f2 []].
Qed.

Lemma dir_recording d p f : lookup d p = Some NDir -> In f (path_to_flist d p) -> snd f <> ".h5"%string ->
  recording f (stem (snd f)).
Proof.
  intros E Hf Hn. destruct (flist_dir d p E) as [_ I]. apply I in Hf as (_ & (pre & Hp) & _).
  assert (R : recording f pre) by (split; [intros ->; apply Hn; exact Hp|exact Hp]).
  rewrite (stem_recording _ _ R). exact R.
Qed.

Lemma cli_single fl d g p ss es multiplot only_pwr :
  multiplot = false \/ (List.length (path_to_flist d p) <= 1)%nat ->
  (forall f, In f (path_to_flist d p) -> snd f <> ".h5"%string) ->
  (forall f, In f (path_to_flist d p) -> harmless (attempt fl d ss es f)) ->
  exists g', cli_plot fl d g p ss es multiplot only_pwr = (g', Ok tt) /\
    (forall q, find_picture g' q = find_picture g q \/
       ~ occupied d g q /\ exists f pd, In f (path_to_flist d p) /\ attempt fl d ss es f = Ok (Some pd)
                                        /\ called "plot" (fst f) (stem (snd f)) pd q) /\
    (forall f pd, In f (path_to_flist d p) -> attempt fl d ss es f = Ok (Some pd) ->
       exists q, called "plot" (fst f) (stem (snd f)) pd q /\
         (occupied d g q -> find_picture g' q = find_picture g q) /\
         (~ occupied d g q -> exists fig, find_picture g' q = Some fig /\ pictured [pd] only_pwr fig)).
Proof.
  intros Hm Hn Hh. destruct (flist_shape d p Hn) as (N & M & I).
  destruct (files_single fl d ss es only_pwr (path_to_flist d p) g [] N Hh M I) as (g' & E & F).
  exists g'. split; [|exact F]. unfold cli_plot.
  replace (multiplot && (1 <? List.length (path_to_flist d p))%nat) with false.
  - rewrite E. reflexivity.
  - symmetry. destruct Hm as [->|Hl]; [reflexivity|]. destruct (Nat.ltb_spec 1 (List.length (path_to_flist d p))); [lia|].
    apply andb_false_r.
Qed.

Lemma all_data_in l pd : In pd (all_data l) -> In (Ok (Some pd)) l.
Proof.
  unfold all_data. intros H. apply in_flat_map in H as (o & Ho & Hi).
  destruct o as [[x|]|]; [|destruct Hi|destruct Hi]. destruct Hi as [->|[]]. exact Ho.
Qed.

Lemma attempt_limits fl d ss es f pd : attempt fl d ss es f = Ok (Some pd) -> (0 <= pd_start pd)%Q /\ (0 <= pd_end pd)%Q.
Proof.
  unfold attempt. destruct (open_reader d f) as [r|] eqn:Er; [|discriminate].
  destruct (open_rate _ _ _ Er) as [HR _]. apply gen_limits. exact HR.
Qed.

Lemma cli_multi fl d g p ss es only_pwr : lookup d p = Some NDir -> snd p <> EmptyString ->
  (1 < List.length (path_to_flist d p))%nat ->
  (forall f, In f (path_to_flist d p) -> harmless (attempt fl d ss es f)) ->
  let data := all_data (map (attempt fl d ss es) (path_to_flist d p)) in
  (data = [] -> cli_plot fl d g p ss es true only_pwr = (g, Err IndexError)) /\
  (forall d0 rest, data = d0 :: rest ->
   exists q, called "multiplot" (fst p) (stem (snd p)) d0 q /\
    (occupied d g q -> cli_plot fl d g p ss es true only_pwr = (g, Ok tt)) /\
    (~ occupied d g q -> exists fig, cli_plot fl d g p ss es true only_pwr = ((q, fig) :: g, Ok tt)
                                     /\ pictured data only_pwr fig)).
Proof.
  intros E Hp Hl Hh data.
  assert (Ec : cli_plot fl d g p ss es true only_pwr =
    match multiplot_to_file d g data p only_pwr with
    | (g2, Err e) => (g2, Err e)
    | (g2, Ok _) => (g2, Ok tt)
    end).
  { unfold cli_plot. rewrite (proj2 (Nat.ltb_lt _ _) Hl). cbn [andb].
    rewrite (files_multi fl d ss es only_pwr _ g [] Hh). reflexivity. }
  assert (Hal : forall pd, In pd data -> aligned pd /\ (0 <= pd_start pd)%Q /\ (0 <= pd_end pd)%Q).
  { intros pd Hi. apply all_data_in in Hi. apply in_map_iff in Hi as (f & Ef & Hf).
    split; [|apply (attempt_limits _ _ _ _ _ _ Ef)].
    destruct (Hh f Hf) as [H|[H|(pd' & H & A)]]; rewrite Ef in H; try discriminate H. injection H as <-. exact A. }
  rewrite Ec. clearbody data. split; [intros ->; reflexivity|]. intros d0 rest ->.
  destruct (Hal d0 (or_introl eq_refl)) as (_ & L1 & L2).
  destruct (suffix_called "multiplot" p (stem (snd p)) d0 L1 L2 eq_refl) as (q & Eq & C).
  { destruct (String.eqb_spec (snd p) ""); [contradiction|reflexivity]. }
  exists q. split; [exact C|]. unfold multiplot_to_file. rewrite Eq. split; intros O.
  - apply taken_spec in O. rewrite O. reflexivity.
  - destruct (taken d g q) eqn:T; [apply taken_spec in T; contradiction|].
    destruct (assemble_ok (d0 :: rest) only_pwr) as (fig & -> & P).
    { apply Forall_forall. intros x Hx. apply Hal. exact Hx. }
    exists fig. split; [reflexivity|exact P].
Qed.

(** In any case, nothing is overwritten. *)
Lemma plot_to_file_kept fl d g p r ss es o g' x : plot_to_file fl d g p r ss es o = (g', x) -> kept g g'.
Proof.
  unfold plot_to_file, kept. intros H.
  destruct (generate_plot_data fl r ss es true) as [[pd|]|]; [|injection H as <- <-; auto..].
  destruct (with_suffix p _) as [q|]; [|injection H as <- <-; auto].
  destruct (taken d g q) eqn:T; [injection H as <- <-; auto|].
  destruct (assemble_plot _ _); injection H as <- <-; [|auto].
  intros q' y Hy. rewrite find_tl; [exact Hy|]. intros ->. apply (taken_false _ _ _ T). right. congruence.
Qed.
Lemma multiplot_kept d g data p o g' x : multiplot_to_file d g data p o = (g', x) -> kept g g'.
Proof.
  unfold multiplot_to_file, kept. intros H. destruct data as [|d0 data]; [injection H as <- <-; auto|].
  destruct (with_suffix p _) as [q|]; [|injection H as <- <-; auto].
  destruct (taken d g q) eqn:T; [injection H as <- <-; auto|].
  destruct (assemble_plot _ _); injection H as <- <-; [|auto].
  intros q' y Hy. rewrite find_tl; [exact Hy|]. intros ->. apply (taken_false _ _ _ T). right. congruence.
Qed.
Lemma files_kept fl d ss es m o : forall files g data g' x,
  plot_files fl d g files ss es m o data = (g', x) -> kept g g'.
Proof.
  induction files as [|p files IH]; intros g data g' x H; cbn [plot_files] in H.
  { injection H as <- <-. intros q y; auto. }
  destruct (open_reader d p) as [r|[]]; try (injection H as <- <-; intros q y; auto; fail); try (apply IH in H; exact H).
  destruct m.
  - destruct (generate_plot_data fl r ss es true) as [[pd|]|[]];
      try (injection H as <- <-; intros q y; auto; fail); apply IH in H; exact H.
  - destruct (plot_to_file fl d g p r ss es o) as [g1 y] eqn:E. pose proof (plot_to_file_kept _ _ _ _ _ _ _ _ _ _ E) as K.
    destruct y as [y|[]]; try (injection H as <- <-; exact K); apply IH in H; intros q z Hz; auto.
Qed.
Lemma cli_kept fl d g p ss es m o g' x : cli_plot fl d g p ss es m o = (g', x) -> kept g g'.
Proof.
  unfold cli_plot. intros H. set (mm := m && _) in *. clearbody mm.
  destruct (plot_files _ _ _ _ _ _ _ _ _) as [g1 [data|e]] eqn:E; pose proof (files_kept _ _ _ _ _ _ _ _ _ _ _ E) as K;
    [|injection H as <- <-; exact K].
  destruct mm; [|injection H as <- <-; exact K].
  destruct (multiplot_to_file d g1 data p o) as [g2 y] eqn:E2. pose proof (multiplot_kept _ _ _ _ _ _ _ E2) as K2.
  destruct y; injection H as <- <-; intros q z Hz; auto.
Qed.

(* ------------------------------------------------------------------ failures *)

Definition flat_file (n : Z) : h5 := simple_file series_default (zeros n) (zeros n) (zeros n).
Definition flat (n : Z) : reader := rec_reader (zeros n) (zeros n) (zeros n).

Lemma last_repeat n : last (repeat 0 n) 0 = 0.
Proof. induction n as [|[|n] IH]; [reflexivity..|]. exact IH. Qed.
Lemma pair_from_own p l : Qle_bool (gain p) 0 = false ->
  pair_from p (mkDset (Some (gain p)) (Some (offset p)) l) = Ok (mkPair (gain p) (offset p)).
Proof. intros H. unfold pair_from. cbn [ds_gain ds_offset]. rewrite H. reflexivity. Qed.
Lemma open_flat n : reader_init (flat_file n) = Ok (flat n).
Proof.
  unfold reader_init, flat_file, simple_file. cbv zeta. cbn [f_data]. unfold opt.
  rewrite !bind_ok. cbn [g_time g_voltage g_current]. rewrite !bind_ok.
  rewrite !pair_from_own by reflexivity. rewrite !bind_ok.
  cbn [ds_val]. unfold refresh, zeros.
  replace (match repeat 0 (Z.to_nat n) with [] => 0 | t0 :: _ => last (repeat 0 (Z.to_nat n)) 0 - t0 end) with 0.
  - rewrite andb_false_r. reflexivity.
  - rewrite last_repeat. destruct (Z.to_nat n); reflexivity.
Qed.
Lemma flat_even n : even_columns (flat n) (Z.to_nat n).
Proof. repeat split; apply zeros_length. Qed.

(** A directory with two recordings. *)
Definition pair_dir (a b : Z) : fs :=
  [(("", "x"), NDir); (("/x", "a.h5"), NFile (flat_file a)); (("/x", "b.h5"), NFile (flat_file b))]%string.
Lemma pair_list a b : path_to_flist (pair_dir a b) (""%string, "x"%string) = [("/x", "a.h5"); ("/x", "b.h5")]%string.
Proof. reflexivity. Qed.
Lemma pair_open_a a b : open_reader (pair_dir a b) ("/x", "a.h5")%string = Ok (flat a).
Proof. unfold open_reader. change (lookup _ _) with (Some (NFile (flat_file a))). apply open_flat. Qed.
Lemma pair_open_b a b : open_reader (pair_dir a b) ("/x", "b.h5")%string = Ok (flat b).
Proof. unfold open_reader. change (lookup _ _) with (Some (NFile (flat_file b))). apply open_flat. Qed.
Lemma pair_attempt_a fl a b ss es : attempt fl (pair_dir a b) ss es ("/x", "a.h5")%string = generate_plot_data fl (flat a) ss es true.
Proof. unfold attempt. rewrite pair_open_a. reflexivity. Qed.
Lemma pair_attempt_b fl a b ss es : attempt fl (pair_dir a b) ss es ("/x", "b.h5")%string = generate_plot_data fl (flat b) ss es true.
Proof. unfold attempt. rewrite pair_open_b. reflexivity. Qed.

(** A tenth of a second. *)
Lemma tenth_runtime : runtime_s (flat 10000) = (1 # 10)%Q.
Proof.
  unfold runtime_s. change (f_voltage _) with (zeros 10000). rewrite zeros_length, Z2Nat.id by lia.
  vm_compute. reflexivity.
Qed.
Lemma tenth_data fl es a b : cut_end (flat 10000) es = b -> (0 < b <= 1 # 10)%Q -> to_sample (flat 10000) b = a -> 5 <= a ->
  exists pd, generate_plot_data fl (flat 10000) None es true = Ok (Some pd) /\ aligned pd
    /\ pd_start pd = 0%Q /\ pd_end pd = b /\ Z.of_nat (List.length (pd_time pd)) = Z.min a 10000.
Proof.
  intros Hb Hb1 Ha H5.
  destruct (gen_all fl (flat 10000) None es true (Z.to_nat 10000)) as (pd & E & _ & S & _).
  - reflexivity.
  - change (r_max_elements (flat 10000)) with 4000000. lia.
  - apply flat_even.
  - rewrite Hb, Ha. cbn [cut_start]. rewrite to_sample_0. lia.
  - cbn [cut_start]. rewrite to_sample_0. lia.
  - rewrite Hb. cbn [cut_start]. change (st_rate (r_stats (flat 10000))) with 100000.
    change (r_max_elements (flat 10000)) with 4000000. change (inject_Z 100000) with 100000%Q.
    change (inject_Z 4000000) with 4000000%Q. lra.
  - exists pd. split; [exact E|].
    destruct (gen_lengths fl (flat 10000) None es true (Z.to_nat 10000) ltac:(change (r_max_elements (flat 10000)) with 4000000; lia) (flat_even 10000) pd E)
      as (_ & A & _ & _). split; [exact A|].
    assert (EE : pd_start pd = cut_start None /\ pd_end pd = cut_end (flat 10000) es).
    { clear -E. unfold generate_plot_data in E. destruct (_ <? 5); [discriminate E|]. cbv zeta in E.
      destruct (plot_column fl _ (c_time _) _ _ _ _ _) as [t|]; [|discriminate E].
      destruct (plot_column fl _ (c_voltage _) _ _ _ _ _) as [v|]; [|discriminate E].
      destruct (plot_column fl _ (c_current _) _ _ _ _ _) as [i|]; [|discriminate E].
      rewrite !bind_ok in E. cbv beta in E.
      destruct (f_time (r_file (flat 10000))); [discriminate E|]. rewrite bind_ok in E. injection E as <-. auto. }
    destruct EE as [E1 E2]. split; [exact E1|]. split; [rewrite E2; exact Hb|].
    apply DsCliProofs.Forall2_length in S. rewrite <- S, slice_length_min.
    rewrite Hb, Ha. cbn [cut_start]. rewrite to_sample_0.
    change (f_time _) with (zeros 10000). rewrite zeros_length. lia.
Qed.

Lemma crash_stops fl g : exists pd,
  attempt fl (pair_dir 12030000 10000) None None ("/x", "b.h5")%string = Ok (Some pd) /\ aligned pd /\
  cli_plot fl (pair_dir 12030000 10000) g ("", "x")%string None None false false = (g, Err ValueError).
Proof.
  destruct (tenth_data fl None 10000 (1 # 10)) as (pd & E & A & _).
  - exact tenth_runtime.
  - split; reflexivity || discriminate.
  - reflexivity.
  - lia.
  - exists pd. rewrite pair_attempt_b. split; [exact E|]. split; [exact A|].
    unfold cli_plot. rewrite pair_list. cbn [andb List.length plot_files]. rewrite pair_open_a.
    unfold plot_to_file at 1. rewrite gen_crash; [reflexivity|reflexivity|reflexivity|apply flat_even].
Qed.

Lemma none_to_plot fl g o : attempt fl (pair_dir 4000 4000) None None ("/x", "a.h5")%string = Ok None
  /\ attempt fl (pair_dir 4000 4000) None None ("/x", "b.h5")%string = Ok None
  /\ cli_plot fl (pair_dir 4000 4000) g ("", "x")%string None None true o = (g, Err IndexError).
Proof.
  assert (S : generate_plot_data fl (flat 4000) None None true = Ok None).
  { apply gen_short; [reflexivity|]. change (f_voltage _) with (zeros 4000). rewrite zeros_length.
    change (st_rate _) with 100000. lia. }
  rewrite pair_attempt_a, pair_attempt_b. split; [exact S|]. split; [exact S|].
  unfold cli_plot. rewrite pair_list. cbn [andb List.length Nat.ltb Nat.leb plot_files].
  rewrite pair_open_a, pair_open_b, S. reflexivity.
Qed.

(** A second plot of the same name is not made. *)
Lemma name_taken fl d g p r ss es o pd q : generate_plot_data fl r ss es true = Ok (Some pd) ->
  with_suffix p (plot_suffix "plot" pd) = Ok q -> occupied d g q -> plot_to_file fl d g p r ss es o = (g, Ok tt).
Proof.
  intros E W O. unfold plot_to_file. rewrite E, W. apply taken_spec in O. rewrite O. reflexivity.
Qed.
Lemma first_plot fl g p r ss es o pd : 0 < st_rate (r_stats r) -> (snd p =? "")%string = false ->
  generate_plot_data fl r ss es true = Ok (Some pd) -> aligned pd -> g = [] ->
  exists q fig, with_suffix p (plot_suffix "plot" pd) = Ok q /\ plot_to_file fl [] g p r ss es o = ([(q, fig)], Ok tt)
    /\ pictured [pd] o fig.
Proof.
  intros HR Hn E A ->. destruct (gen_limits _ _ _ _ _ _ HR E) as [L1 L2].
  destruct (suffix_called "plot" p (stem (snd p)) pd L1 L2 eq_refl Hn) as (q & W & _).
  destruct (assemble_ok [pd] o) as (fig & Ef & P); [constructor; [exact A|constructor]|].
  exists q, fig. split; [exact W|]. split; [|exact P]. unfold plot_to_file. rewrite E, W, Ef. reflexivity.
Qed.

Lemma power_skipped fl p : (snd p =? "")%string = false -> exists r q fig,
  plot_to_file fl [] [] p r None None false = ([(q, fig)], Ok tt)
  /\ plot_to_file fl [] [(q, fig)] p r None None true = ([(q, fig)], Ok tt) /\ List.length fig = 3%nat.
Proof.
  intros Hn. destruct (tenth_data fl None 10000 (1 # 10)) as (pd & E & A & _).
  - exact tenth_runtime.
  - split; reflexivity || discriminate.
  - reflexivity.
  - lia.
  - destruct (first_plot fl [] p (flat 10000) None None false pd eq_refl Hn E A eq_refl) as (q & fig & W & P & F).
    exists (flat 10000), q, fig. split; [exact P|]. split.
    + apply (name_taken fl [] [(q, fig)] p (flat 10000) None None true pd q E W). right. rewrite find_hd. discriminate.
    + destruct F as (v & i & pw & -> & _). reflexivity.
Qed.

Lemma window_skipped fl p : (snd p =? "")%string = false -> exists r q fig pd1 pd2,
  generate_plot_data fl r None (Some (501 # 10000)) true = Ok (Some pd1)
  /\ generate_plot_data fl r None (Some (504 # 10000)) true = Ok (Some pd2)
  /\ List.length (pd_time pd1) <> List.length (pd_time pd2)
  /\ plot_to_file fl [] [] p r None (Some (501 # 10000)) false = ([(q, fig)], Ok tt)
  /\ plot_to_file fl [] [(q, fig)] p r None (Some (504 # 10000)) false = ([(q, fig)], Ok tt).
Proof.
  intros Hn.
  destruct (tenth_data fl (Some (501 # 10000)) 5010 (501 # 10000)) as (pd1 & E1 & A1 & S1 & F1 & L1).
  - unfold cut_end. rewrite tenth_runtime. reflexivity.
  - split; reflexivity || discriminate.
  - reflexivity.
  - lia.
  - destruct (tenth_data fl (Some (504 # 10000)) 5040 (504 # 10000)) as (pd2 & E2 & A2 & S2 & F2 & L2).
    + unfold cut_end. rewrite tenth_runtime. reflexivity.
    + split; reflexivity || discriminate.
    + reflexivity.
    + lia.
    + destruct (first_plot fl [] p (flat 10000) None (Some (501 # 10000)) false pd1 eq_refl Hn E1 A1 eq_refl) as (q & fig & W & P & _).
      exists (flat 10000), q, fig, pd1, pd2. split; [exact E1|]. split; [exact E2|]. split; [lia|]. split; [exact P|].
      apply (name_taken fl [] [(q, fig)] p (flat 10000) None (Some (504 # 10000)) false pd2 q E2).
      * rewrite <- W. unfold plot_suffix. rewrite S1, S2, F1, F2. reflexivity.
      * right. rewrite find_hd. discriminate.
Qed.

Lemma directories_share d g o data1 data2 d1 d2 rest1 rest2 g1 q : data1 = d1 :: rest1 -> data2 = d2 :: rest2 ->
  pd_start d1 = pd_start d2 -> pd_end d1 = pd_end d2 ->
  multiplot_to_file d g data1 ("", "run.1")%string o = (g1, Ok (Some q)) ->
  multiplot_to_file d g1 data2 ("", "run.2")%string o = (g1, Ok None).
Proof.
  intros -> -> Hs He H. unfold multiplot_to_file in H |- *.
  change (with_suffix ("", "run.1")%string (plot_suffix "multiplot" d1))
    with (@Ok path (""%string, ("run" ++ plot_suffix "multiplot" d1)%string)) in H.
  change (with_suffix ("", "run.2")%string (plot_suffix "multiplot" d2))
    with (@Ok path (""%string, ("run" ++ plot_suffix "multiplot" d2)%string)).
  assert (E : plot_suffix "multiplot" d2 = plot_suffix "multiplot" d1) by (unfold plot_suffix; congruence).
  rewrite E. cbv iota in H |- *. destruct (taken d g (""%string, ("run" ++ plot_suffix "multiplot" d1)%string)) eqn:T; [discriminate H|].
  destruct (assemble_plot (d1 :: rest1) o) as [fig|]; [|discriminate H]. injection H as <- <-.
  unfold taken. rewrite find_hd, orb_true_r. reflexivity.
Qed.
