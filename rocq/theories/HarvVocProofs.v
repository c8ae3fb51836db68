(** Proofs about the open-circuit-voltage harvester and the interval counter (property C07). *)
From Verif Require Import PyBase HarvModel HarvSpec HarvOptProofs.
From RecordUpdate Require Import RecordUpdate.
From Coq Require Import ZifyBool.
Open Scope Z_scope.

Lemma firstn_snoc_le {A} (l : list A) a k : (k <= length l)%nat -> firstn k (l ++ [a]) = firstn k l.
Proof.
  intros H. rewrite firstn_app. replace (k - length l)%nat with 0%nat by lia.
  cbn. apply app_nil_r.
Qed.

Lemma firstn_snoc_all {A} (l : list A) a : firstn (S (length l)) (l ++ [a]) = l ++ [a].
Proof. apply firstn_all2. rewrite app_length; cbn; lia. Qed.

(** The constant-voltage stage does not touch the other algorithms' variables. *)
Lemma cv_frame s x :
  let s' := fst (ivcurve_2_cv s x) in
  voltage_set s' = voltage_set s /\ interval_step s' = interval_step s /\
  is_rising s' = is_rising s /\ volt_step s' = volt_step s /\ step_x4 s' = step_x4 s /\
  age_max s' = age_max s /\ lin_extrapolation s' = lin_extrapolation s /\
  age_now s' = age_now s /\ voc_now s' = voc_now s /\ age_nxt s' = age_nxt s /\
  voc_nxt s' = voc_nxt s /\ voc_min s' = voc_min s /\ power_last s' = power_last s.
Proof.
  destruct x as [v i]. unfold ivcurve_2_cv; cbn zeta.
  repeat match goal with |- context [if ?b then _ else _] => destruct b eqn:? end; cbn; repeat split; auto.
Qed.

Definition voc_nowI (c : hcfg) (xs : list sample) (s : hst) (now : option nat) : Prop :=
  match now with
  | Some j =>
      (exists x, nth_error xs j = Some x /\ open_circuit c x /\ voc_now s = fst x) /\
      age_now s = Z.of_nat (length xs) - 1 - Z.of_nat j /\ age_now s <= 2 * h_window c /\
      (forall i x, (j < i)%nat -> nth_error xs i = Some x -> open_circuit c x -> voc_now s <= fst x)
  | None => voc_now s = h_vmax c /\ 0 <= age_now s
  end.

Definition voc_nxtI (c : hcfg) (xs : list sample) (s : hst) (nxt : option nat) : Prop :=
  match nxt with
  | Some j =>
      (exists x, nth_error xs j = Some x /\ open_circuit c x /\ voc_nxt s = fst x) /\
      age_nxt s = Z.of_nat (length xs) - 1 - Z.of_nat j /\
      (forall i x, (j < i)%nat -> nth_error xs i = Some x -> open_circuit c x -> voc_nxt s <= fst x) /\
      voc_now s < voc_nxt s /\ age_nxt s < age_now s
  | None => voc_nxt s = h_vmax c /\ 0 <= age_nxt s <= age_now s
  end.

Definition voc_inv (c : hcfg) (xs : list sample) (s : hst) (now nxt : option nat) : Prop :=
  age_max s = 2 * h_window c /\ voc_min s = Z.max 1000 (h_vmin c) /\
  voc_nowI c xs s now /\ voc_nxtI c xs s nxt.

Lemma voc_init_inv c : voc_inv c [] (h_init c) None None.
Proof. unfold voc_inv, voc_nowI, voc_nxtI; cbn. lia. Qed.

Lemma voc_track_frame c s x :
  interval_step (voc_track c s x) = interval_step (tick_interval c s) /\
  voltage_set (voc_track c s x) = voltage_set s /\
  voltage_hold (voc_track c s x) = voltage_hold s /\
  current_hold (voc_track c s x) = current_hold s /\
  voltage_last (voc_track c s x) = voltage_last s /\
  current_last (voc_track c s x) = current_last s /\
  compare_last (voc_track c s x) = compare_last s /\
  step_x4 (voc_track c s x) = step_x4 s /\
  lin_extrapolation (voc_track c s x) = lin_extrapolation s.
Proof.
  destruct x as [v i]. unfold voc_track, tick_interval.
  repeat match goal with |- context [if ?b then _ else _] => destruct b end; cbn; repeat split.
Qed.

Lemma voc_track_step c xs s now nxt x :
  0 < h_window c ->
  voc_inv c xs s now nxt ->
  let s' := voc_track c s x in
  exists now' nxt',
    voc_inv c (xs ++ [x]) s' now' nxt' /\
    (now' = None -> ~ open_circuit c x) /\
    (now' = now \/ now' = Some (length xs) \/
     (exists j, now = Some j /\ Z.of_nat (length xs) - Z.of_nat j > 2 * h_window c)).
Proof.
  intros Hw (HA & HM & Hnow & Hnxt).
  set (n := length xs) in *.
  assert (Hlen : length (xs ++ [x]) = S n) by (rewrite app_length; cbn; unfold n; lia).
  assert (Hlast : nth_error (xs ++ [x]) n = Some x) by apply nth_error_snoc_last.
  unfold voc_track. destruct x as [v i].
  set (s1 := tick_interval c s).
  assert (E1 : age_now s1 = age_now s /\ age_nxt s1 = age_nxt s /\ voc_now s1 = voc_now s /\
               voc_nxt s1 = voc_nxt s /\ voc_min s1 = voc_min s /\ age_max s1 = age_max s)
    by (unfold s1, tick_interval; cbn; auto 10).
  clearbody s1. destruct E1 as (E1a & E1b & E1c & E1d & E1e & E1f).
  set (s2 := s1 <| age_nxt := age_nxt s1 + 1 |> <| age_now := age_now s1 + 1 |>).
  set (s3 := if (i <? h_ilimit c) && (v <? voc_nxt s2) && (v >=? voc_min s2) && (v <=? h_vmax c)
    then s2 <| voc_nxt := v |> <| age_nxt := 0 |> else s2).
  assert (H3 : age_now s3 = age_now s + 1 /\ voc_now s3 = voc_now s /\ age_max s3 = age_max s /\
               voc_min s3 = voc_min s).
  { unfold s3, s2. destruct (_ && _ && _ && _); cbn; rewrite ?E1a; auto. }
  destruct H3 as (Ean & Evn & Eam & Emn).
  assert (Hvmax : voc_nxt s <= h_vmax c).
  { destruct nxt as [j|]; cbn in Hnxt; [|lia].
    destruct Hnxt as ((x & _ & [_ Hx] & E) & _). lia. }
  assert (Hcand : exists nxt1,
     match nxt1 with
     | Some j =>
        (exists x, nth_error (xs ++ @cons sample (v,i) nil) j = Some x /\ open_circuit c x /\
                   voc_nxt s3 = fst x) /\
        age_nxt s3 = Z.of_nat n - Z.of_nat j /\
        (forall k x, (j < k)%nat -> nth_error (xs ++ @cons sample (v,i) nil) k = Some x ->
                     open_circuit c x -> voc_nxt s3 <= fst x) /\
        (j = n \/ voc_now s < voc_nxt s3) /\ age_nxt s3 < age_now s3
     | None => voc_nxt s3 = h_vmax c /\ 0 <= age_nxt s3 <= age_now s3 /\ ~ open_circuit c (v,i)
     end /\ (open_circuit c (v,i) -> voc_nxt s3 <= v)).
  { unfold s3, s2.
    destruct ((i <? h_ilimit c) && (v <? _) && (v >=? _) && (v <=? h_vmax c)) eqn:E;
      cbn in E |- *; rewrite ?E1a, ?E1b, ?E1c, ?E1d, ?E1e, ?HM in *.
    - exists (Some n). split; [|lia]. split; [|split; [|split; [|split]]].
      + exists (v, i). split; [exact Hlast|]. split; [|reflexivity].
        unfold open_circuit; cbn. lia.
      + lia.
      + intros k x Hk Hx _. apply nth_error_lt in Hx. lia.
      + left; reflexivity.
      + destruct now as [j|]; cbn in Hnow; [|lia].
        destruct Hnow as ((x & Hj & _) & Ha & _). apply nth_error_lt in Hj. unfold n in *. lia.
    - assert (Hlow : open_circuit c (v,i) -> voc_nxt s <= v).
      { intros [Hr Hp]. cbn in *. lia. }
      destruct nxt as [j|]; cbn in Hnxt.
      + destruct Hnxt as ((x & Hj & Hu & Hp) & Ha & Hd & Hlt & Hage).
        exists (Some j). split; [|intro Hux; specialize (Hlow Hux); lia].
        pose proof (nth_error_lt _ _ _ Hj). split; [|split; [|split; [|split]]].
        * exists x. split; [apply nth_error_snoc_old; exact Hj|]. split; [exact Hu|lia].
        * lia.
        * intros k y Hk Hy Huy. apply nth_error_snoc in Hy as [[_ Hy]|[_ ->]].
          -- eapply Hd; eauto.
          -- cbn. auto.
        * right; lia.
        * lia.
      + exists None. destruct Hnxt as (Hp & Ha).
        assert (Hno : ~ open_circuit c (v,i)).
        { intros Hux. specialize (Hlow Hux). destruct Hux as [_ Hux]. cbn in Hux. lia. }
        split; [|intro Hux; contradiction]. repeat split; try lia. exact Hno. }
  destruct Hcand as (nxt1 & Hc & Hcx).
  assert (Hswitch : forall b, (age_now s3 >? age_max s3) || (voc_nxt s3 <=? voc_now s3) = b ->
     (b = true -> age_now s >= 2 * h_window c \/ voc_nxt s3 <= voc_now s) /\
     (b = false -> age_now s < 2 * h_window c /\ voc_nxt s3 > voc_now s)).
  { intros b Hb. rewrite Ean, Eam, HA, Evn in Hb. split; intros ->; lia. }
  destruct ((age_now s3 >? age_max s3) || (voc_nxt s3 <=? voc_now s3)) eqn:Eb;
    specialize (Hswitch _ eq_refl) as [Ht Hf].
  - specialize (Ht eq_refl). clear Hf.
    exists nxt1, None. unfold voc_inv, voc_nowI, voc_nxtI. rewrite Hlen. cbn.
    assert (Hages : forall j, nxt1 = Some j -> age_nxt s3 <= 2 * h_window c).
    { intros j ->. destruct Hc as ((x & _ & [_ Hx] & E) & Ha & _ & Hjn & Hlt).
      destruct now as [j0|]; cbn in Hnow.
      - destruct Hnow as (_ & _ & Hle & _). lia.
      - destruct Hnow as (Hp0 & _). destruct Hjn as [->|Hlow]; lia. }
    split; [split; [lia|split; [lia|split]]|split].
    + destruct nxt1 as [j|].
      * destruct Hc as (Hx & Ha & Hd & _ & Hlt). split; [exact Hx|].
        split; [lia|]. split; [eapply Hages; eauto|exact Hd].
      * lia.
    + split; [lia|]. destruct nxt1 as [j|]; [|lia].
      destruct Hc as ((x & Hj & _) & Ha & _). apply nth_error_lt in Hj. rewrite Hlen in Hj. lia.
    + intros ->. apply Hc.
    + destruct nxt1 as [j|].
      * destruct Hc as ((x & Hj & [_ Hx] & E) & Ha & Hd & [->|Hlt2] & Hlt); [right; left; reflexivity|].
        right; right. destruct Ht as [Hold|Hge]; [|lia].
        destruct now as [j0|]; cbn in Hnow.
        -- exists j0. destruct Hnow as (_ & Ha0 & _). fold n in Ha0. split; [reflexivity|lia].
        -- exfalso. lia.
      * destruct now as [j0|]; [|left; reflexivity].
        right; right. exists j0. split; [reflexivity|].
        cbn in Hnow. destruct Hnow as ((x0 & _ & [_ Hx0] & E0) & Ha0 & Hle & Hd0).
        fold n in Ha0. lia.
  - specialize (Hf eq_refl). clear Ht. destruct Hf as [Hyoung Hlow].
    exists now, nxt1. unfold voc_inv, voc_nowI, voc_nxtI. rewrite Hlen.
    destruct now as [j0|]; cbn in Hnow.
    + destruct Hnow as ((x0 & Hj & Hu & Hp) & Ha & Hle & Hd). fold n in Ha.
      pose proof (nth_error_lt _ _ _ Hj).
      split; [split; [lia|split; [lia|split]]|].
      * split; [|split; [lia|split; [lia|]]].
        -- exists x0. split; [apply nth_error_snoc_old; exact Hj|]. split; [exact Hu|lia].
        -- intros k x Hk Hx Hux. rewrite Evn. apply nth_error_snoc in Hx as [[_ Hx]|[_ ->]].
           ++ eapply Hd; eauto.
           ++ specialize (Hcx Hux). cbn. lia.
      * destruct nxt1 as [j|].
        -- destruct Hc as (Hx1 & Ha1 & Hd1 & _ & Hlt1). rewrite Evn.
           split; [exact Hx1|]. split; [lia|]. split; [exact Hd1|]. lia.
        -- lia.
      * split; [discriminate|]. left; reflexivity.
    + exfalso. destruct Hnow as (Hp0 & _). destruct nxt1 as [j|].
      * destruct Hc as ((x & _ & [_ Hx] & E) & _). lia.
      * lia.
Qed.

Lemma runs_voc_dispatch c s x :
  runs_voc c -> ivcurve_sample c s x = ivcurve_2_mppt_voc c s x.
Proof.
  intros [Hw Ha]. unfold ivcurve_sample, HRV_MPPT_OPT, HRV_MPPT_PO, HRV_MPPT_VOC.
  destruct (h_window c <=? 1) eqn:E1; [lia|].
  destruct (h_algorithm c >=? 2 ^ 14) eqn:E2; [lia|].
  destruct (h_algorithm c >=? 2 ^ 13) eqn:E3; [lia|].
  destruct (h_algorithm c >=? 2 ^ 12) eqn:E4; [reflexivity|lia].
Qed.

Lemma voc_inv_ext c xs s s' now nxt :
  age_max s' = age_max s -> voc_min s' = voc_min s -> age_now s' = age_now s ->
  age_nxt s' = age_nxt s -> voc_now s' = voc_now s -> voc_nxt s' = voc_nxt s ->
  voc_inv c xs s now nxt -> voc_inv c xs s' now nxt.
Proof.
  intros E1 E2 E3 E4 E5 E6. unfold voc_inv, voc_nowI, voc_nxtI.
  rewrite E1, E2, E3, E4, E5, E6. auto.
Qed.

(** What a whole call leaves behind, in terms of the tracked estimate. *)
Lemma voc_call c s x :
  let s' := fst (ivcurve_2_mppt_voc c s x) in
  let t := voc_track c s x in
  age_max s' = age_max t /\ voc_min s' = voc_min t /\ age_now s' = age_now t /\
  age_nxt s' = age_nxt t /\ voc_now s' = voc_now t /\ voc_nxt s' = voc_nxt t /\
  interval_step s' = interval_step (tick_interval c s) /\
  lin_extrapolation s' = lin_extrapolation s /\ step_x4 s' = step_x4 s /\
  voltage_set s' =
    (if interval_step (tick_interval c s) <? h_duration c then voc_now t
     else if interval_step (tick_interval c s) =? h_duration c
          then Z.quot (voc_now t * h_setpoint_n8 c) 256
          else voltage_set s).
Proof.
  cbv zeta. unfold ivcurve_2_mppt_voc.
  pose proof (cv_frame (voc_track c s x) x) as F. cbv zeta in F.
  pose proof (voc_track_frame c s x) as G.
  destruct (ivcurve_2_cv (voc_track c s x) x) as [s5 out]. cbn [fst] in F |- *.
  destruct F as (F1 & F2 & F3 & F4 & F5 & F6 & F7 & F8 & F9 & F10 & F11 & F12 & F13).
  destruct G as (G1 & G2 & G3 & G4 & G5 & G6 & G7 & G8 & G9).
  rewrite F2, G1. set (ti := interval_step (tick_interval c s)) in *. clearbody ti.
  set (t := voc_track c s x) in *. clearbody t.
  destruct (ti <? h_duration c); [cbn; repeat split; congruence|].
  destruct (ti =? h_duration c); cbn; repeat split; congruence.
Qed.

Lemma voc_correct c xs :
  runs_voc c ->
  exists src, voc_explains c xs src /\ voc_steady c xs src.
Proof.
  intros Hr.
  assert (Hw : 0 < h_window c) by (destruct Hr; lia).
  cut (exists src now nxt,
    voc_inv c xs (h_state c xs) now nxt /\
    voc_explains c xs src /\ voc_steady c xs src /\
    (forall n, length xs = S n -> src n = now)).
  { intros (src & _ & _ & _ & H1 & H2 & _). eauto. }
  induction xs as [|x xs IH] using rev_ind.
  - exists (fun _ => None), None, None. split; [apply voc_init_inv|].
    split; [intros k Hk; cbn in Hk; lia|].
    split; [intros k Hk; cbn in Hk; lia|]. intros n Hn; discriminate.
  - destruct IH as (src & now & nxt & Hinv & Hex & Hst & Hlastn).
    destruct (voc_track_step c xs (h_state c xs) now nxt x Hw Hinv)
      as (now' & nxt' & Hinv' & Hno & Hch).
    pose proof (voc_call c (h_state c xs) x) as HC. cbv zeta in HC.
    rewrite <- (runs_voc_dispatch c _ x Hr), <- h_state_snoc in HC.
    destruct HC as (C1 & C2 & C3 & C4 & C5 & C6 & _).
    assert (Hinv2 : voc_inv c (xs ++ [x]) (h_state c (xs ++ [x])) now' nxt').
    { eapply voc_inv_ext; [..|exact Hinv']; assumption. }
    clear Hinv' C1 C2 C3 C4 C5 C6.
    set (n := length xs) in *.
    assert (Hlen' : length (xs ++ [x]) = S n) by (rewrite app_length; cbn; unfold n; lia).
    exists (fun k => if Nat.eqb k n then now' else src k), now', nxt'.
    split; [exact Hinv2|]. split; [|split].
    + intros k Hk. rewrite Hlen' in Hk.
      destruct (Nat.eqb_spec k n) as [->|Hkn].
      * unfold voc_after. replace (firstn (S n) (xs ++ [x])) with (xs ++ [x])
          by (symmetry; apply firstn_snoc_all).
        destruct Hinv2 as (_ & _ & Hn' & _). destruct now' as [j|]; cbn in Hn'.
        -- destruct Hn' as (Hx & Ha & Hle & Hd). rewrite Hlen' in Ha.
           assert (Hjl : (j < S n)%nat).
           { destruct Hx as (z & Hz & _). apply nth_error_lt in Hz. lia. }
           split; [lia|]. split; [lia|]. split; [exact Hx|].
           intros i z Hi Hz Huz. apply (Hd i z); [lia|exact Hz|exact Huz].
        -- split; [apply Hn'|].
           intros z Hz. apply nth_error_snoc in Hz as [[E _]|[_ ->]]; [fold n in E; lia|].
           apply Hno. reflexivity.
      * assert (Hk' : (k < n)%nat) by lia.
        specialize (Hex k Hk'). unfold voc_after in *.
        rewrite firstn_snoc_le by (fold n; lia).
        destruct (src k) as [j|].
        -- destruct Hex as (Hj & Hag & (z & Hz & Hoz & Ez) & Hd).
           split; [exact Hj|]. split; [exact Hag|]. split.
           ++ exists z. split; [apply nth_error_snoc_old; exact Hz|]. auto.
           ++ intros i y Hi Hy Huy. apply nth_error_snoc in Hy as [[_ Hy]|[E _]].
              ** eapply Hd; eauto.
              ** fold n in E. lia.
        -- destruct Hex as [Hz Hn]. split; [exact Hz|]. intros z Hz' Hu.
           apply nth_error_snoc in Hz' as [[_ Hz']|[E _]]; [eapply Hn; eauto|fold n in E; lia].
    + intros k Hk. rewrite Hlen' in Hk.
      rewrite (proj2 (Nat.eqb_neq k n)) by lia.
      destruct (Nat.eqb_spec (S k) n) as [E|E].
      * rewrite (Hlastn k (eq_sym E)), E.
        destruct Hch as [->|[->|(j & Ej & Hj)]]; [left; reflexivity|right; left; reflexivity|].
        right; right. exists j. split; [exact Ej|].
        destruct Hinv as (_ & _ & Hn0 & _). rewrite Ej in Hn0. cbn in Hn0.
        destruct Hn0 as ((z & Hjx & _) & _). apply nth_error_lt in Hjx. fold n in Hjx. lia.
      * apply Hst. fold n. lia.
    + intros m Hm. rewrite Hlen' in Hm. injection Hm as <-. rewrite Nat.eqb_refl. reflexivity.
Qed.

(** The interval counter after [n] calls of an algorithm that uses it. *)
Definition uses_interval (c : hcfg) : Prop := runs_voc c \/ runs_po c.

Lemma runs_po_dispatch c s x :
  runs_po c -> ivcurve_sample c s x = ivcurve_2_mppt_po c s x.
Proof.
  intros [Hw Ha]. unfold ivcurve_sample, HRV_MPPT_OPT, HRV_MPPT_PO.
  destruct (h_window c <=? 1) eqn:E1; [lia|].
  destruct (h_algorithm c >=? 2 ^ 14) eqn:E2; [lia|].
  destruct (h_algorithm c >=? 2 ^ 13) eqn:E3; [reflexivity|lia].
Qed.

Lemma runs_cv_dispatch c s x :
  runs_cv c -> ivcurve_sample c s x = ivcurve_2_cv s x.
Proof.
  intros [Hw Ha]. unfold ivcurve_sample, HRV_MPPT_OPT, HRV_MPPT_PO, HRV_MPPT_VOC, HRV_CV.
  destruct (h_window c <=? 1) eqn:E1; [lia|].
  destruct (h_algorithm c >=? 2 ^ 14) eqn:E2; [lia|].
  destruct (h_algorithm c >=? 2 ^ 13) eqn:E3; [lia|].
  destruct (h_algorithm c >=? 2 ^ 12) eqn:E4; [lia|].
  destruct (h_algorithm c >=? 2 ^ 8) eqn:E5; [reflexivity|lia].
Qed.

Lemma po_perturb_interval c s p : interval_step (po_perturb c s p) = interval_step s.
Proof.
  unfold po_perturb.
  repeat match goal with |- context [if ?b then _ else _] => destruct b end; reflexivity.
Qed.

Lemma po_limit_interval c s : interval_step (po_limit c s) = interval_step s.
Proof.
  unfold po_limit.
  repeat match goal with |- context [if ?b then _ else _] => destruct b end; reflexivity.
Qed.

Lemma call_interval c s x :
  uses_interval c ->
  interval_step (fst (ivcurve_sample c s x)) = interval_step (tick_interval c s).
Proof.
  intros [Hr|Hr].
  - rewrite (runs_voc_dispatch c s x Hr). apply voc_call.
  - rewrite (runs_po_dispatch c s x Hr). unfold ivcurve_2_mppt_po.
    pose proof (cv_frame (tick_interval c s) x) as F. cbv zeta in F.
    destruct (ivcurve_2_cv (tick_interval c s) x) as [s2 out]. cbn [fst] in F |- *.
    destruct F as (_ & F2 & _). rewrite <- F2.
    destruct (interval_step s2 =? 0).
    + rewrite po_limit_interval, po_perturb_interval. reflexivity.
    + reflexivity.
Qed.

Lemma mod_step a n : 0 < n -> (a + 1) mod n = if a mod n + 1 >=? n then 0 else a mod n + 1.
Proof.
  intros Hn. pose proof (Z.mod_pos_bound a n Hn) as Hb. pose proof (Z.div_mod a n) as Hd.
  destruct (a mod n + 1 >=? n) eqn:E.
  - symmetry. apply (Z.mod_unique _ _ (a / n + 1)); [left; lia|]. nia.
  - symmetry. apply (Z.mod_unique _ _ (a / n)); [left; lia|]. lia.
Qed.

Lemma interval_phase c xs k :
  uses_interval c -> 0 < h_interval c ->
  (2 * h_window c < h_interval c \/ h_interval c <= 2 ^ 30 + 1) ->
  length xs = S k ->
  interval_step (h_state c xs) = phase c k.
Proof.
  intros Hu Hi Hc. revert k.
  assert (Hw : h_window c > 1) by (destruct Hu as [[? _]|[? _]]; lia).
  induction xs as [|x xs IH] using rev_ind; intros k Hk; [discriminate|].
  rewrite h_state_snoc, call_interval by exact Hu.
  rewrite app_length in Hk. cbn in Hk.
  unfold tick_interval. cbn.
  destruct xs as [|x0 xs'].
  - cbn in Hk. assert (k = 0%nat) as -> by lia. cbn. unfold phase.
    destruct (h_interval c >? 2 * h_window c) eqn:E; cbn.
    + rewrite (Zplus_comm (Z.of_nat 0)), Z.add_0_r.
      destruct (_ >=? h_interval c) eqn:E2; [lia|].
      apply (Z.mod_unique _ _ (-1)); [left; lia|lia].
    + change (2 ^ 30) with 1073741824 in *. destruct (_ >=? h_interval c) eqn:E2; [|lia].
      rewrite Z.mod_0_l by lia. reflexivity.
  - destruct k as [|k]; [cbn in Hk; lia|].
    rewrite (IH k) by (cbn in Hk |- *; lia).
    unfold phase. destruct (h_interval c >? 2 * h_window c).
    + replace (Z.of_nat (S k) + 1 - 2 * h_window c)
        with ((Z.of_nat k + 1 - 2 * h_window c) + 1) by lia.
      rewrite mod_step by exact Hi. reflexivity.
    + replace (Z.of_nat (S k)) with (Z.of_nat k + 1) by lia.
      rewrite mod_step by exact Hi. reflexivity.
Qed.

Lemma firstn_S_snoc {A} (l : list A) k a :
  nth_error l k = Some a -> firstn (S k) l = firstn k l ++ [a].
Proof.
  revert k. induction l as [|b l IH]; intros [|k] H; try discriminate.
  - cbn in *. injection H as ->. reflexivity.
  - cbn in H. cbn [firstn app]. f_equal. apply IH. exact H.
Qed.

(** The setpoint follows the estimate during the measurement phase, then drops to the configured
    fraction of it and stays there until the next measurement. *)
Lemma voc_setpoint c xs k x :
  runs_voc c -> 0 < h_interval c ->
  (2 * h_window c < h_interval c \/ h_interval c <= 2 ^ 30 + 1) ->
  nth_error xs k = Some x ->
  setpoint_after c xs (S k) =
    (if phase c k <? h_duration c then voc_after c xs (S k)
     else if phase c k =? h_duration c then Z.quot (voc_after c xs (S k) * h_setpoint_n8 c) 256
     else setpoint_after c xs k).
Proof.
  intros Hr Hi Hc Hx. unfold setpoint_after, voc_after.
  pose proof (interval_phase c (firstn (S k) xs) k (or_introl Hr) Hi Hc) as HP.
  rewrite firstn_length_le in HP by (apply nth_error_lt in Hx; lia).
  specialize (HP eq_refl).
  rewrite (firstn_S_snoc _ _ _ Hx) in *. rewrite h_state_snoc in *.
  rewrite (runs_voc_dispatch c _ x Hr) in *.
  pose proof (voc_call c (h_state c (firstn k xs)) x) as HC. cbv zeta in HC.
  destruct HC as (_ & _ & _ & _ & C5 & _ & C7 & _ & _ & C10).
  rewrite C10, C5, <- HP, C7. reflexivity.
Qed.

(** Bounds of estimate and setpoint. *)
Lemma voc_bounds c xs k x :
  runs_voc c -> 1000 <= h_vmax c -> h_vmin c <= h_vmax c ->
  nth_error xs k = Some x ->
  Z.max 1000 (h_vmin c) <= voc_after c xs (S k) <= h_vmax c /\
  (open_circuit c x -> voc_after c xs (S k) <= fst x).
Proof.
  intros Hr H1 H2 Hx. destruct (voc_correct c xs Hr) as (src & Hex & _).
  pose proof (nth_error_lt _ _ _ Hx) as Hk. specialize (Hex k Hk).
  destruct (src k) as [j|].
  - destruct Hex as (Hj & _ & (z & Hz & [Ho1 Ho2] & ->) & Hd). split; [lia|].
    intros Ho. destruct (Nat.eq_dec j k) as [->|Hne].
    + rewrite Hx in Hz. injection Hz as ->. lia.
    + apply (Hd k x); [lia|exact Hx|exact Ho].
  - destruct Hex as [-> Hn]. split; [lia|]. intros Ho. exfalso. eapply Hn; eauto.
Qed.
