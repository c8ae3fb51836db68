(** Proofs about the optimal harvester (properties C02, C03). *)
From Verif Require Import PyBase HarvModel HarvSpec.
From RecordUpdate Require Import RecordUpdate.
From Coq Require Import ZifyBool.
Open Scope Z_scope.

Lemma h_run_snoc c s xs x :
  h_run c s (xs ++ [x]) =
  let (s1, ys) := h_run c s xs in
  let (s2, y) := ivcurve_sample c s1 x in (s2, ys ++ [y]).
Proof.
  revert s. induction xs as [|a xs IH]; intros s; cbn [h_run app].
  - destruct (ivcurve_sample c s x). reflexivity.
  - destruct (ivcurve_sample c s a) as [s1 y1]. rewrite IH.
    destruct (h_run c s1 xs) as [s2 ys]. destruct (ivcurve_sample c s2 x). reflexivity.
Qed.

Lemma h_state_snoc c xs x :
  h_state c (xs ++ [x]) = fst (ivcurve_sample c (h_state c xs) x).
Proof.
  unfold h_state. rewrite h_run_snoc. destruct (h_run c (h_init c) xs) as [s1 ys]. cbn.
  destruct (ivcurve_sample c s1 x). reflexivity.
Qed.

Lemma h_outputs_snoc c xs x :
  h_outputs c (xs ++ [x]) = h_outputs c xs ++ [snd (ivcurve_sample c (h_state c xs) x)].
Proof.
  unfold h_outputs, h_state. rewrite h_run_snoc. destruct (h_run c (h_init c) xs) as [s1 ys]. cbn.
  destruct (ivcurve_sample c s1 x). reflexivity.
Qed.

Lemma h_outputs_length c xs : length (h_outputs c xs) = length xs.
Proof.
  induction xs as [|x xs IH] using rev_ind; [reflexivity|].
  rewrite h_outputs_snoc, !app_length, IH. reflexivity.
Qed.

Lemma nth_error_snoc {A} (l : list A) a k x :
  nth_error (l ++ [a]) k = Some x ->
  (k < length l /\ nth_error l k = Some x)%nat \/ (k = length l /\ x = a).
Proof.
  intros H. destruct (Nat.lt_ge_cases k (length l)) as [Hk|Hk].
  - left. rewrite nth_error_app1 in H by exact Hk. auto.
  - right. rewrite nth_error_app2 in H by exact Hk.
    destruct (k - length l)%nat eqn:E; cbn in H.
    + inversion H. split; [lia|reflexivity].
    + destruct n; discriminate.
Qed.

Lemma nth_error_snoc_last {A} (l : list A) a : nth_error (l ++ [a]) (length l) = Some a.
Proof. rewrite nth_error_app2 by lia. rewrite Nat.sub_diag. reflexivity. Qed.

Lemma nth_error_snoc_old {A} (l : list A) a k x :
  nth_error l k = Some x -> nth_error (l ++ [a]) k = Some x.
Proof.
  intros H. rewrite nth_error_app1; [exact H|]. apply nth_error_Some. congruence.
Qed.

Lemma nth_error_lt {A} (l : list A) k x : nth_error l k = Some x -> (k < length l)%nat.
Proof. intros H. apply nth_error_Some. congruence. Qed.

(** What is known about the held point ([now]) and the next candidate ([nxt]). *)
Definition opt_now (c : hcfg) (xs : list sample) (s : hst) (now : option nat) : Prop :=
  match now with
  | Some j =>
      nth_error xs j = Some (voltage_now s, current_now s) /\
      usable c (voltage_now s, current_now s) /\
      power_now s = voltage_now s * current_now s /\
      age_now s = Z.of_nat (length xs) - 1 - Z.of_nat j /\ age_now s <= 2 * h_window c /\
      (forall i x, (j < i)%nat -> nth_error xs i = Some x -> usable c x -> power x < power_now s)
  | None => power_now s = 0 /\ voltage_now s = 0 /\ current_now s = 0 /\ 0 <= age_now s
  end.

Definition opt_nxt (c : hcfg) (xs : list sample) (s : hst) (nxt : option nat) : Prop :=
  match nxt with
  | Some j =>
      nth_error xs j = Some (voltage_nxt s, current_nxt s) /\
      usable c (voltage_nxt s, current_nxt s) /\
      power_nxt s = voltage_nxt s * current_nxt s /\
      age_nxt s = Z.of_nat (length xs) - 1 - Z.of_nat j /\
      (forall i x, (j < i)%nat -> nth_error xs i = Some x -> usable c x -> power x < power_nxt s) /\
      power_nxt s < power_now s /\ age_nxt s < age_now s
  | None => power_nxt s = 0 /\ voltage_nxt s = 0 /\ current_nxt s = 0 /\ 0 <= age_nxt s <= age_now s
  end.

Definition opt_inv (c : hcfg) (xs : list sample) (s : hst) (now nxt : option nat) : Prop :=
  age_max s = 2 * h_window c /\ opt_now c xs s now /\ opt_nxt c xs s nxt.

Lemma opt_init_inv c : opt_inv c [] (h_init c) None None.
Proof. unfold opt_inv, opt_now, opt_nxt; cbn. lia. Qed.

(** One step: the invariant is kept, and the new result is explained. *)
Lemma opt_step c xs s now nxt x :
  0 < h_window c ->
  opt_inv c xs s now nxt ->
  let s' := fst (ivcurve_2_mppt_opt c s x) in
  let y := snd (ivcurve_2_mppt_opt c s x) in
  exists now' nxt',
    opt_inv c (xs ++ [x]) s' now' nxt' /\ y = (voltage_now s', current_now s') /\
    (now' = None -> ~ usable c x) /\
    (now' = now \/ now' = Some (length xs) \/
     (exists j, now = Some j /\
        (Z.of_nat (length xs) - Z.of_nat j > 2 * h_window c \/ power_now s = 0))).
Proof.
  intros Hw (HA & Hnow & Hnxt).
  set (n := length xs) in *.
  assert (Hlen : length (xs ++ [x]) = S n) by (rewrite app_length; cbn; unfold n; lia).
  assert (Hlast : nth_error (xs ++ [x]) n = Some x) by apply nth_error_snoc_last.
  destruct x as [v i].
  (* candidate slot after looking at the new sample *)
  unfold ivcurve_2_mppt_opt.
  set (s1 := s <| age_now := age_now s + 1 |> <| age_nxt := age_nxt s + 1 |>).
  set (s2 := if (v * i >=? power_nxt s1) && (v >=? h_vmin c) && (v <=? h_vmax c)
    then s1 <| age_nxt := 0 |> <| power_nxt := v * i |> <| voltage_nxt := v |> <| current_nxt := i |>
    else s1).
  assert (H2now : age_now s2 = age_now s + 1 /\ power_now s2 = power_now s /\
                  voltage_now s2 = voltage_now s /\ current_now s2 = current_now s /\
                  age_max s2 = age_max s).
  { unfold s2. destruct (_ && _ && _); cbn; auto. }
  destruct H2now as (Ean & Epn & Evn & Ecn & Eam).
  assert (Hpn0 : 0 <= power_nxt s).
  { destruct nxt as [j|]; cbn in Hnxt; [|lia].
    destruct Hnxt as (_ & [_ Hu] & E & _). unfold power in Hu; cbn in Hu. lia. }
  assert (Hcand : exists nxt1,
     match nxt1 with
     | Some j =>
        nth_error (xs ++ @cons sample (v,i) nil) j = Some (voltage_nxt s2, current_nxt s2) /\
        usable c (voltage_nxt s2, current_nxt s2) /\
        power_nxt s2 = voltage_nxt s2 * current_nxt s2 /\
        age_nxt s2 = Z.of_nat n - Z.of_nat j /\
        (forall k x, (j < k)%nat -> nth_error (xs ++ @cons sample (v,i) nil) k = Some x -> usable c x ->
                     power x < power_nxt s2) /\
        (j = n \/ power_nxt s2 < power_now s) /\ age_nxt s2 < age_now s2
     | None => power_nxt s2 = 0 /\ voltage_nxt s2 = 0 /\ current_nxt s2 = 0 /\
               0 <= age_nxt s2 <= age_now s2 /\ ~ usable c (v,i)
     end /\ (usable c (v,i) -> power (v,i) <= power_nxt s2)).
  { unfold s2, s1.
    destruct ((v * i >=? _) && (v >=? h_vmin c) && (v <=? h_vmax c)) eqn:E; cbn in E |- *.
    - exists (Some n). split; [|unfold power; cbn; lia]. repeat split.
      + exact Hlast.
      + cbn; lia.
      + cbn; lia.
      + unfold power; cbn; lia.
      + lia.
      + intros k x Hk Hx _. apply nth_error_lt in Hx. lia.
      + left; reflexivity.
      + destruct now as [j|]; cbn in Hnow; [|lia].
        destruct Hnow as (Hj & _ & _ & Ha & _). apply nth_error_lt in Hj. unfold n in *. lia.
    - assert (Hlow : usable c (v,i) -> power (v,i) < power_nxt s).
      { intros [Hr Hp]. unfold power in *; cbn in *. lia. }
      destruct nxt as [j|]; cbn in Hnxt.
      + destruct Hnxt as (Hj & Hu & Hp & Ha & Hd & Hlt & Hage).
        exists (Some j). split; [|intro Hux; specialize (Hlow Hux); lia].
        pose proof (nth_error_lt _ _ _ Hj). repeat split.
        * apply nth_error_snoc_old. exact Hj.
        * apply Hu.
        * apply Hu.
        * apply Hu.
        * exact Hp.
        * lia.
        * intros k x Hk Hx Hux. apply nth_error_snoc in Hx as [[_ Hx]|[_ ->]].
          -- eapply Hd; eauto.
          -- auto.
        * right; exact Hlt.
        * lia.
      + exists None. destruct Hnxt as (Hp & Hv & Hc & Ha).
        split; [|intro Hux; specialize (Hlow Hux); destruct Hux as [_ Hux]; lia].
        repeat split; try lia. intros Hux. specialize (Hlow Hux). destruct Hux as [_ Hux]. lia. }
  destruct Hcand as (nxt1 & Hc & Hcx).
  assert (Hswitch : forall b, (age_now s2 >? age_max s2) || (power_nxt s2 >=? power_now s2) = b ->
     (b = true -> age_now s >= 2 * h_window c \/ power_nxt s2 >= power_now s) /\
     (b = false -> age_now s < 2 * h_window c /\ power_nxt s2 < power_now s)).
  { intros b Hb. rewrite Ean, Eam, HA, Epn in Hb. split; intros ->; lia. }
  destruct ((age_now s2 >? age_max s2) || (power_nxt s2 >=? power_now s2)) eqn:Eb;
    specialize (Hswitch _ eq_refl) as [Ht Hf]; cbn [fst snd].
  - (* exchange *)
    specialize (Ht eq_refl). clear Hf.
    exists nxt1, None. unfold opt_inv, opt_now, opt_nxt.  rewrite Hlen. cbn.
    assert (Hages : forall j, nxt1 = Some j -> age_nxt s2 <= 2 * h_window c).
    { intros j ->. destruct Hc as (_ & [_ Hu] & Hp & Ha & _ & Hjn & Hlt).
      unfold power in Hu; cbn in Hu.
      destruct now as [j0|]; cbn in Hnow.
      - destruct Hnow as (_ & _ & _ & _ & Hle & _). lia.
      - destruct Hnow as (Hp0 & _ & _ & _).
        (* nothing was held: an old candidate would have been taken before *)
        destruct Hjn as [->|Hlow]; lia. }
    repeat split.
    + lia.
    + destruct nxt1 as [j|]; cbn.
      * destruct Hc as (Hj & Hu & Hp & Ha & Hd & _ & Hlt). repeat split; try assumption; try apply Hu.
        -- lia.
        -- eapply Hages; eauto.
      * cbn. lia.
    + lia.
    + destruct nxt1 as [j|].
      * destruct Hc as (Hj & _ & _ & Ha & _). apply nth_error_lt in Hj. rewrite Hlen in Hj. lia.
      * lia.
    + intros ->. apply Hc.
    + destruct nxt1 as [j|].
      * destruct Hc as (Hj & Hu & Hp & Ha & Hd & [->|Hlt2] & Hlt); [right; left; reflexivity|].
        right; right. destruct Ht as [Hold|Hge]; [|lia].
        destruct now as [j0|]; cbn in Hnow.
        -- exists j0. destruct Hnow as (_ & _ & _ & Ha0 & _). fold n in Ha0. split; [reflexivity|lia].
        -- exfalso. destruct Hu as [_ Hu]. unfold power in Hu; cbn in Hu. lia.
      * destruct now as [j0|]; [|left; reflexivity].
        right; right. exists j0. split; [reflexivity|].
        cbn in Hnow. destruct Hnow as (_ & [_ Hu] & Hp0 & Ha0 & Hle & Hd0).
        fold n in Ha0. destruct Ht as [Hold|Hge]; [lia|].
        destruct Hc as (Hz & _). unfold power in Hu; cbn in Hu.
        (* the candidate slot is empty but counts as power 0: the held point has power 0 *)
        lia.
  - (* keep *)
    specialize (Hf eq_refl). clear Ht. destruct Hf as [Hyoung Hlow].
    exists now, nxt1. unfold opt_inv, opt_now, opt_nxt. rewrite Hlen.
    destruct now as [j0|]; cbn in Hnow.
    + destruct Hnow as (Hj & Hu & Hp & Ha & Hle & Hd). fold n in Ha.
      pose proof (nth_error_lt _ _ _ Hj).
      split; [split; [lia|split]|].
      * cbn. rewrite Ean, Epn, Evn, Ecn. repeat split; try apply Hu; try lia.
        -- apply nth_error_snoc_old; exact Hj.
        -- intros k x Hk Hx Hux. apply nth_error_snoc in Hx as [[_ Hx]|[_ ->]].
           ++ eapply Hd; eauto.
           ++ specialize (Hcx Hux). lia.
      * destruct nxt1 as [j|]; cbn.
        -- destruct Hc as (Hj1 & Hu1 & Hp1 & Ha1 & Hd1 & _ & Hlt1). rewrite Epn.
           repeat split; try assumption; try apply Hu1; lia.
        -- lia.
      * split; [reflexivity|]. split; [discriminate|]. left; reflexivity.
    + (* nothing held: a candidate with non-negative power is always taken *)
      exfalso. destruct Hnow as (Hp0 & _).
      destruct nxt1 as [j|].
      * destruct Hc as (_ & [_ Hu] & Hp & _). unfold power in Hu; cbn in Hu. lia.
      * lia.
Qed.

Lemma runs_opt_dispatch c s x :
  runs_opt c -> ivcurve_sample c s x = ivcurve_2_mppt_opt c s x.
Proof.
  intros [Hw Ha]. unfold ivcurve_sample, HRV_MPPT_OPT.
  destruct (h_window c <=? 1) eqn:E1; [lia|].
  destruct (h_algorithm c >=? 2 ^ 14) eqn:E2; [reflexivity|lia].
Qed.

Lemma opt_correct c xs :
  runs_opt c ->
  exists src, opt_explains c xs (h_outputs c xs) src /\ opt_steady c (h_outputs c xs) src.
Proof.
  intros Hr.
  assert (Hw : 0 < h_window c) by (destruct Hr; lia).
  cut (exists src now nxt,
    opt_inv c xs (h_state c xs) now nxt /\
    opt_explains c xs (h_outputs c xs) src /\ opt_steady c (h_outputs c xs) src /\
    (xs = [] -> now = None) /\
    (forall n, length xs = S n ->
       src n = now /\
       nth_error (h_outputs c xs) n = Some (voltage_now (h_state c xs), current_now (h_state c xs)))).
  { intros (src & _ & _ & _ & H1 & H2 & _). eauto. }
  induction xs as [|x xs IH] using rev_ind.
  - exists (fun _ => None), None, None. split; [apply opt_init_inv|].
    split; [split; [reflexivity|intros k y Hy; destruct k; discriminate]|].
    split; [intros k y Hk; cbn in Hk; lia|].
    split; [reflexivity|]. intros n Hn; discriminate.
  - destruct IH as (src & now & nxt & Hinv & (Hlen & Hex) & Hst & Hnil & Hlastn).
    pose proof (opt_step c xs (h_state c xs) now nxt x Hw Hinv) as Hstep.
    cbv zeta in Hstep. rewrite <- (runs_opt_dispatch c _ x Hr) in Hstep.
    rewrite <- h_state_snoc in Hstep.
    destruct Hstep as (now' & nxt' & Hinv' & Hy & Hno & Hch).
    set (n := length xs) in *.
    exists (fun k => if Nat.eqb k n then now' else src k), now', nxt'.
    assert (Hout : h_outputs c (xs ++ [x]) =
       h_outputs c xs ++ [(voltage_now (h_state c (xs ++ [x])), current_now (h_state c (xs ++ [x])))]).
    { rewrite h_outputs_snoc. f_equal. f_equal. exact Hy. }
    set (y' := (voltage_now (h_state c (xs ++ [x])), current_now (h_state c (xs ++ [x])))) in *.
    assert (Hlen' : length (xs ++ [x]) = S n) by (rewrite app_length; cbn; unfold n; lia).
    split; [exact Hinv'|].
    split; [|split; [|split]].
    + (* explains *)
      split; [rewrite Hout, !app_length, Hlen; reflexivity|].
      intros k y Hky. rewrite Hout in Hky.
      apply nth_error_snoc in Hky as [[Hk Hky]|[Hk ->]].
      * rewrite Hlen in Hk. fold n in Hk.
        rewrite (proj2 (Nat.eqb_neq k n)) by lia.
        specialize (Hex k y Hky). destruct (src k) as [j|].
        -- destruct Hex as (Hj & Hx & Hu & Ha & Hd). repeat split; try assumption; try apply Hu.
           ++ apply nth_error_snoc_old; exact Hx.
           ++ intros i z Hi Hz Huz. apply nth_error_snoc in Hz as [[_ Hz]|[E _]].
              ** eapply Hd; eauto.
              ** fold n in E. lia.
        -- destruct Hex as [Hz Hn]. split; [exact Hz|]. intros z Hz' Hu.
           apply nth_error_snoc in Hz' as [[_ Hz']|[E _]]; [eapply Hn; eauto|fold n in E; lia].
      * rewrite Hlen in Hk. fold n in Hk. subst k. rewrite Nat.eqb_refl.
        destruct Hinv' as (_ & Hn' & _). destruct now' as [j|]; cbn in Hn'.
        -- destruct Hn' as (Hj & Hu & Hp & Ha & Hle & Hd).
           pose proof (nth_error_lt _ _ _ Hj) as Hjl. rewrite Hlen' in Hjl, Ha.
           repeat split; try assumption; try apply Hu; try lia.
           intros i z Hi Hz Huz. unfold power at 2. cbn. rewrite <- Hp. apply (Hd i z); [lia|exact Hz|exact Huz].
        -- split.
           ++ destruct Hn' as (_ & Hv & Hc & _). unfold y'. rewrite Hv, Hc. reflexivity.
           ++ intros z Hz. apply nth_error_snoc in Hz as [[E _]|[_ ->]]; [fold n in E; lia|].
              apply Hno. reflexivity.
    + (* steady *)
      intros k y Hk Hky. rewrite Hout, app_length, Hlen in Hk. cbn in Hk. fold n in Hk.
      rewrite Hout in Hky. rewrite nth_error_app1 in Hky by (rewrite Hlen; fold n; lia).
      rewrite (proj2 (Nat.eqb_neq k n)) by lia.
      destruct (Nat.eqb_spec (S k) n) as [E|E].
      * destruct (Hlastn k (eq_sym E)) as [Hsk Hyk].
        rewrite Hyk in Hky. injection Hky as <-. rewrite Hsk, E.
        destruct Hch as [->|[->|(j & Ej & Hj)]]; [left; reflexivity|right; left; reflexivity|].
        right; right. exists j. split; [exact Ej|].
        destruct Hinv as (_ & Hn0 & _). rewrite Ej in Hn0. cbn in Hn0.
        destruct Hn0 as (Hjx & _ & Hp & _). apply nth_error_lt in Hjx. fold n in Hjx.
        destruct Hj as [Hj|Hj]; [left; lia|right]. unfold power; cbn. lia.
      * apply (Hst k y); [rewrite Hlen; fold n; lia|exact Hky].
    + intros E. destruct xs; discriminate.
    + intros m Hm. rewrite Hlen' in Hm. injection Hm as <-. rewrite Nat.eqb_refl.
      split; [reflexivity|]. rewrite Hout.
      replace n with (length (h_outputs c xs)) by (rewrite Hlen; reflexivity).
      apply nth_error_snoc_last.
Qed.

(** The result is never worse than a usable sample just fed. *)
Lemma opt_not_worse c xs k x y :
  runs_opt c ->
  nth_error xs k = Some x -> usable c x ->
  nth_error (h_outputs c xs) k = Some y ->
  power x <= power y.
Proof.
  intros Hr Hx Hu Hy. destruct (opt_correct c xs Hr) as (src & [_ Hex] & _).
  specialize (Hex k y Hy). destruct (src k) as [j|].
  - destruct Hex as (Hj & Hxj & Huy & _ & Hd).
    destruct (Nat.eq_dec j k) as [->|Hne].
    + rewrite Hx in Hxj. injection Hxj as ->. lia.
    + specialize (Hd k x ltac:(lia) Hx Hu). lia.
  - destruct Hex as [_ Hn]. exfalso. eapply Hn; eauto.
Qed.
