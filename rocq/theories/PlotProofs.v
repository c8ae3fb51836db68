(** Proofs for [PropsPlot]. *)
From Coq Require Import QArith Qround Qabs Qminmax String Lqa.
From Verif Require Import PyBase UartModel UartProofs FileModel FileSpec FileReadProofs FileSiProofs FileSysProofs DsModel DsSpec
  DsProofs DsFileProofs PlotModel PlotSpec.
From Coq Require Import Lia.
Open Scope Z_scope.

Lemma bind_ok {A B} (x : A) (f : A -> res B) : bind (Ok x) f = f x.
Proof. reflexivity. Qed.

(* ------------------------------------------------------------------ limits *)

Lemma qmax2_spec a b : (qmax2 a b == Qmax a b)%Q.
Proof.
  unfold qmax2. destruct (Qle_bool b a) eqn:E.
  - apply Qle_bool_iff in E. symmetry. apply Q.max_l. exact E.
  - assert (~ b <= a)%Q by (rewrite <- Qle_bool_iff; congruence). symmetry. apply Q.max_r.
    apply Qlt_le_weak, Qnot_le_lt. assumption.
Qed.
Lemma qmin2_spec a b : (qmin2 a b == Qmin a b)%Q.
Proof.
  unfold qmin2. destruct (Qle_bool a b) eqn:E.
  - apply Qle_bool_iff in E. symmetry. apply Q.min_l. exact E.
  - assert (~ a <= b)%Q by (rewrite <- Qle_bool_iff; congruence). symmetry. apply Q.min_r.
    apply Qlt_le_weak, Qnot_le_lt. assumption.
Qed.

Lemma runtime_duration r : duration r (runtime_s r).
Proof.
  unfold duration, runtime_s, round1. set (x := (inject_Z (Z.of_nat _) / _)%Q).
  split; [eexists; reflexivity|].
  pose proof (qround_half (x * 10)) as H. apply Qabs_Qle_condition in H. apply Qabs_Qle_condition.
  set (k := inject_Z (qround (x * 10))) in *. clearbody k x.
  assert (E : (k / 10 == k * (1 # 10))%Q) by field. rewrite E. split; lra.
Qed.
Lemma the_limits r ss es : limits (runtime_s r) ss es (cut_start ss) (cut_end r es).
Proof.
  split.
  - destruct ss; cbn [cut_start]; [apply qmax2_spec|reflexivity].
  - destruct es; cbn [cut_end]; [apply qmin2_spec|reflexivity].
Qed.
Lemma the_nearest r x : nearest (st_rate (r_stats r)) x (to_sample r x).
Proof.
  unfold nearest, to_sample. pose proof (qround_half (x * inject_Z (st_rate (r_stats r)))) as H.
  rewrite Qabs_Qminus. exact H.
Qed.

Section Window.
Context (r : reader) (ss es : option Q).
Let R := st_rate (r_stats r).
Let M := r_max_elements r.
Let s := cut_start ss.
Let e := cut_end r es.
Let a := to_sample r s.
Let b := to_sample r e.
Hypothesis (HR : 0 < R).

Lemma HRq : (0 < inject_Z R)%Q.
Proof. change 0%Q with (inject_Z 0). rewrite <- Zlt_Qlt. exact HR. Qed.

Lemma start_nonneg : 0 <= a.
Proof.
  unfold a, to_sample. apply qround_ge. fold R. pose proof HRq as HRq.
  assert (0 <= s)%Q.
  { unfold s. destruct (the_limits r ss es) as [H _]. rewrite H. destruct ss; [apply Q.le_max_l|lra]. }
  assert (0 <= s * inject_Z R)%Q by (apply Qmult_le_0_compat; lra). change (inject_Z 0) with 0%Q. lra.
Qed.

Lemma width_bounds : (inject_Z (b - a) - 1 <= (e - s) * inject_Z R <= inject_Z (b - a) + 1)%Q.
Proof.
  pose proof (the_nearest r s) as A. pose proof (the_nearest r e) as B. fold a in A. fold b in B.
  unfold nearest in A, B. fold R in A, B. apply Qabs_Qle_condition in A. apply Qabs_Qle_condition in B.
  unfold Z.sub. rewrite inject_Z_plus, inject_Z_opp.
  setoid_replace ((e - s) * inject_Z R)%Q with (e * inject_Z R - s * inject_Z R)%Q by ring.
  set (x := (e * inject_Z R)%Q) in *. set (y := (s * inject_Z R)%Q) in *. clearbody x y.
  set (u := inject_Z a) in *. set (v := inject_Z b) in *. clearbody u v. split; lra.
Qed.

Hypothesis (Hw : 5 <= b - a).

Lemma width_pos : (0 < e - s)%Q.
Proof.
  pose proof width_bounds as [W _]. pose proof HRq as HRq.
  assert (inject_Z 5 <= inject_Z (b - a))%Q by (rewrite <- Zle_Qle; exact Hw).
  change (inject_Z 5) with 5%Q in H.
  set (w := (e - s)%Q) in *. clearbody w. set (z := inject_Z (b - a)) in *. clearbody z.
  destruct (Qlt_le_dec 0 w) as [|H1]; [assumption|exfalso].
  assert (0 <= - w * inject_Z R)%Q by (apply Qmult_le_0_compat; lra).
  set (p := (w * inject_Z R)%Q) in *. assert (- w * inject_Z R == - p)%Q by (unfold p; ring). clearbody p. lra.
Qed.

Let factor := plot_factor r (e - s).
Let n := Z.to_nat (Z.max 1 (Qfloor factor)).

Lemma n_def : Z.of_nat n = Z.max 1 (Qfloor factor).
Proof. unfold n. lia. Qed.

Lemma dst_bounds : let x := (inject_Z M / (e - s))%Q in
  let d := qmax2 (round3 x) (1 # 1000) in
  (x - (1 # 2000) <= d /\ d <= Qmax (x + (1 # 2000)) (1 # 1000) /\ 1 # 1000 <= d)%Q.
Proof.
  intros x d. unfold d. rewrite qmax2_spec.
  assert (H : (x - (1 # 2000) <= round3 x <= x + (1 # 2000))%Q).
  { unfold round3. pose proof (qround_half (x * 1000)) as H. apply Qabs_Qle_condition in H.
    set (k := inject_Z (qround (x * 1000))) in *. clearbody k x.
    assert (E : (k / 1000 == k * (1 # 1000))%Q) by field. rewrite E. split; lra. }
  split; [|split].
  - apply Qle_trans with (round3 x); [lra|apply Q.le_max_l].
  - apply Q.max_le_compat_r. lra.
  - apply Q.le_max_r.
Qed.

Lemma n_spread : spread R M (e - s) n.
Proof.
  unfold spread. pose proof dst_bounds as H. cbv zeta in H. destruct H as (D1 & D2 & D3).
  set (x := (inject_Z M / (e - s))%Q) in *.
  assert (F : factor = (inject_Z R / qmax2 (round3 x) (1 # 1000))%Q) by reflexivity.
  set (d := qmax2 (round3 x) (1 # 1000)) in *.
  assert (Hd : (0 < d)%Q) by lra.
  assert (E : (factor * d == inject_Z R)%Q) by (rewrite F; field; intro Z0; rewrite Z0 in Hd; discriminate Hd).
  clearbody d x. pose proof n_def as N. clearbody n factor. pose proof HRq as HRq.
  assert (Fp : (0 <= factor)%Q).
  { destruct (Qlt_le_dec factor 0) as [L|L]; [exfalso|exact L].
    assert (0 <= - factor * d)%Q by (apply Qmult_le_0_compat; lra). lra. }
  split.
  - destruct (Z.le_gt_cases (Qfloor factor) 1) as [H|H]; [left; lia|right].
    rewrite N, Z.max_r by lia. pose proof (Qfloor_le factor) as L.
    rewrite <- E. apply Qle_trans with (inject_Z (Qfloor factor) * d)%Q.
    + rewrite (Qmult_comm (inject_Z _) (x - _)), (Qmult_comm (inject_Z _) d).
      apply Qmult_le_compat_r; [exact D1|]. change 0%Q with (inject_Z 0). rewrite <- Zle_Qle. lia.
    + apply Qmult_le_compat_r; [exact L|lra].
  - assert (L : (factor < inject_Z (Z.of_nat n + 1))%Q).
    { apply Qlt_le_trans with (inject_Z (Qfloor factor + 1)); [apply Qlt_floor|].
      rewrite <- Zle_Qle. lia. }
    rewrite <- E. apply Qlt_le_trans with (inject_Z (Z.of_nat n + 1) * d)%Q.
    + apply Qmult_lt_r; assumption.
    + rewrite (Qmult_comm (inject_Z _) d), (Qmult_comm (inject_Z _) (Qmax _ _)).
      apply Qmult_le_compat_r; [exact D2|]. change 0%Q with (inject_Z 0). rewrite <- Zle_Qle. lia.
Qed.

Lemma n_one : ((e - s) * inject_Z R <= inject_Z M)%Q -> n = 1%nat.
Proof.
  intros H. pose proof width_pos as W. pose proof HRq as HRq.
  assert (L : (factor <= 1)%Q).
  { unfold factor, plot_factor. fold R. fold M.
    set (x := (inject_Z M / (e - s))%Q).
    assert (X : (inject_Z R <= x)%Q) by (apply Qle_shift_div_l; [exact W|]; rewrite Qmult_comm; exact H).
    assert (Y : (inject_Z R <= round3 x)%Q).
    { unfold round3. assert (1000 * R <= qround (x * 1000)).
      { apply qround_ge. rewrite inject_Z_mult. change (inject_Z 1000) with 1000%Q. lra. }
      apply Qle_shift_div_l; [reflexivity|]. rewrite Qmult_comm.
      change 1000%Q with (inject_Z 1000). rewrite <- inject_Z_mult, <- Zle_Qle. assumption. }
    assert (V : (inject_Z R <= qmax2 (round3 x) (1 # 1000))%Q).
    { rewrite qmax2_spec. apply Qle_trans with (round3 x); [exact Y|apply Q.le_max_l]. }
    apply Qle_shift_div_r; [lra|]. rewrite Qmult_1_l. exact V. }
  unfold n. assert (Qfloor factor <= 1).
  { change 1 with (Qfloor 1). apply Qfloor_resp_le. exact L. }
  lia.
Qed.
End Window.

(* ------------------------------------------------------------------ columns *)

Lemma slice_clip {A} a b (l : list A) : slice a (Nat.min (List.length l) b) l = slice a b l.
Proof.
  unfold slice. destruct (Nat.le_gt_cases (List.length l) b) as [H|H].
  - rewrite Nat.min_l by lia. rewrite !firstn_all2; rewrite ?skipn_length; try lia; reflexivity.
  - rewrite Nat.min_r by lia. reflexivity.
Qed.

Definition sig_of (fl : pfilt) (is_time : bool) (n : nat) (l : list Z) : nat -> option Q :=
  if is_time then plain l else filtered fl n l.
Lemma sig_of_spec fl is_time n l j : signal (plot_env fl) is_time n l j = sig_of fl is_time n l j.
Proof. unfold signal, sig_of, filtered, plain. destruct is_time; cbn [orb plot_env e_copy e_step e_zero]; [reflexivity|].
  destruct (n <=? 1)%nat; reflexivity. Qed.

Lemma nth_error_some {A} (l : list A) k : (k < List.length l)%nat -> exists x, nth_error l k = Some x.
Proof. intros H. destruct (nth_error l k) eqn:E; [eauto|]. apply nth_error_None in E. lia. Qed.

Lemma nth_error_to_si c l k : nth_error (to_si c l) k = option_map (fun x => (x * gain c + offset c)%Q) (nth_error l k).
Proof. unfold to_si. apply nth_error_map. Qed.

Lemma column_every fl r c src a b factor is_time n :
  Z.of_nat n = Z.max 1 (Qfloor factor) -> 1 <= r_max_elements r ->
  (a < List.length src)%nat -> (a < b)%nat ->
  let len := List.length (slice a b src) in
  (len <= Z.to_nat (r_max_elements r) \/ Nat.divide n (Z.to_nat (r_max_elements r)))%nat ->
  exists out, plot_column fl r c src a b factor is_time = Ok out
    /\ thinned c 0 n len (sig_of fl is_time n (slice a b src)) out.
Proof.
  intros Hn HM H1 H2 len Hd.
  assert (Hlen : len = (Nat.min (List.length src) b - a)%nat).
  { unfold len. rewrite slice_length_min. lia. }
  destruct (run_every (plot_env fl) (Z.to_nat (r_max_elements r)) src None a (Some b) factor is_time n Hn
              ltac:(lia)) as (out & E & Lo & V).
  - cbv zeta. lia.
  - cbv zeta. rewrite (Nat.min_r (Nat.min _ _) a) by lia. rewrite <- Hlen. exact Hd.
  - cbv zeta in Lo, V. rewrite (Nat.min_r (Nat.min _ _) a) in Lo, V by lia. rewrite <- Hlen in Lo, V.
    rewrite slice_clip in V.
    exists (to_si c out). unfold plot_column. rewrite E. split; [reflexivity|].
    split; [unfold to_si; rewrite map_length; exact Lo|].
    intros k Hk. destruct (nth_error_some out k ltac:(lia)) as (x & Ex).
    exists x, (x * gain c + offset c)%Q. rewrite <- sig_of_spec, <- V by exact Hk.
    rewrite nth_error_to_si, Ex. split; [reflexivity|]. split; [reflexivity|]. ring.
Qed.

Lemma column_none fl r c src a b factor is_time : (List.length src <= a)%nat ->
  plot_column fl r c src a b factor is_time = Err TypeError.
Proof.
  intros H. unfold plot_column, downsample.
  replace (Nat.min (List.length src) b - _)%nat with 0%nat by lia. reflexivity.
Qed.

(** The number of values depends on nothing but the number of samples. *)
Definition column_len (M L a b n : nat) : nat :=
  let len := (Nat.min L b - Nat.min (Nat.min L b) a)%nat in
  let o := qround (inject_Z (Z.of_nat (Nat.min M len)) / inject_Z (Z.of_nat n)) in
  let it := ceil_div len (Nat.min M len) in
  Z.to_nat (o * Z.of_nat (it - 1) + Z.min (Z.of_nat (len / n) - Z.of_nat (it - 1) * o) o).
Lemma column_length fl r c src a b factor is_time n out :
  Z.of_nat n = Z.max 1 (Qfloor factor) -> 1 <= r_max_elements r ->
  plot_column fl r c src a b factor is_time = Ok out ->
  List.length out = column_len (Z.to_nat (r_max_elements r)) (List.length src) a b n
  /\ (List.length out <= List.length (slice a b src) / n)%nat
  /\ (a < List.length src)%nat /\ (a < b)%nat.
Proof.
  intros Hn HM H. unfold plot_column in H.
  destruct (Nat.le_gt_cases (List.length src) a) as [Ha|Ha].
  { unfold downsample in H. replace (Nat.min (List.length src) b - _)%nat with 0%nat in H by lia. discriminate H. }
  destruct (Nat.le_gt_cases b a) as [Hb|Hb].
  { unfold downsample in H. replace (Nat.min (List.length src) b - _)%nat with 0%nat in H by lia. discriminate H. }
  pose proof (run_unfold (plot_env fl) (Z.to_nat (r_max_elements r)) src None a (Some b) factor is_time n Hn) as E.
  cbv zeta in E. cbv beta iota in E.
  assert (Hlen : (1 <= Nat.min (List.length src) b - Nat.min (Nat.min (List.length src) b) a)%nat) by lia.
  specialize (E ltac:(lia) Hlen). rewrite E in H. clear E.
  match type of H with context [ds_loop ?u ?v ?w ?x ?y ?z ?m ?p ?q ?k ?i ?j] =>
    destruct (ds_loop u v w x y z m p q k i j) as [dd [xx|]] end; [discriminate H|].
  injection H as <-. unfold to_si. rewrite map_length, resize_to_length.
  split; [reflexivity|]. split; [|lia].
  rewrite slice_length_min. set (len := (Nat.min (List.length src) b - Nat.min (Nat.min (List.length src) b) a)%nat).
  replace (Nat.min (b - a) (List.length src - a)) with len by (unfold len; lia).
  set (o := qround _). set (it := (_ - 1)%nat).
  assert (o * Z.of_nat it + Z.min (Z.of_nat (len / n) - Z.of_nat it * o) o <= Z.of_nat (len / n)) by nia.
  lia.
Qed.

(* ------------------------------------------------------------------ data *)

Lemma origin_shift r c0 (t : list Q) : f_time (r_file r) <> [] -> c0 = c_time (r_cal r) ->
  (match f_time (r_file r) with
   | [] => Err IndexError
   | t0 :: _ => Ok (map (fun x => (x - raw_to_si c0 t0)%Q) t)
   end : res (list Q)) = Ok (map (fun x => (x - origin r true)%Q) t).
Proof. intros H ->. unfold origin. destruct (f_time (r_file r)) as [|t0 l]; [congruence|]. reflexivity. Qed.

Lemma thinned_shift c n len sig out zero : thinned c 0 n len sig out ->
  thinned c zero n len sig (map (fun x => (x - zero)%Q) out).
Proof.
  intros [L V]. split; [rewrite map_length; exact L|].
  intros k Hk. destruct (V k Hk) as (x & y & E1 & E2 & E3). exists x, (y - zero)%Q.
  split; [exact E1|]. split; [rewrite nth_error_map, E2; reflexivity|]. rewrite E3. ring.
Qed.
Lemma thinned_zero c n len sig out zero : (zero == 0)%Q -> thinned c 0 n len sig out ->
  thinned c zero n len sig out.
Proof.
  intros Z0 [L V]. split; [exact L|]. intros k Hk. destruct (V k Hk) as (x & y & E1 & E2 & E3).
  exists x, y. split; [exact E1|]. split; [exact E2|]. rewrite E3, Z0. reflexivity.
Qed.

Section Generate.
Context (fl : pfilt) (r : reader) (ss es : option Q) (relative : bool) (L : nat).
Let R := st_rate (r_stats r).
Let s := cut_start ss.
Let e := cut_end r es.
Let a := to_sample r s.
Let b := to_sample r e.
Let n := Z.to_nat (Z.max 1 (Qfloor (plot_factor r (e - s)))).
Let part (l : list Z) := slice (Z.to_nat a) (Z.to_nat b) l.
Hypothesis (HR : 0 < R) (HM : 1 <= r_max_elements r) (HL : even_columns r L).

Lemma gen_small : b - a < 5 -> generate_plot_data fl r ss es relative = Ok None.
Proof.
  intros H. unfold generate_plot_data. fold s e. fold a b.
  destruct (Z.ltb_spec (b - a) 5); [reflexivity|lia].
Qed.

Lemma gen_beyond : 5 <= b - a -> Z.of_nat L <= a -> generate_plot_data fl r ss es relative = Err TypeError.
Proof.
  intros H1 H2. unfold generate_plot_data. fold s e. fold a b.
  destruct (Z.ltb_spec (b - a) 5); [lia|]. cbv zeta. destruct HL as (Lt & _ & _).
  rewrite column_none; [reflexivity|]. lia.
Qed.

Lemma gen_every : 5 <= b - a -> a < Z.of_nat L ->
  (Z.of_nat (List.length (part (f_time (r_file r)))) <= r_max_elements r
   \/ (Z.of_nat n | r_max_elements r)) ->
  exists pd, generate_plot_data fl r ss es relative = Ok (Some pd)
    /\ headed r s e pd /\ shows_every fl r relative n a b pd.
Proof.
  intros H1 H2 Hd. unfold generate_plot_data. fold s e. fold a b.
  pose proof (start_nonneg r ss es HR) as Ha. fold s in Ha. fold a in Ha.
  destruct (Z.ltb_spec (b - a) 5); [lia|]. cbv zeta. destruct HL as (Lt & Lv & Li).
  assert (Hn : Z.of_nat n = Z.max 1 (Qfloor (plot_factor r (e - s)))) by (unfold n; lia).
  assert (Hd' : forall src : list Z, List.length src = L ->
    (List.length (slice (Z.to_nat a) (Z.to_nat b) src) <= Z.to_nat (r_max_elements r)
     \/ Nat.divide n (Z.to_nat (r_max_elements r)))%nat).
  { intros src Hs. destruct Hd as [Hd|[q Hd]]; [left|right].
    - unfold part in Hd. rewrite slice_length_min in Hd |- *. rewrite Hs. rewrite Lt in Hd. lia.
    - exists (Z.to_nat q). assert (1 <= Z.of_nat n) by lia. assert (0 <= q) by nia.
      apply Nat2Z.inj. rewrite Nat2Z.inj_mul, !Z2Nat.id by lia. exact Hd. }
  assert (Hl : forall src : list Z, List.length src = L ->
    List.length (slice (Z.to_nat a) (Z.to_nat b) src) = List.length (part (f_time (r_file r)))).
  { intros src Hs. unfold part. rewrite !slice_length_min, Hs, Lt. reflexivity. }
  destruct (column_every fl r (c_time (r_cal r)) (f_time (r_file r)) (Z.to_nat a) (Z.to_nat b) _ true n Hn HM
              ltac:(lia) ltac:(lia) (Hd' _ Lt)) as (t & -> & Tt).
  destruct (column_every fl r (c_voltage (r_cal r)) (f_voltage (r_file r)) (Z.to_nat a) (Z.to_nat b) _ false n Hn HM
              ltac:(lia) ltac:(lia) (Hd' _ Lv)) as (v & -> & Tv).
  destruct (column_every fl r (c_current (r_cal r)) (f_current (r_file r)) (Z.to_nat a) (Z.to_nat b) _ false n Hn HM
              ltac:(lia) ltac:(lia) (Hd' _ Li)) as (i & -> & Ti).
  rewrite !bind_ok. cbv beta.
  rewrite (Hl _ Lv) in Tv. rewrite (Hl _ Li) in Ti. rewrite (Hl _ Lt) in Tt.
  set (t' := if relative then map (fun x => (x - origin r true)%Q) t else t).
  assert (Et : (if relative
    then match f_time (r_file r) with
         | [] => Err IndexError
         | t0 :: _ => Ok (map (fun x => (x - raw_to_si (c_time (r_cal r)) t0)%Q) t)
         end
    else Ok t) = Ok t').
  { unfold t'. destruct relative; [|reflexivity]. apply origin_shift; [|reflexivity].
    intros E. rewrite E in Lt. cbn in Lt. lia. }
  rewrite Et, bind_ok. cbv beta. eexists. split; [reflexivity|].
  split; [split; [reflexivity|split; reflexivity]|].
  unfold shows_every. cbv zeta. fold (part (f_time (r_file r))). cbn [pd_time pd_voltage pd_current].
  split; [|split].
  - unfold t'. destruct relative.
    + apply thinned_shift. exact Tt.
    + apply thinned_zero; [reflexivity|exact Tt].
  - exact Tv.
  - exact Ti.
Qed.

(** With n = 1 every sample is shown. *)
Lemma thinned_one c zero l out : thinned c zero 1 (List.length l) (plain l) out -> physical c zero l out.
Proof.
  unfold thinned, physical, plain. rewrite Nat.div_1_r. revert out.
  induction l as [|x l IH]; intros out [Lo V].
  - destruct out; [constructor|discriminate Lo].
  - destruct out as [|y out]; [discriminate Lo|]. constructor.
    + destruct (V 0%nat ltac:(cbn; lia)) as (x' & y' & E1 & E2 & E3). injection E1 as <-. injection E2 as <-. exact E3.
    + apply IH. split; [cbn in Lo; lia|]. intros k Hk.
      destruct (V (S k) ltac:(cbn; lia)) as (x' & y' & E1 & E2 & E3). exists x', y'.
      rewrite Nat.mul_1_r in E1 |- *. split; [exact E1|]. split; [exact E2|exact E3].
Qed.

Lemma gen_all : 5 <= b - a -> a < Z.of_nat L -> ((e - s) * inject_Z R <= inject_Z (r_max_elements r))%Q ->
  exists pd, generate_plot_data fl r ss es relative = Ok (Some pd)
    /\ headed r s e pd /\ shows_all r relative a b pd.
Proof.
  intros H1 H2 Hw.
  assert (N1 : n = 1%nat) by (apply (n_one r ss es HR H1 Hw)).
  destruct gen_every as (pd & E & Hh & T1 & T2 & T3); [exact H1|exact H2| |].
  { right. rewrite N1. apply Z.divide_1_l. }
  exists pd. split; [exact E|]. split; [exact Hh|].
  rewrite N1 in T1, T2, T3. unfold filtered in T2, T3. cbn [Nat.leb] in T2, T3.
  destruct HL as (Lt & Lv & Li). unfold shows_all. cbv zeta.
  split; [apply thinned_one; exact T1|].
  split; apply thinned_one.
  - replace (List.length _) with (List.length (slice (Z.to_nat a) (Z.to_nat b) (f_time (r_file r))))
      by (rewrite !slice_length_min, Lt, Lv; reflexivity). exact T2.
  - replace (List.length _) with (List.length (slice (Z.to_nat a) (Z.to_nat b) (f_time (r_file r))))
      by (rewrite !slice_length_min, Lt, Li; reflexivity). exact T3.
Qed.

(** Whatever comes out, its columns have the same length. *)
Lemma gen_lengths pd : generate_plot_data fl r ss es relative = Ok (Some pd) ->
  5 <= b - a /\ aligned pd /\ headed r s e pd
  /\ (List.length (pd_time pd) <= List.length (part (f_time (r_file r))) / n)%nat.
Proof.
  intros H. unfold generate_plot_data in H. fold s e in H. fold a b in H.
  destruct (Z.ltb_spec (b - a) 5); [discriminate H|]. cbv zeta in H. split; [lia|].
  assert (Hn : Z.of_nat n = Z.max 1 (Qfloor (plot_factor r (e - s)))) by (unfold n; lia).
  destruct (plot_column fl r (c_time (r_cal r)) _ _ _ _ _) as [t|] eqn:Et; [|discriminate H].
  destruct (plot_column fl r (c_voltage (r_cal r)) _ _ _ _ _) as [v|] eqn:Ev; [|discriminate H].
  destruct (plot_column fl r (c_current (r_cal r)) _ _ _ _ _) as [i|] eqn:Ei; [|discriminate H].
  rewrite !bind_ok in H. cbv beta in H. destruct HL as (Lt & Lv & Li).
  destruct (column_length _ _ _ _ _ _ _ _ n _ Hn HM Et) as (At & Bt & _).
  destruct (column_length _ _ _ _ _ _ _ _ n _ Hn HM Ev) as (Av & _).
  destruct (column_length _ _ _ _ _ _ _ _ n _ Hn HM Ei) as (Ai & _).
  rewrite Lt in At. rewrite Lv in Av. rewrite Li in Ai.
  assert (Ht : exists t', List.length t' = List.length t /\
    Ok (Some (mkPlotData (get_hostname (r_file r)) t' v i s e)) = Ok (Some pd)).
  { destruct relative; [destruct (f_time (r_file r)) as [|t0 l]; [discriminate H|]|];
      rewrite bind_ok in H; eexists; (split; [|exact H]); rewrite ?map_length; reflexivity. }
  destruct Ht as (t' & L' & E). injection E as <-.
  split; [split; cbn [pd_time pd_voltage pd_current]; congruence|].
  split; [split; [reflexivity|split; reflexivity]|].
  cbn [pd_time]. rewrite L'. exact Bt.
Qed.

Lemma gen_none_iff : generate_plot_data fl r ss es relative = Ok None <-> b - a < 5.
Proof.
  split; [|apply gen_small]. intros H. unfold generate_plot_data in H. fold s e in H. fold a b in H.
  destruct (Z.ltb_spec (b - a) 5); [assumption|exfalso]. cbv zeta in H.
  destruct (plot_column fl r (c_time (r_cal r)) _ _ _ _ _) as [t|] eqn:Et; [|discriminate H].
  destruct (plot_column fl r (c_voltage (r_cal r)) _ _ _ _ _) as [v|] eqn:Ev; [|discriminate H].
  destruct (plot_column fl r (c_current (r_cal r)) _ _ _ _ _) as [i|] eqn:Ei; [|discriminate H].
  rewrite !bind_ok in H. cbv beta in H.
  destruct relative; [destruct (f_time (r_file r)) as [|t0 l]; [discriminate H|]|]; discriminate H.
Qed.
End Generate.

(* ------------------------------------------------------------------ size *)

Lemma size_arith (w R x N P M : Q) : (0 < w -> x * w == M -> 10 <= x -> 1 <= N -> 0 <= R ->
  4 <= w * R -> N * P <= w * R + 1 -> R < (N + 1) * (x + (1 # 2000)) -> P <= 3 * M)%Q.
Proof.
  intros Hw Hx H10 HN HR H4 HP HRx.
  assert (A : (w * R <= (5 # 2) * (N * M) - (1 # 10) * (N * M))%Q).
  { assert (B : (R <= (2 * N) * (x + (1 # 2000)))%Q) by nra.
    assert (C : (R <= (2 * N) * (x * (6 # 5)))%Q) by nra.
    assert (D : (w * R <= w * ((2 * N) * (x * (6 # 5))))%Q).
    { rewrite !(Qmult_comm w). apply Qmult_le_compat_r; lra. }
    setoid_replace (w * (2 * N * (x * (6 # 5))))%Q with ((12 # 5) * (N * (x * w)))%Q in D by ring.
    rewrite Hx in D. lra. }
  assert (B : (N * P <= N * (3 * M))%Q).
  { setoid_replace (N * (3 * M))%Q with (3 * (N * M))%Q by ring.
    set (y := (w * R)%Q) in *. set (z := (N * M)%Q) in *. clearbody y z. lra. }
  apply (Qmult_le_l P (3 * M) N); [lra|exact B].
Qed.

Section Size.
Context (fl : pfilt) (r : reader) (ss es : option Q) (relative : bool) (L : nat).
Let R := st_rate (r_stats r).
Let M := r_max_elements r.
Let s := cut_start ss.
Let e := cut_end r es.
Let a := to_sample r s.
Let b := to_sample r e.
Let n := Z.to_nat (Z.max 1 (Qfloor (plot_factor r (e - s)))).
Hypothesis (HR : 0 < R) (HM : 1 <= M) (HL : even_columns r L).

Lemma gen_size pd : generate_plot_data fl r ss es relative = Ok (Some pd) ->
  (10 * (e - s) <= inject_Z M)%Q -> Z.of_nat (List.length (pd_time pd)) <= 3 * M.
Proof.
  intros H H10. destruct (gen_lengths fl r ss es relative L HM HL pd H) as (H5 & _ & _ & B).
  fold s e in H5, B. fold a b n in H5, B.
  pose proof (n_spread r ss es HR) as S. fold s e in S. fold n R M in S.
  pose proof (width_pos r ss es HR H5) as W. fold s e in W.
  pose proof (width_bounds r ss es) as [W1 W2]. fold s e in W1, W2. fold a b R in W1, W2.
  destruct S as [_ S].
  rewrite slice_length_min in B.
  set (P := List.length (pd_time pd)) in *. clearbody P.
  assert (N1 : (1 <= n)%nat) by (unfold n; lia).
  assert (Bn : (n * P <= Z.to_nat (b - a))%nat).
  { apply Nat.le_trans with (n * (Nat.min (Z.to_nat b - Z.to_nat a) (List.length (f_time (r_file r)) - Z.to_nat a) / n))%nat.
    - apply Nat.mul_le_mono_l. exact B.
    - etransitivity; [apply Nat.mul_div_le; lia|].
      pose proof (start_nonneg r ss es HR) as Ha. fold s in Ha. fold a in Ha. lia. }
  assert (Bq : (inject_Z (Z.of_nat n) * inject_Z (Z.of_nat P) <= inject_Z (b - a))%Q).
  { rewrite <- inject_Z_mult, <- Zle_Qle. lia. }
  assert (H5q : (5 <= inject_Z (b - a))%Q) by (change 5%Q with (inject_Z 5); rewrite <- Zle_Qle; lia).
  rewrite Zle_Qle, inject_Z_mult. change (inject_Z 3) with 3%Q.
  assert (X : (10 <= inject_Z M / (e - s))%Q) by (apply Qle_shift_div_l; assumption).
  apply (size_arith (e - s) (inject_Z R) (inject_Z M / (e - s)) (inject_Z (Z.of_nat n))).
  - exact W.
  - field. intros Z0. rewrite Z0 in W. discriminate W.
  - exact X.
  - change 1%Q with (inject_Z 1). rewrite <- Zle_Qle. lia.
  - change 0%Q with (inject_Z 0). rewrite <- Zle_Qle. lia.
  - lra.
  - lra.
  - rewrite inject_Z_plus in S. change (inject_Z 1) with 1%Q in S.
    rewrite Q.max_l in S; [exact S|]. lra.
Qed.
End Size.

(* ------------------------------------------------------------------ failures *)

(** A block of 4000000 samples at factor 3. *)
Lemma plot_misfit (fl : pfilt) src is_time factor : List.length src = Z.to_nat 12030000 -> Qfloor factor = 3 ->
  exists d, downsample (plot_env fl) (Z.to_nat 4000000) src None 0 (Some (Z.to_nat 12030000)) factor is_time
    = (Some d, Some ValueError).
Proof.
  intros Hs Hf.
  pose proof (run_multi_fails (plot_env fl) (Z.to_nat 4000000) src None 0 (Some (Z.to_nat 12030000)) factor is_time 3
    ltac:(rewrite Hf; reflexivity) ltac:(lia)) as H.
  cbn zeta in H. rewrite Hs, Nat.min_id, Nat.min_0_r, Nat.sub_0_r in H.
  specialize (H ltac:(lia) 3%nat (Z.to_nat 1333333)).
  specialize (H ltac:(lia) ltac:(lia) ltac:(lia) block3 ltac:(lia)).
  assert (Hd : (Z.to_nat 12030000 / 3 = Z.to_nat 4010000)%nat).
  { symmetry. apply (Nat.div_unique _ _ _ 0); lia. }
  rewrite Hd in H.
  assert (Ha : ceil_div (Nat.min (Z.to_nat 4000000) (Z.to_nat 12030000 - 0 - 3 * Z.to_nat 4000000)) 3
               = Z.to_nat 10000).
  { unfold ceil_div. symmetry. apply (Nat.div_unique _ _ _ 2); lia. }
  rewrite Nat.sub_0_r in Ha. rewrite Ha in H. apply H; lia.
Qed.

Lemma gen_crash fl r relative : st_rate (r_stats r) = 100000 -> r_max_elements r = 4000000 ->
  even_columns r (Z.to_nat 12030000) -> generate_plot_data fl r None None relative = Err ValueError.
Proof.
  intros HR HM (Lt & Lv & Li). unfold generate_plot_data. cbn [cut_start cut_end].
  rewrite to_sample_0. rewrite (runtime_exact r 1203); rewrite ?HR, ?Lv; try lia.
  rewrite Z2Nat.id by lia. change (12030000 - 0 <? 5) with false. cbv iota.
  assert (T : runtime_s r = (1203 # 10)%Q).
  { unfold runtime_s. rewrite HR, Lv, Z2Nat.id by lia. vm_compute. reflexivity. }
  rewrite T. unfold plot_column at 1. rewrite HM.
  destruct (plot_misfit fl (f_time (r_file r)) true (plot_factor r ((1203 # 10) - 0)) Lt) as (d & E).
  { unfold plot_factor. rewrite HR, HM. vm_compute. reflexivity. }
  change (Z.to_nat 0) with 0%nat. rewrite E. reflexivity.
Qed.

Lemma gen_short fl r relative : 0 < st_rate (r_stats r) ->
  20 * Z.of_nat (List.length (f_voltage (r_file r))) < st_rate (r_stats r) ->
  generate_plot_data fl r None None relative = Ok None.
Proof.
  intros HR Hs. apply gen_small. cbn [cut_start cut_end]. rewrite to_sample_0.
  assert (T : runtime_s r = (inject_Z 0 / 10)%Q).
  { unfold runtime_s, round1. do 2 f_equal. apply qround_near.
    set (N := Z.of_nat _) in *. set (R := st_rate _) in *.
    assert (HRq : (0 < inject_Z R)%Q) by (change 0%Q with (inject_Z 0); rewrite <- Zlt_Qlt; exact HR).
    assert (0 <= N) by lia.
    assert (A : (0 <= inject_Z N / inject_Z R)%Q).
    { apply Qle_shift_div_l; [exact HRq|]. rewrite Qmult_0_l. change 0%Q with (inject_Z 0). rewrite <- Zle_Qle. lia. }
    assert (B : (inject_Z N / inject_Z R < 1 # 20)%Q).
    { apply Qlt_shift_div_r; [exact HRq|]. rewrite Zlt_Qlt, inject_Z_mult in Hs. change (inject_Z 20) with 20%Q in Hs. lra. }
    set (q := (inject_Z N / inject_Z R)%Q) in *. clearbody q. change (inject_Z 0) with 0%Q.
    apply Qabs_Qlt_condition. split; lra. }
  rewrite T. unfold to_sample.
  rewrite (qround_compat _ (inject_Z 0)); [rewrite qround_inject; reflexivity|].
  change (inject_Z 0) with 0%Q. field.
Qed.
