(** Least squares over the rationals, by the six moments of the measured points. *)
From Coq Require Import String.
From Verif Require Import PyBase MeaModel MeaSpec.
From Coq Require Import QArith Qabs Qfield Lqa Permutation Setoid.
Open Scope Q_scope.

Definition pt (p : mpair) : Q * Q := (shepherd_raw p, reference_si p).
Notation X := shepherd_raw.
Notation Y := reference_si.

Lemma total_cons f p l : total f (p :: l) = f p + total f l.
Proof. reflexivity. Qed.

Lemma count_cons p l : count (p :: l) == 1 + count l.
Proof.
  unfold count. cbn [List.length]. rewrite Nat2Z.inj_succ, <- Z.add_1_l, inject_Z_plus. reflexivity.
Qed.

Lemma count_nil : count [] == 0.
Proof. reflexivity. Qed.

Lemma count_pos l : l <> [] -> 0 < count l.
Proof.
  destruct l as [| p l]; [congruence |]. intros _.
  unfold count. change 0 with (inject_Z 0). rewrite <- Zlt_Qlt. cbn [List.length]. lia.
Qed.

Lemma total_ext f g l : (forall p, In p l -> f p == g p) -> total f l == total g l.
Proof.
  induction l as [| p l IH]; intro H; [reflexivity |].
  rewrite !total_cons, (H p (or_introl eq_refl)), IH; [reflexivity |].
  intros q Hq. apply H. now right.
Qed.

Notation Sx := (total X).
Notation Sy := (total Y).
Notation Sxx := (total (fun p => X p * X p)).
Notation Sxy := (total (fun p => X p * Y p)).
Notation Syy := (total (fun p => Y p * Y p)).

Lemma off_line_m g o l :
  off_line g o (map pt l) ==
  Syy l - 2 * g * Sxy l - 2 * o * Sy l + g * g * Sxx l + 2 * g * o * Sx l + count l * o * o.
Proof.
  induction l as [| p l IH].
  - cbn [map off_line]. rewrite count_nil. cbn [total fold_right]. ring.
  - cbn [map off_line pt]. rewrite IH, !total_cons, count_cons. ring.
Qed.

Lemma sxx_m a l :
  total (fun p => (X p - a) * (X p - a)) l == Sxx l - 2 * a * Sx l + count l * a * a.
Proof.
  induction l as [| p l IH].
  - rewrite count_nil. cbn [total fold_right]. ring.
  - rewrite !total_cons, IH, count_cons. ring.
Qed.

Lemma syy_m a l :
  total (fun p => (Y p - a) * (Y p - a)) l == Syy l - 2 * a * Sy l + count l * a * a.
Proof.
  induction l as [| p l IH].
  - rewrite count_nil. cbn [total fold_right]. ring.
  - rewrite !total_cons, IH, count_cons. ring.
Qed.

Lemma sxy_m a b l :
  total (fun p => (X p - a) * (Y p - b)) l == Sxy l - a * Sy l - b * Sx l + count l * a * b.
Proof.
  induction l as [| p l IH].
  - rewrite count_nil. cbn [total fold_right]. ring.
  - rewrite !total_cons, IH, count_cons. ring.
Qed.

Lemma fit_m g o b l :
  total (fun p => (g * X p + o - b) * (g * X p + o - b)) l ==
  g * g * Sxx l + 2 * g * (o - b) * Sx l + count l * (o - b) * (o - b).
Proof.
  induction l as [| p l IH].
  - rewrite count_nil. cbn [total fold_right]. ring.
  - rewrite !total_cons, IH, count_cons. ring.
Qed.

Lemma apart_m g o g' o' l :
  apart g o g' o' (map X l) ==
  (g - g') * (g - g') * Sxx l + 2 * (g - g') * (o - o') * Sx l + count l * (o - o') * (o - o').
Proof.
  induction l as [| p l IH].
  - cbn [map apart]. rewrite count_nil. cbn [total fold_right]. ring.
  - cbn [map apart]. rewrite IH, !total_cons, count_cons. ring.
Qed.

(** ** The spread of the raw values *)

Definition sxx (l : list mpair) := total (fun p => (X p - mean X l) * (X p - mean X l)) l.
Definition sxy (l : list mpair) := total (fun p => (X p - mean X l) * (Y p - mean Y l)) l.
Definition syy (l : list mpair) := total (fun p => (Y p - mean Y l) * (Y p - mean Y l)) l.

Lemma total_sq_nonneg f l : 0 <= total (fun p => f p * f p) l.
Proof.
  induction l as [| p l IH]; [apply Qle_refl |]. rewrite total_cons. nra.
Qed.

Lemma total_sq_zero f l : total (fun p => f p * f p) l == 0 -> forall p, In p l -> f p == 0.
Proof.
  induction l as [| q l IH]; intros H p Hp; [destruct Hp |].
  rewrite total_cons in H. pose proof (total_sq_nonneg f l) as Hn.
  assert (f q == 0 /\ total (fun p => f p * f p) l == 0) as [Hq Hl].
  { assert (f q * f q == 0) by nra. split; [| nra].
    destruct (Qmult_integral _ _ H0); assumption. }
  destruct Hp as [<- | Hp]; [exact Hq | now apply IH].
Qed.

Lemma sxx_nonneg l : 0 <= sxx l.
Proof. apply (total_sq_nonneg (fun p => X p - mean X l)). Qed.

Lemma syy_nonneg l : 0 <= syy l.
Proof. apply (total_sq_nonneg (fun p => Y p - mean Y l)). Qed.

Lemma sxx_zero l : sxx l == 0 -> forall p, In p l -> X p == mean X l.
Proof.
  intros H p Hp. pose proof (total_sq_zero (fun p => X p - mean X l) l H p Hp) as H0.
  cbv beta in H0. lra.
Qed.

Lemma syy_zero l : syy l == 0 -> forall p, In p l -> Y p == mean Y l.
Proof.
  intros H p Hp. pose proof (total_sq_zero (fun p => Y p - mean Y l) l H p Hp) as H0.
  cbv beta in H0. lra.
Qed.

Lemma two_raws_sxx l : two_raws (map pt l) -> 0 < sxx l.
Proof.
  intros (p & q & Hp & Hq & D). apply in_map_iff in Hp as (a & <- & Ha).
  apply in_map_iff in Hq as (b & <- & Hb). cbn [fst pt] in D.
  pose proof (sxx_nonneg l) as H. destruct (Qeq_dec (sxx l) 0) as [E | E]; [| lra].
  exfalso. apply D. rewrite (sxx_zero l E a Ha), (sxx_zero l E b Hb). reflexivity.
Qed.

Lemma sxx_two_raws l : ~ sxx l == 0 -> two_raws (map pt l).
Proof.
  intro H. destruct l as [| p l]; [exfalso; apply H; reflexivity |].
  destruct (Forall_Exists_dec (fun q => X q == X p) (fun q => Qeq_dec (X q) (X p)) (p :: l)) as [F | F].
  - exfalso. apply H.
    assert (M : mean X (p :: l) == X p).
    { unfold mean. pose proof (count_pos (p :: l) ltac:(discriminate)) as Hc.
      assert (total X (p :: l) == X p * count (p :: l)) as ->.
      { clear -F. induction F as [| q m E F IH]; [rewrite count_nil; cbn [total fold_right]; ring |].
        rewrite total_cons, count_cons, E, IH. ring. }
      field. lra. }
    unfold sxx. rewrite (total_ext _ (fun _ => 0)).
    + clear. induction (p :: l) as [| q m IH]; [reflexivity |]. rewrite total_cons, IH. ring.
    + intros q Hq. rewrite Forall_forall in F. specialize (F q Hq). cbv beta.
      rewrite M, F. ring.
  - apply Exists_exists in F as (q & Hq & D). exists (pt q), (pt p).
    repeat split; [apply in_map, Hq | now left | exact D].
Qed.

Section Moments.
Variable l : list mpair.
Hypothesis ne : l <> [].
Let n_pos : 0 < count l := count_pos l ne.

Lemma sxx_moment : sxx l == Sxx l - Sx l * Sx l / count l.
Proof. unfold sxx, mean. rewrite sxx_m. field. lra. Qed.
Lemma syy_moment : syy l == Syy l - Sy l * Sy l / count l.
Proof. unfold syy, mean. rewrite syy_m. field. lra. Qed.
Lemma sxy_moment : sxy l == Sxy l - Sx l * Sy l / count l.
Proof. unfold sxy, mean. rewrite sxy_m. field. lra. Qed.

(** The distance of any line, around the centre of the points. *)
Lemma off_line_c g o :
  off_line g o (map pt l) ==
  syy l - 2 * g * sxy l + g * g * sxx l
  + count l * (o - (mean Y l - g * mean X l)) * (o - (mean Y l - g * mean X l)).
Proof.
  rewrite off_line_m, sxx_moment, syy_moment, sxy_moment. unfold mean. field. lra.
Qed.

Lemma spread_syy : spread (syy l) (map pt l).
Proof.
  split.
  - exists (mean Y l). rewrite off_line_c. ring.
  - intro o. rewrite off_line_c. set (z := o - _). clearbody z.
    assert (0 <= count l * z * z) by (clear -n_pos; nra). lra.
Qed.

Lemma spread_eq s : spread s (map pt l) -> s == syy l.
Proof.
  intros [[o H] L]. destruct spread_syy as [[o' H'] L'].
  specialize (L o'). specialize (L' o). lra.
Qed.

Section Fit.
Hypothesis d : 0 < sxx l.
Let g := sxy l / sxx l.
Let o := mean Y l - sxy l / sxx l * mean X l.

Lemma sxy_g : sxy l == g * sxx l.
Proof. unfold g. field. lra. Qed.

(** Pythagoras: the fit is the projection on the lines. *)
Lemma off_line_fit g' o' :
  off_line g' o' (map pt l) == off_line g o (map pt l) + apart g' o' g o (map X l).
Proof.
  rewrite apart_m. rewrite !off_line_c.
  assert (Sxx l == sxx l + Sx l * Sx l / count l) as -> by (rewrite sxx_moment; field; lra).
  rewrite sxy_g. unfold o. fold g. unfold mean. field. lra.
Qed.

Lemma apart_nonneg a b a' b' xs : 0 <= apart a b a' b' xs.
Proof. 
  induction xs as [| x xs IH]; cbn [apart]; [lra |].
  set (z := _ - _). assert (z ^ 2 == z * z) as -> by ring. clearbody z. nra. Qed.

Lemma fit_best : best_line g o (map pt l).
Proof. intros g' o'. rewrite (off_line_fit g' o'). pose proof (apart_nonneg g' o' g o (map X l)). lra. Qed.

Lemma fit_rest : off_line g o (map pt l) == syy l - g * g * sxx l.
Proof. rewrite off_line_c, sxy_g. unfold o. fold g. ring. Qed.

Lemma fit_reg :
  total (fun p => (g * X p + o - mean Y l) * (g * X p + o - mean Y l)) l == g * g * sxx l.
Proof. rewrite fit_m, sxx_moment. unfold o. fold g. unfold mean. field. lra. Qed.

(** The best line is the only one. *)
Lemma fit_unique g' o' : best_line g' o' (map pt l) -> g' == g /\ o' == o.
Proof.
  intro B. specialize (B g o). rewrite (off_line_fit g' o') in B.
  assert (A : apart g' o' g o (map X l) <= 0) by lra.
  rewrite apart_m in A.
  assert (E : Sxx l == sxx l + Sx l * Sx l / count l) by (rewrite sxx_moment; field; lra).
  rewrite E in A.
  set (a := g' - g) in *. set (b := o' - o) in *.
  assert (Q0 : a * a * sxx l + count l * (b + a * (Sx l / count l)) * (b + a * (Sx l / count l)) <= 0).
  { eapply Qle_trans; [| exact A]. apply Qle_lteq. right. field. lra. }
  assert (P1 : 0 <= a * a * sxx l) by nra.
  set (c := b + a * (Sx l / count l)) in *.
  assert (P2 : 0 <= count l * c * c) by (clear -n_pos; nra).
  assert (Za : a == 0).
  { destruct (Qeq_dec a 0) as [Z | Z]; [exact Z |]. exfalso.
    assert (0 < a * a) by (clear -Z; destruct (Qlt_le_dec 0 a); [nra |]; assert (a < 0) by lra; nra).
    clear -H d Q0 P2. nra. }
  assert (Zc : c == 0).
  { destruct (Qeq_dec c 0) as [Z | Z]; [exact Z |]. exfalso.
    assert (0 < c * c) by (clear -Z; destruct (Qlt_le_dec 0 c); [nra |]; assert (c < 0) by lra; nra).
    clear -H P1 Q0 n_pos. nra. }
  split; [unfold a in Za; lra |].
  assert (b == 0) by (unfold c in Zc; rewrite Za in Zc; lra).
  unfold b in H. lra.
Qed.

End Fit.
End Moments.

(** ** The calibration *)

Lemma polyfit1_eq l :
  polyfit1 l = if Qeq_bool (sxx l) 0 then (mean Y l / (2 * mean X l), mean Y l / 2)
               else (sxy l / sxx l, mean Y l - sxy l / sxx l * mean X l).
Proof. reflexivity. Qed.

Definition reg (g o : Q) (l : list mpair) : Q :=
  total (fun p => (g * X p + o - mean Y l) * (g * X p + o - mean Y l)) l.

Lemma Qle_bool_false a b : Qle_bool a b = false <-> b < a.
Proof.
  destruct (Qle_bool a b) eqn:E; split; intro H; try discriminate; try reflexivity.
  - apply Qle_bool_iff in E. lra.
  - apply Qnot_le_lt. intro K. apply Qle_bool_iff in K. congruence.
Qed.

Lemma meas_ok l c : meas_to_cal l = Ok c <->
  (2 <= List.length l)%nat /\ Forall (fun p => 0 < X p) l /\
  let (g, o) := polyfit1 l in
  (syy l == 0 \/ r_limit * syy l <= reg g o l) /\ 0 < g /\ c = mkPair g o None.
Proof.
  unfold meas_to_cal.
  destruct (2 <=? List.length l)%nat eqn:E2.
  2:{ apply Nat.leb_gt in E2. split; [discriminate |]. intros (H & _). lia. }
  apply Nat.leb_le in E2.
  destruct (forallb _ l) eqn:EF.
  2:{ split; [discriminate |]. intros (_ & H & _). exfalso. revert EF.
      apply eq_true_false_abs. apply forallb_forall. intros p Hp. rewrite Forall_forall in H.
      apply negb_true_iff, Qle_bool_false, H, Hp. }
  assert (F : Forall (fun p => 0 < X p) l).
  { apply Forall_forall. intros p Hp. rewrite forallb_forall in EF. specialize (EF p Hp).
    now apply negb_true_iff, Qle_bool_false in EF. }
  destruct (polyfit1 l) as [g o]. fold (reg g o l). fold (syy l).
  assert (R : negb (rval_too_low (reg g o l) (syy l)) = true <->
              (syy l == 0 \/ r_limit * syy l <= reg g o l)).
  { unfold rval_too_low. destruct (Qeq_bool (syy l) 0) eqn:Z.
    - apply Qeq_bool_iff in Z. tauto.
    - apply Qeq_bool_neq in Z. pose proof (syy_nonneg l) as N. rewrite negb_involutive, Qle_bool_iff.
      assert (P : 0 < syy l) by lra. split.
      + intro H. right. apply Qmult_le_r with (z := / syy l); [now apply Qinv_lt_0_compat |].
        unfold Qdiv in H. rewrite <- Qmult_assoc, Qmult_inv_r, Qmult_1_r by exact Z. exact H.
      + intros [H | H]; [lra |]. apply Qle_shift_div_l; assumption. }
  destruct (negb (rval_too_low _ _)) eqn:ER.
  2:{ split; [discriminate |]. intros (_ & _ & H & _). apply R in H. discriminate. }
  destruct (Qle_bool g 0) eqn:EG; cbn [negb].
  - apply Qle_bool_iff in EG. split; [discriminate |]. intros (_ & _ & _ & H & _). lra.
  - apply Qle_bool_false in EG. split.
    + intro H. injection H as <-. repeat split; try assumption. now apply R.
    + intros (_ & _ & _ & _ & ->). reflexivity.
Qed.

Lemma meas_err l e : meas_to_cal l = Err e -> e = ValueError.
Proof.
  unfold meas_to_cal. destruct (2 <=? _)%nat; [| congruence]. destruct (forallb _ l); [| congruence].
  destruct (polyfit1 l). destruct (negb (rval_too_low _ _)); [| congruence].
  destruct (negb _); congruence.
Qed.

Lemma two_ne (l : list mpair) : (2 <= List.length l)%nat -> l <> [].
Proof. destruct l; [cbn; lia | discriminate]. Qed.

(** All raw values the same: every line through (mean, mean) is as good as the constant. *)
Lemma same_sxy l : sxx l == 0 -> sxy l == 0.
Proof.
  intro H. unfold sxy. rewrite (total_ext _ (fun _ => 0)).
  - clear. induction l as [| q m IH]; [reflexivity |]. rewrite total_cons, IH. ring.
  - intros p Hp. rewrite (sxx_zero l H p Hp). ring.
Qed.

Lemma mean_pos l : l <> [] -> Forall (fun p => 0 < X p) l -> 0 < mean X l.
Proof.
  intros ne F. apply Qlt_shift_div_l; [now apply count_pos |]. rewrite Qmult_0_l.
  destruct F as [| p m Hp F]; [congruence |]. rewrite total_cons.
  assert (0 <= total X m); [| lra].
  clear -F. induction F as [| q k Hq F IH]; [cbn; lra | rewrite total_cons; lra].
Qed.

Lemma same_fit l g o : l <> [] -> sxx l == 0 -> o == mean Y l - g * mean X l ->
  off_line g o (map pt l) == syy l /\ reg g o l == 0.
Proof.
  intros ne Z E. pose proof (same_sxy l Z) as Z'. split.
  - rewrite off_line_c by exact ne. rewrite Z, Z', E. ring.
  - unfold reg. rewrite (total_ext _ (fun _ => 0)).
    + clear. induction l as [| q m IH]; [reflexivity |]. rewrite total_cons, IH. ring.
    + intros p Hp. rewrite (sxx_zero l Z p Hp), E. ring.
Qed.

Lemma halves l : 0 < mean X l ->
  mean Y l / 2 == mean Y l - mean Y l / (2 * mean X l) * mean X l.
Proof. intro H. field. lra. Qed.

Lemma limit_left : left_over == 1 - r_limit.
Proof. unfold Qeq. vm_compute. reflexivity. Qed.

(** What is accepted fits. *)
Lemma accepted l c : meas_to_cal l = Ok c ->
  0 < gain c /\ best_line (gain c) (offset c) (map pt l) /\
  forall s, spread s (map pt l) -> off_line (gain c) (offset c) (map pt l) <= left_over * s.
Proof.
  intro H. apply meas_ok in H as (L & F & H). pose proof (two_ne l L) as ne.
  destruct (polyfit1 l) as [g o] eqn:P. destruct H as (R & G & ->). cbn [gain offset].
  rewrite polyfit1_eq in P. destruct (Qeq_bool (sxx l) 0) eqn:Z.
  - apply Qeq_bool_iff in Z. injection P as <- <-.
    pose proof (halves l (mean_pos l ne F)) as Hh.
    destruct (same_fit l _ _ ne Z Hh) as [E R0]. rewrite R0 in R.
    assert (S0 : syy l == 0).
    { destruct R as [R | R]; [exact R |]. pose proof (syy_nonneg l). unfold r_limit in R. lra. }
    split; [exact G |]. split.
    + intros g' o'. rewrite E, S0. rewrite off_line_c by exact ne. rewrite Z, (same_sxy l Z), S0.
      pose proof (count_pos l ne) as N. set (z := o' - _). clearbody z. clear -N. nra.
    + intros s Hs. apply spread_eq in Hs; [| exact ne]. rewrite E, Hs, S0. unfold left_over. lra.
  - apply Qeq_bool_neq in Z. pose proof (sxx_nonneg l) as N. assert (D : 0 < sxx l) by lra.
    injection P as <- <-. split; [exact G |]. split.
    + now apply fit_best.
    + intros s Hs. apply spread_eq in Hs; [| exact ne].
      rewrite fit_rest, Hs, limit_left by assumption.
      unfold reg in R. rewrite fit_reg in R by assumption.
      destruct R as [R | R]; [| lra].
      assert (0 <= sxy l / sxx l * (sxy l / sxx l) * sxx l) by (set (z := sxy l / sxx l); clearbody z; clear -D; nra).
      rewrite R. lra.
Qed.

(** With two different raw values only points off every rising line are rejected. *)
Lemma complete l g o s :
  two_raws (map pt l) -> Forall (fun p => 0 < X p) l ->
  0 < g -> spread s (map pt l) -> 0 < s -> off_line g o (map pt l) <= left_over * s ->
  exists c, meas_to_cal l = Ok c.
Proof.
  intros T F G Hs Sp H. pose proof (two_raws_sxx l T) as D.
  assert (L : (2 <= List.length l)%nat).
  { destruct T as (p & q & Hp & Hq & Ne). destruct l as [| a [| b l]]; cbn [map] in *.
    - destruct Hp.
    - destruct Hp as [<- | []]. destruct Hq as [<- | []]. exfalso. apply Ne. reflexivity.
    - cbn [List.length]. lia. }
  pose proof (two_ne l L) as ne. apply spread_eq in Hs; [| exact ne].
  rewrite Hs in H, Sp. clear s Hs. rewrite limit_left in H.
  exists (mkPair (sxy l / sxx l) (mean Y l - sxy l / sxx l * mean X l) None).
  apply meas_ok. split; [exact L |]. split; [exact F |].
  rewrite polyfit1_eq. destruct (Qeq_bool (sxx l) 0) eqn:Z; [apply Qeq_bool_iff in Z; lra |].
  pose proof (fit_best l ne D g o) as B. rewrite fit_rest in B by assumption.
  split; [| split; [| reflexivity]].
  - right. unfold reg. rewrite fit_reg by assumption. lra.
  - rewrite off_line_c in H by exact ne. pose proof (sxy_g l D) as Eg.
    set (h := sxy l / sxx l) in *. rewrite Eg in H.
    set (z := o - _) in H. pose proof (count_pos l ne) as N.
    assert (Pz : 0 <= count l * z * z) by (clear -N; clearbody z; nra).
    destruct (Qlt_le_dec 0 h) as [Hh | Hh]; [exact Hh | exfalso].
    clearbody h z. clear -H Pz Hh G D Sp. unfold r_limit in H.
    assert (0 <= g * (- h) * sxx l) by (apply Qmult_le_0_compat; [nra | lra]).
    assert (0 <= g * g * sxx l) by (apply Qmult_le_0_compat; [nra | lra]).
    nra.
Qed.

Lemma unique l c g o : two_raws (map pt l) -> meas_to_cal l = Ok c ->
  best_line g o (map pt l) -> g == gain c /\ o == offset c.
Proof.
  intros T H B. pose proof (two_raws_sxx l T) as D. apply meas_ok in H as (L & F & H).
  pose proof (two_ne l L) as ne. rewrite polyfit1_eq in H.
  destruct (Qeq_bool (sxx l) 0) eqn:Z; [apply Qeq_bool_iff in Z; lra |].
  destruct H as (_ & _ & ->). cbn [gain offset]. now apply fit_unique.
Qed.

(** A linear device. *)
Lemma off_on_line g o pts : on_line g o pts -> off_line g o pts == 0.
Proof.
  induction 1 as [| [x y] pts E H IH]; [reflexivity |]. cbn [off_line]. cbn [fst snd] in E.
  rewrite IH, E. ring.
Qed.

Lemma on_line_spread l g o : two_raws (map pt l) -> l <> [] -> 0 < g -> on_line g o (map pt l) ->
  0 < syy l.
Proof.
  intros T ne G O. pose proof (syy_nonneg l) as N. destruct (Qeq_dec (syy l) 0) as [E | E]; [| lra].
  exfalso. destruct T as (p & q & Hp & Hq & Ne). unfold on_line in O. rewrite Forall_forall in O.
  pose proof (O p Hp) as Op. pose proof (O q Hq) as Oq.
  apply in_map_iff in Hp as (a & <- & Ha). apply in_map_iff in Hq as (b & <- & Hb).
  cbn [fst snd pt] in *. pose proof (syy_zero l E a Ha). pose proof (syy_zero l E b Hb).
  apply Ne. assert (g * (X a - X b) == 0) as K by lra.
  destruct (Qmult_integral _ _ K); lra.
Qed.

Lemma linear l g o : two_raws (map pt l) -> Forall (fun p => 0 < X p) l -> 0 < g ->
  on_line g o (map pt l) ->
  exists c, meas_to_cal l = Ok c /\ gain c == g /\ offset c == o.
Proof.
  intros T F G O.
  assert (ne : l <> []) by (intros ->; destruct T as (? & ? & [] & _)).
  pose proof (on_line_spread l g o T ne G O) as P. pose proof (off_on_line _ _ _ O) as Z.
  destruct (complete l g o (syy l)) as [c H]; try assumption.
  - now apply spread_syy.
  - rewrite Z. unfold left_over. lra.
  - exists c. split; [exact H |].
    assert (B : best_line g o (map pt l)).
    { intros g' o'. rewrite Z. pose proof (two_raws_sxx l T) as D.
      rewrite off_line_fit by assumption.
      pose proof (apart_nonneg g' o' (sxy l / sxx l) (mean Y l - sxy l / sxx l * mean X l) (map X l)).
      pose proof (fit_best l ne D g o) as K. rewrite Z in K.
      assert (0 <= off_line (sxy l / sxx l) (mean Y l - sxy l / sxx l * mean X l) (map pt l)); [| lra].
      clear. generalize (sxy l / sxx l) (mean Y l - sxy l / sxx l * mean X l). intros a b.
      induction (map pt l) as [| [x y] m IH]; cbn [off_line]; [lra |].
      set (z := y - _). assert (z ^ 2 == z * z) as -> by ring. clearbody z. nra. }
    destruct (unique l c g o T H B) as [E1 E2]. split; symmetry; assumption.
Qed.

(** Errors of the references are not amplified. *)
Lemma noise l c g o : two_raws (map pt l) -> meas_to_cal l = Ok c ->
  apart (gain c) (offset c) g o (map X l) <= off_line g o (map pt l).
Proof.
  intros T H. pose proof (two_raws_sxx l T) as D. pose proof (accepted l c H) as (_ & B & _).
  apply meas_ok in H as (L & F & H).
  pose proof (two_ne l L) as ne. rewrite polyfit1_eq in H.
  destruct (Qeq_bool (sxx l) 0) eqn:Z; [apply Qeq_bool_iff in Z; lra |].
  destruct H as (_ & _ & ->). cbn [gain offset] in *.
  rewrite (off_line_fit l ne D g o).
  assert (E : apart (sxy l / sxx l) (mean Y l - sxy l / sxx l * mean X l) g o (map X l) ==
              apart g o (sxy l / sxx l) (mean Y l - sxy l / sxx l * mean X l) (map X l)).
  { rewrite !apart_m. ring. }
  rewrite E.
  assert (0 <= off_line (sxy l / sxx l) (mean Y l - sxy l / sxx l * mean X l) (map pt l)); [| lra].
  clear. generalize (sxy l / sxx l) (mean Y l - sxy l / sxx l * mean X l). intros a b.
  induction (map pt l) as [| [x y] m IH]; cbn [off_line]; [lra |].
  set (z := y - _). assert (z ^ 2 == z * z) as -> by ring. clearbody z. nra.
Qed.

(** The order of the measurements does not matter. *)
Lemma total_perm f l m : Permutation l m -> total f l == total f m.
Proof.
  induction 1 as [| p l m H IH | p q l | l m k H1 IH1 H2 IH2].
  - reflexivity.
  - rewrite !total_cons, IH. reflexivity.
  - rewrite !total_cons. ring.
  - rewrite IH1, IH2. reflexivity.
Qed.

Lemma order l m c : Permutation l m -> meas_to_cal l = Ok c ->
  exists c', meas_to_cal m = Ok c' /\ gain c' == gain c /\ offset c' == offset c.
Proof.
  intros P H. apply meas_ok in H as (L & F & H). pose proof (two_ne l L) as ne.
  assert (Lm : (2 <= List.length m)%nat) by (rewrite <- (Permutation_length P); exact L).
  pose proof (two_ne m Lm) as nm.
  assert (C : count l = count m) by (unfold count; now rewrite (Permutation_length P)).
  assert (MX : mean X l == mean X m) by (unfold mean; rewrite C, (total_perm X l m P); reflexivity).
  assert (MY : mean Y l == mean Y m) by (unfold mean; rewrite C, (total_perm Y l m P); reflexivity).
  assert (EX : sxx l == sxx m).
  { rewrite !sxx_moment by assumption. rewrite C, !(total_perm _ l m P). reflexivity. }
  assert (EY : syy l == syy m).
  { rewrite !syy_moment by assumption. rewrite C, !(total_perm _ l m P). reflexivity. }
  assert (EXY : sxy l == sxy m).
  { rewrite !sxy_moment by assumption. rewrite C, !(total_perm _ l m P). reflexivity. }
  assert (Fm : Forall (fun p => 0 < X p) m) by (eapply Permutation_Forall; eassumption).
  assert (RG : forall g o g' o', g == g' -> o == o' -> reg g o l == reg g' o' m).
  { intros g o g' o' E1 E2. unfold reg. rewrite !fit_m, C, !(total_perm _ l m P), MY, E1, E2. reflexivity. }
  rewrite polyfit1_eq in H.
  assert (K : exists g o, polyfit1 m = (g, o) /\
     let (g', o') := polyfit1 l in g == g' /\ o == o').
  { rewrite !polyfit1_eq. rewrite (Qeqb_comp _ _ EX 0 0 (Qeq_refl 0)).
    destruct (Qeq_bool (sxx m) 0); eexists; eexists; (split; [reflexivity |]);
      rewrite MX, MY, ?EX, ?EXY; split; reflexivity. }
  rewrite <- polyfit1_eq in H. destruct K as (g & o & Em & K).
  destruct (polyfit1 l) as [g' o']. destruct K as [K1 K2]. destruct H as (R & G & ->).
  exists (mkPair g o None). split; [| split; assumption].
  apply meas_ok. split; [exact Lm |]. split; [exact Fm |]. rewrite Em.
  rewrite EY, (RG g' o' g o) in R by (symmetry; assumption).
  split; [exact R |]. split; [rewrite K1; exact G | reflexivity].
Qed.

(** ** The parts of a cape *)

Lemma hrv_ok m c : hrv_to_cal m = Ok c <->
  meas_to_cal (m_dac_V_Hrv m) = Ok (dac_V_Hrv c) /\ meas_to_cal (m_dac_V_Sim m) = Ok (dac_V_Sim c) /\
  meas_to_cal (m_adc_V_Sense m) = Ok (adc_V_Sense c) /\ meas_to_cal (m_adc_C_Hrv m) = Ok (adc_C_Hrv c).
Proof.
  unfold hrv_to_cal, bind.
  destruct (meas_to_cal (m_dac_V_Hrv m)); [| split; [discriminate | intros (H & _); discriminate]].
  destruct (meas_to_cal (m_dac_V_Sim m)); [| split; [discriminate | intros (_ & H & _); discriminate]].
  destruct (meas_to_cal (m_adc_V_Sense m)); [| split; [discriminate | intros (_ & _ & H & _); discriminate]].
  destruct (meas_to_cal (m_adc_C_Hrv m)); [| split; [discriminate | intros (_ & _ & _ & H); discriminate]].
  split.
  - intro H. injection H as <-. repeat split.
  - destruct c. cbn. intros (H1 & H2 & H3 & H4). congruence.
Qed.

Lemma emu_ok m c : emu_to_cal m = Ok c <->
  meas_to_cal (m_dac_V_A m) = Ok (dac_V_A c) /\ meas_to_cal (m_dac_V_B m) = Ok (dac_V_B c) /\
  meas_to_cal (m_adc_C_A m) = Ok (adc_C_A c) /\ meas_to_cal (m_adc_C_B m) = Ok (adc_C_B c).
Proof.
  unfold emu_to_cal, bind.
  destruct (meas_to_cal (m_dac_V_A m)); [| split; [discriminate | intros (H & _); discriminate]].
  destruct (meas_to_cal (m_dac_V_B m)); [| split; [discriminate | intros (_ & H & _); discriminate]].
  destruct (meas_to_cal (m_adc_C_A m)); [| split; [discriminate | intros (_ & _ & H & _); discriminate]].
  destruct (meas_to_cal (m_adc_C_B m)); [| split; [discriminate | intros (_ & _ & _ & H); discriminate]].
  split.
  - intro H. injection H as <-. repeat split.
  - destruct c. cbn. intros (H1 & H2 & H3 & H4). congruence.
Qed.

Lemma cape_ok {C} dh de (m : meas_cape C) c : cape_to_cal dh de m = Ok c <->
  cc_cape c = mc_cape m /\ cc_host c = mc_host m /\
  (match mc_harvester m with Some h => hrv_to_cal h | None => Ok dh end) = Ok (cc_harvester c) /\
  (match mc_emulator m with Some e => emu_to_cal e | None => Ok de end) = Ok (cc_emulator c).
Proof.
  unfold cape_to_cal, bind.
  destruct (match mc_harvester m with Some h => _ | None => _ end);
    [| split; [discriminate | intros (_ & _ & H & _); discriminate]].
  destruct (match mc_emulator m with Some e => _ | None => _ end);
    [| split; [discriminate | intros (_ & _ & _ & H); discriminate]].
  split.
  - intro H. injection H as <-. repeat split.
  - destruct c. cbn. intros (-> & -> & H3 & H4). congruence.
Qed.

Lemma cape_pairs {C} dh de (m : meas_cape C) c : cape_to_cal dh de m = Ok c ->
  (forall h, mc_harvester m = Some h ->
     Forall2 (fun d p => meas_to_cal d = Ok p)
       [m_dac_V_Hrv h; m_dac_V_Sim h; m_adc_V_Sense h; m_adc_C_Hrv h]
       (let r := cc_harvester c in [dac_V_Hrv r; dac_V_Sim r; adc_V_Sense r; adc_C_Hrv r])) /\
  (mc_harvester m = None -> cc_harvester c = dh) /\
  (forall e, mc_emulator m = Some e ->
     Forall2 (fun d p => meas_to_cal d = Ok p)
       [m_dac_V_A e; m_dac_V_B e; m_adc_C_A e; m_adc_C_B e]
       (let r := cc_emulator c in [dac_V_A r; dac_V_B r; adc_C_A r; adc_C_B r])) /\
  (mc_emulator m = None -> cc_emulator c = de) /\
  cc_cape c = mc_cape m /\ cc_host c = mc_host m.
Proof.
  intro H. apply cape_ok in H as (E1 & E2 & H & E). repeat split; try assumption.
  - intros h Hh. rewrite Hh in H. apply hrv_ok in H as (A1 & A2 & A3 & A4).
    repeat constructor; assumption.
  - intro Hn. rewrite Hn in H. congruence.
  - intros e He. rewrite He in E. apply emu_ok in E as (A1 & A2 & A3 & A4).
    repeat constructor; assumption.
  - intro Hn. rewrite Hn in E. congruence.
Qed.

(** A part fails exactly when one of its channels does. *)
Lemma bad_hrv m : (exists e, hrv_to_cal m = Err e) <->
  exists d e, In d [m_dac_V_Hrv m; m_dac_V_Sim m; m_adc_V_Sense m; m_adc_C_Hrv m] /\ meas_to_cal d = Err e.
Proof.
  split.
  - intros [e H]. unfold hrv_to_cal, bind in H.
    destruct (meas_to_cal (m_dac_V_Hrv m)) eqn:E1; [| eexists; eexists; split; [left; reflexivity | eassumption]].
    destruct (meas_to_cal (m_dac_V_Sim m)) eqn:E2; [| eexists; eexists; split; [right; left; reflexivity | eassumption]].
    destruct (meas_to_cal (m_adc_V_Sense m)) eqn:E3; [| eexists; eexists; split; [do 2 right; left; reflexivity | eassumption]].
    destruct (meas_to_cal (m_adc_C_Hrv m)) eqn:E4; [| eexists; eexists; split; [do 3 right; left; reflexivity | eassumption]].
    discriminate.
  - intros (d & e & Hd & He). destruct (hrv_to_cal m) as [c | e'] eqn:E; [| now exists e'].
    apply hrv_ok in E as (A1 & A2 & A3 & A4).
    destruct Hd as [<- | [<- | [<- | [<- | []]]]]; congruence.
Qed.

Lemma bad_emu m : (exists e, emu_to_cal m = Err e) <->
  exists d e, In d [m_dac_V_A m; m_dac_V_B m; m_adc_C_A m; m_adc_C_B m] /\ meas_to_cal d = Err e.
Proof.
  split.
  - intros [e H]. unfold emu_to_cal, bind in H.
    destruct (meas_to_cal (m_dac_V_A m)) eqn:E1; [| eexists; eexists; split; [left; reflexivity | eassumption]].
    destruct (meas_to_cal (m_dac_V_B m)) eqn:E2; [| eexists; eexists; split; [right; left; reflexivity | eassumption]].
    destruct (meas_to_cal (m_adc_C_A m)) eqn:E3; [| eexists; eexists; split; [do 2 right; left; reflexivity | eassumption]].
    destruct (meas_to_cal (m_adc_C_B m)) eqn:E4; [| eexists; eexists; split; [do 3 right; left; reflexivity | eassumption]].
    discriminate.
  - intros (d & e & Hd & He). destruct (emu_to_cal m) as [c | e'] eqn:E; [| now exists e'].
    apply emu_ok in E as (A1 & A2 & A3 & A4).
    destruct Hd as [<- | [<- | [<- | [<- | []]]]]; congruence.
Qed.

Lemma unit_lost l c : meas_to_cal l = Ok c -> unit c = None.
Proof.
  intro H. apply meas_ok in H as (_ & _ & H). destruct (polyfit1 l). destruct H as (_ & _ & ->). reflexivity.
Qed.

Lemma linear_hrv m lines : Forall2 (fun d (l : Q * Q) =>
    two_raws (map pt d) /\ Forall (fun p => 0 < X p) d /\ 0 < fst l /\ on_line (fst l) (snd l) (map pt d))
    [m_dac_V_Hrv m; m_dac_V_Sim m; m_adc_V_Sense m; m_adc_C_Hrv m] lines ->
  exists c, hrv_to_cal m = Ok c /\
    Forall2 (fun p (l : Q * Q) => gain p == fst l /\ offset p == snd l)
      [dac_V_Hrv c; dac_V_Sim c; adc_V_Sense c; adc_C_Hrv c] lines.
Proof.
  intro H. inversion H as [| d1 l1 ds1 ls1 (A1 & A2 & A3 & A4) H1]; subst.
  inversion H1 as [| d2 l2 ds2 ls2 (B1 & B2 & B3 & B4) H2]; subst.
  inversion H2 as [| d3 l3 ds3 ls3 (C1 & C2 & C3 & C4) H3]; subst.
  inversion H3 as [| d4 l4 ds4 ls4 (D1 & D2 & D3 & D4) H4]; subst. inversion H4; subst.
  destruct (linear _ _ _ A1 A2 A3 A4) as (c1 & E1 & F1). destruct (linear _ _ _ B1 B2 B3 B4) as (c2 & E2 & F2).
  destruct (linear _ _ _ C1 C2 C3 C4) as (c3 & E3 & F3). destruct (linear _ _ _ D1 D2 D3 D4) as (c4 & E4 & F4).
  exists (mkHrv c1 c2 c3 c4). split.
  - apply hrv_ok. cbn. auto.
  - cbn. repeat constructor; tauto.
Qed.

Lemma linear_emu m lines : Forall2 (fun d (l : Q * Q) =>
    two_raws (map pt d) /\ Forall (fun p => 0 < X p) d /\ 0 < fst l /\ on_line (fst l) (snd l) (map pt d))
    [m_dac_V_A m; m_dac_V_B m; m_adc_C_A m; m_adc_C_B m] lines ->
  exists c, emu_to_cal m = Ok c /\
    Forall2 (fun p (l : Q * Q) => gain p == fst l /\ offset p == snd l)
      [dac_V_A c; dac_V_B c; adc_C_A c; adc_C_B c] lines.
Proof.
  intro H. inversion H as [| d1 l1 ds1 ls1 (A1 & A2 & A3 & A4) H1]; subst.
  inversion H1 as [| d2 l2 ds2 ls2 (B1 & B2 & B3 & B4) H2]; subst.
  inversion H2 as [| d3 l3 ds3 ls3 (C1 & C2 & C3 & C4) H3]; subst.
  inversion H3 as [| d4 l4 ds4 ls4 (D1 & D2 & D3 & D4) H4]; subst. inversion H4; subst.
  destruct (linear _ _ _ A1 A2 A3 A4) as (c1 & E1 & F1). destruct (linear _ _ _ B1 B2 B3 B4) as (c2 & E2 & F2).
  destruct (linear _ _ _ C1 C2 C3 C4) as (c3 & E3 & F3). destruct (linear _ _ _ D1 D2 D3 D4) as (c4 & E4 & F4).
  exists (mkEmu c1 c2 c3 c4). split.
  - apply emu_ok. cbn. auto.
  - cbn. repeat constructor; tauto.
Qed.
