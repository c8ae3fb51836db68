(** Proofs about the export of calibrations to the kernel module. *)
From Coq Require Import ZArith Bool Reals Lia Lra Psatz String List.
From Flocq Require Import Core IEEE754.BinarySingleNaN.
From Verif Require Import PyBase F64 CalModel CalSpec.
Import ListNotations.
Open Scope Z_scope.

(** Product with an integer constant, rounded to an integer. *)
Lemma mul_round c (S : Z) x : fin c = true -> fR c = IZR S -> fin x = true ->
  ((Rabs (rnd (IZR S * fR x)) < Top)%R /\ fround (fmul c x) = Ok (ZnearestE (rnd (IZR S * fR x))))
  \/ ((Top <= Rabs (rnd (IZR S * fR x)))%R /\ fround (fmul c x) = Err OverflowError).
Proof.
  intros Hc Ec Hx. destruct (rnd_huge_cases (fR c * fR x)) as [H|H]; rewrite Ec in H.
  - left. split; [exact H|]. rewrite <- Ec in H. destruct (fmul_ok c x Hc Hx H) as [A B].
    rewrite fround_ok by exact A. now rewrite B, Ec.
  - right. split; [exact H|]. rewrite <- Ec in H. rewrite (fmul_big c x H). reflexivity.
Qed.

Lemma scale_const base shift : 0 <= base <= 2 ^ 30 -> 0 <= shift <= 8 ->
  fin (fmul (fz base) (fz (2 ^ shift))) = true /\ fR (fmul (fz base) (fz (2 ^ shift))) = IZR (base * 2 ^ shift).
Proof.
  intros Hb Hs.
  assert (P : 0 < 2 ^ shift <= 256).
  { split; [apply Z.pow_pos_nonneg; lia|]. change 256 with (2 ^ 8). apply Z.pow_le_mono_r; lia. }
  assert (A : Z.abs (base * 2 ^ shift) <= 2 ^ 53) by (rewrite Z.abs_eq; nia).
  destruct (fmul_Big (fz base) (fz (2 ^ shift))) as [F E].
  - apply fz_fin. lia.
  - apply fz_fin. lia.
  - rewrite !fz_R by lia. rewrite <- mult_IZR, <- abs_IZR. apply IZR_Big.
    assert (2 ^ 53 <= 2 ^ 1023) by (apply Z.pow_le_mono_r; lia). lia.
  - split; [exact F|]. rewrite E, !fz_R by lia. rewrite <- mult_IZR. now apply rnd_IZR.
Qed.

Lemma scaled_cases base shift x : 0 <= base <= 2 ^ 30 -> 0 <= shift <= 8 -> fin x = true ->
  ((Rabs (rnd (IZR (base * 2 ^ shift) * fR x)) < Top)%R
     /\ scaled base shift x = Ok (ZnearestE (rnd (IZR (base * 2 ^ shift) * fR x))))
  \/ ((Top <= Rabs (rnd (IZR (base * 2 ^ shift) * fR x)))%R /\ scaled base shift x = Err OverflowError).
Proof.
  intros Hb Hs Hx. destruct (scale_const base shift Hb Hs) as [F E]. unfold scaled.
  now apply mul_round.
Qed.

Lemma eta_small : (eta64 <= bpow radix2 (-60))%R.
Proof. apply bpow_le. lia. Qed.

(** Rounding once to a float and then to an integer: at most a half off, if the result is moderate. *)
Lemma near_rnd_close r : Z.abs (ZnearestE (rnd r)) <= 2 ^ 32 -> (Rabs (IZR (ZnearestE (rnd r)) - r) <= / 2 + bpow radix2 (-20))%R.
Proof.
  intros H. pose proof (near_half (rnd r)) as N. pose proof (rnd_err r) as E. pose proof eta_small as T.
  apply IZR_le in H. rewrite abs_IZR in H. change (IZR (2 ^ 32)) with 4294967296%R in H.
  set (n := IZR (ZnearestE (rnd r))) in *. set (y := rnd r) in *. clearbody n y.
  rewrite u64_val in E. change (bpow radix2 (-60)) with (/ 1152921504606846976)%R in T.
  change (bpow radix2 (-20)) with (/ 1048576)%R.
  set (t := eta64) in *. clearbody t.
  unfold Rabs in *. repeat destruct (Rcase_abs _); lra.
Qed.

Lemma scaled_spec base shift x n : 0 <= base <= 2 ^ 30 -> 0 <= shift <= 8 -> fin x = true ->
  scaled base shift x = Ok n -> Z.abs n <= 2 ^ 32 -> rounds_to n (IZR (base * 2 ^ shift) * fR x).
Proof.
  intros Hb Hs Hx H A. destruct (scaled_cases base shift x Hb Hs Hx) as [[_ E]|[_ E]]; rewrite E in H; [|discriminate].
  injection H as <-. unfold rounds_to. pose proof (near_rnd_close _ A) as C.
  change (bpow radix2 (-20)) with (/ 1048576)%R in C. change (bpow radix2 (-18)) with (/ 262144)%R. lra.
Qed.

Lemma scaled_total base shift x b : 0 <= base <= 2 ^ 30 -> 0 <= shift <= 8 -> fin x = true -> 0 <= b <= 2 ^ 53 ->
  (Rabs (IZR (base * 2 ^ shift) * fR x) <= IZR b)%R ->
  exists n, scaled base shift x = Ok n /\ Z.abs n <= b /\ ((0 <= fR x)%R -> 0 <= n).
Proof.
  intros Hb Hs Hx Hbb H. set (r := (IZR (base * 2 ^ shift) * fR x)%R) in *.
  assert (B : (- IZR b <= rnd r <= IZR b)%R).
  { apply Rabs_le_inv in H. apply rnd_between; [apply fmt_opp|..|exact H]; apply fmt_IZR; lia. }
  exists (ZnearestE (rnd r)). split; [|split].
  - destruct (scaled_cases base shift x Hb Hs Hx) as [[_ E]|[A E]]; [exact E|exfalso].
    assert (L : (Rabs (rnd r) < Top)%R).
    { apply Rle_lt_trans with (IZR b); [now apply Rabs_le|]. unfold Top. rewrite <- (IZR_Zpower radix2) by lia.
      apply IZR_lt. change (radix_val radix2) with 2. assert (2 ^ 53 < 2 ^ 1024) by (apply Z.pow_lt_mono_r; lia). lia. }
    fold r in A. lra.
  - apply Z.abs_le. split; [apply near_ge_Z; rewrite opp_IZR; lra|apply near_le_Z; lra].
  - intros P. apply near_ge_Z. apply rnd_nonneg. unfold r. apply Rmult_le_pos; [apply IZR_le|exact P].
    assert (0 < 2 ^ shift) by (apply Z.pow_pos_nonneg; lia). nia.
Qed.

(** The inverse gain. *)
Lemma mul6 g : fin g = true -> (0 < fR g)%R ->
  let m := fmul (fz (10 ^ 6)) g in
  (fin m = true /\ fR m = rnd (IZR (10 ^ 6) * fR g) /\ (0 < fR m)%R)
  \/ (m = B754_infinity false /\ (Top <= rnd (IZR (10 ^ 6) * fR g))%R).
Proof.
  intros Hg Pg m.
  assert (P : (fR g <= rnd (IZR (10 ^ 6) * fR g))%R).
  { rewrite <- (rnd_fR g) at 1. apply rnd_le. assert (1 <= IZR (10 ^ 6))%R by (apply IZR_le; lia). nra. }
  destruct (rnd_huge_cases (fR (fz (10 ^ 6)) * fR g)) as [H|H].
  - left. destruct (fmul_ok (fz (10 ^ 6)) g (fz_fin (10 ^ 6) ltac:(lia)) Hg H) as [A B]. fold m in A, B.
    rewrite fz_R in B by lia. repeat split; auto. rewrite B. lra.
  - right. rewrite fz_R in H by lia. rewrite Rabs_pos_eq in H by lra. split; [|exact H].
    unfold m. rewrite fmul_big; [|rewrite fz_R by lia; rewrite Rabs_pos_eq by lra; exact H].
    f_equal. replace (Bsign g) with false; [reflexivity|].
    destruct g as [s| | |s mm e Bd]; simpl in Hg, Pg |- *; try discriminate; [lra|].
    destruct s; [|reflexivity]. exfalso.
    assert (N : (F2R (Float radix2 (cond_Zopp true (Z.pos mm)) e) < 0)%R) by (apply F2R_lt_0; reflexivity).
    lra.
Qed.

Lemma inv_gain_cases g : fin g = true -> (0 < fR g)%R ->
  (exists m, (0 < m)%R /\ m = rnd (IZR (10 ^ 6) * fR g) /\ (Rabs (rnd (IZR (2 ^ 20) / m)) < Top)%R
     /\ inv_gain g = Ok (ZnearestE (rnd (IZR (2 ^ 20) / m))))
  \/ (exists m, (0 < m)%R /\ m = rnd (IZR (10 ^ 6) * fR g) /\ (Top <= Rabs (rnd (IZR (2 ^ 20) / m)))%R
      /\ inv_gain g = Err OverflowError)
  \/ ((Top <= rnd (IZR (10 ^ 6) * fR g))%R /\ inv_gain g = Ok 0).
Proof.
  intros Hg Pg. unfold inv_gain. destruct (mul6 g Hg Pg) as [(F & E & P)|[E H]].
  - set (m := fmul _ g) in *. clearbody m. rewrite fdiv_nz by (auto; lra). cbn [bind].
    destruct (rnd_huge_cases (fR (fz (2 ^ 20)) / fR m)) as [H|H].
    + left. exists (fR m). rewrite fz_R in H by lia. repeat split; auto.
      destruct (idiv_ok (fz (2 ^ 20)) m) as [A B]; [apply fz_fin; lia|lra|rewrite fz_R by lia; exact H|].
      rewrite fround_ok by exact A. rewrite B, fz_R by lia. reflexivity.
    + right; left. exists (fR m). rewrite fz_R in H by lia. repeat split; auto.
      destruct (idiv_x (fz (2 ^ 20)) m (fz_fin (2 ^ 20) ltac:(lia)) F P) as [A B]. rewrite fz_R in B by lia.
      assert (fin (idiv (fz (2 ^ 20)) m) = false) as NF.
      { destruct (fin (idiv (fz (2 ^ 20)) m)) eqn:Q; [exfalso|reflexivity].
        rewrite xR_fin in B by exact Q.
        assert (0 <= IZR (2 ^ 20) / fR m)%R by (apply Rmult_le_pos; [apply IZR_le; lia|]; left; apply Rinv_0_lt_compat; exact P).
        pose proof (rnd_nonneg _ H0). rewrite Rabs_pos_eq in H by lra. rewrite clampR_hi in B by exact H.
        pose proof (fR_lt_Top (idiv (fz (2 ^ 20)) m)) as L. rewrite B in L. rewrite Rabs_pos_eq in L; pose proof Top_pos; lra. }
      unfold fround. rewrite NF, A. reflexivity.
  - right; right. split; [exact H|]. rewrite E. reflexivity.
Qed.

Lemma inv_bound a m : (0 < m)%R -> (a / m * m = a)%R.
Proof. intros H. field. lra. Qed.

Lemma inv_gain_spec g n : fin g = true -> (0 < fR g)%R -> inv_gain g = Ok n -> 0 <= n < 2 ^ 32 ->
  rounds_to n (IZR (2 ^ 20) / (IZR (10 ^ 6) * fR g)).
Proof.
  intros Hg Pg H R. unfold rounds_to.
  set (M := (IZR (10 ^ 6) * fR g)%R).
  assert (PM : (0 < M)%R) by (unfold M; assert (0 < IZR (10 ^ 6))%R by (apply IZR_lt; lia); nra).
  pose proof (rnd_err M) as EM. rewrite (Rabs_pos_eq M) in EM by lra.
  assert (T : (eta64 <= bpow radix2 (-80))%R) by (apply bpow_le; lia).
  change (bpow radix2 (-80)) with (/ 1208925819614629174706176)%R in T. rewrite u64_val in EM.
  change (bpow radix2 (-18)) with (/ 262144)%R. change (IZR (2 ^ 20)) with 1048576%R.
  destruct (inv_gain_cases g Hg Pg) as [(m & Pm & Em & Hm & E)|[(m & _ & _ & _ & E)|[Hm E]]];
    rewrite E in H; try discriminate; injection H as <-.
  - fold M in Em. rewrite <- Em in EM.
    assert (A : Z.abs (ZnearestE (rnd (IZR (2 ^ 20) / m))) <= 2 ^ 32) by lia.
    pose proof (near_rnd_close _ A) as C. change (bpow radix2 (-20)) with (/ 1048576)%R in C.
    set (n := IZR (ZnearestE (rnd (IZR (2 ^ 20) / m)))) in *.
    assert (Rn : (0 <= n <= 4294967296)%R).
    { unfold n. split; [apply IZR_le; lia|]. change 4294967296%R with (IZR 4294967296). apply IZR_le. lia. }
    clearbody n. change (IZR (2 ^ 20)) with 1048576%R in C.
    (* 2^20/m <= 2^32+1, so m >= 2^-13; the relative error of m is small *)
    assert (Q : (1048576 / m <= 4294967298)%R).
    { unfold Rabs in C. destruct (Rcase_abs _); lra. }
    assert (L : (/ 8192 <= m)%R).
    { pose proof (inv_bound 1048576 m Pm). set (q := (1048576 / m)%R) in *. clearbody q. nra. }
    assert (EM' : (Rabs (m - M) <= / 4503599627370496 * m)%R).
    { unfold Rabs in *. destruct (Rcase_abs _); lra. }
    assert (D : (Rabs (1048576 / m - 1048576 / M) <= / 500000)%R).
    { replace (1048576 / m - 1048576 / M)%R with ((1048576 / m) * ((M - m) * / M))%R by (field; lra).
      rewrite Rabs_mult, (Rabs_pos_eq (1048576 / m)).
      2:{ apply Rmult_le_pos; [lra|]. left. now apply Rinv_0_lt_compat. }
      assert (S : (Rabs ((M - m) * / M) <= / 2251799813685248)%R).
      { rewrite Rabs_mult, (Rabs_pos_eq (/ M)) by (left; now apply Rinv_0_lt_compat).
        rewrite Rabs_minus_sym. apply Rmult_le_reg_r with M; [exact PM|].
        rewrite Rmult_assoc, Rinv_l, Rmult_1_r by lra.
        unfold Rabs in *. destruct (Rcase_abs _); lra. }
      apply Rle_trans with (4294967298 * / 2251799813685248)%R; [|lra].
      apply Rmult_le_compat; [|apply Rabs_pos|exact Q|exact S].
      apply Rmult_le_pos; [lra|]. left. now apply Rinv_0_lt_compat. }
    clear - C D. set (q := (1048576 / m)%R) in *. set (q2 := (1048576 / M)%R) in *. clearbody q q2.
    unfold Rabs in *. repeat destruct (Rcase_abs _); lra.
  - (* the product overflows: the true value is nearly zero *)
    fold M in Hm.
    assert (BT : (2097152 <= Top)%R).
    { change 2097152%R with (IZR (radix_val radix2 ^ 21)). rewrite IZR_Zpower by lia. apply bpow_le. lia. }
    assert (LM : (2097152 * 524288 <= M)%R).
    { assert (BT2 : (2097152 * 2097152 <= Top)%R).
      { replace (2097152 * 2097152)%R with (IZR (radix_val radix2 ^ 42)) by (simpl; lra). rewrite IZR_Zpower by lia. apply bpow_le. lia. }
      set (y := rnd M) in *. clearbody y M. unfold Rabs in EM. destruct (Rcase_abs _); lra. }
    clear - LM PM. rewrite Rminus_0_l, Rabs_Ropp, Rabs_pos_eq.
    2:{ apply Rmult_le_pos; [lra|]. left. now apply Rinv_0_lt_compat. }
    apply Rmult_le_reg_r with M; [exact PM|]. rewrite inv_bound by exact PM. lra.
Qed.

Lemma inv_gain_total g : fin g = true -> (0 < fR g)%R ->
  (IZR (2 ^ 20) / (IZR (10 ^ 6) * fR g) <= IZR (2 ^ 32 - 2))%R ->
  exists n, inv_gain g = Ok n /\ 0 <= n < 2 ^ 32.
Proof.
  intros Hg Pg H.
  destruct (inv_gain_cases g Hg Pg) as [(m & Pm & Em & Hm & E)|[(m & Pm & Em & Hm & E)|[Hm E]]].
  3: exists 0; split; [exact E|lia].
  all: set (M := (IZR (10 ^ 6) * fR g)%R) in *;
    assert (PM : (0 < M)%R) by (unfold M; assert (0 < IZR (10 ^ 6))%R by (apply IZR_lt; lia); nra);
    pose proof (rnd_err M) as EM; rewrite (Rabs_pos_eq M), <- Em in EM by lra; clearbody M;
    assert (T : (eta64 <= bpow radix2 (-80))%R) by (apply bpow_le; lia);
    change (bpow radix2 (-80)) with (/ 1208925819614629174706176)%R in T; rewrite u64_val in EM;
    change (IZR (2 ^ 20)) with 1048576%R in *; change (IZR (2 ^ 32 - 2)) with 4294967294%R in *;
    (assert (L : (1048576 <= 4294967294 * M)%R)
      by (rewrite <- (inv_bound 1048576 M PM); apply Rmult_le_compat_r; lra));
    (assert (Q : (1048576 / m <= 4294967295)%R)
      by (apply Rmult_le_reg_r with m; [exact Pm|]; rewrite inv_bound by exact Pm;
          unfold Rabs in EM; destruct (Rcase_abs _); lra));
    (assert (Q0 : (0 <= 1048576 / m)%R)
      by (apply Rmult_le_pos; [lra|]; left; now apply Rinv_0_lt_compat)).
  - exists (ZnearestE (rnd (1048576 / m))). split; [exact E|].
    assert (0 <= rnd (1048576 / m) <= IZR 4294967295)%R.
    { apply rnd_between; [apply fmt_0|apply fmt_IZR; lia|]. split; [exact Q0|exact Q]. }
    split; [apply near_ge_Z; lra|]. assert (ZnearestE (rnd (1048576 / m)) <= 4294967295) by (apply near_le_Z; lra). lia.
  - exfalso. assert (0 <= rnd (1048576 / m) <= IZR 4294967295)%R.
    { apply rnd_between; [apply fmt_0|apply fmt_IZR; lia|]. split; [exact Q0|exact Q]. }
    rewrite Rabs_pos_eq in Hm by lra.
    assert (BT : (IZR 4294967295 < Top)%R).
    { unfold Top. rewrite <- (IZR_Zpower radix2) by lia. apply IZR_lt. change (radix_val radix2) with 2.
      assert (2 ^ 32 < 2 ^ 1024) by (apply Z.pow_lt_mono_r; lia). lia. }
    lra.
Qed.

Lemma inv_gain_err g e : fin g = true -> (0 < fR g)%R -> inv_gain g = Err e -> e = OverflowError.
Proof.
  intros Hg Pg H.
  destruct (inv_gain_cases g Hg Pg) as [(m & _ & _ & _ & E)|[(m & _ & _ & _ & E)|[_ E]]]; congruence.
Qed.

(** Both classes do the same with different converters. *)
Definition exp6 (cg co vg vo dg dof : f64) : res sysfs :=
  let* acg := scaled (10 ^ 9) 8 cg in
  let* aco := scaled (10 ^ 9) 0 co in
  let* avg := scaled (10 ^ 6) 8 vg in
  let* avo := scaled (10 ^ 6) 0 vo in
  let* dvg := inv_gain dg in
  let* dvo := scaled (10 ^ 6) 0 dof in
  let cal_set := [("adc_current_gain", acg); ("adc_current_offset", aco); ("adc_voltage_gain", avg);
                  ("adc_voltage_offset", avo); ("dac_voltage_gain", dvg); ("dac_voltage_offset", dvo)]%string in
  sysfs_check cal_set cal_set.

Lemma bad_gain k n : has_sub "gain" k = true -> has_sub "offset" k = false ->
  sysfs_bad (k, n) = negb ((0 <=? n) && (n <? 2 ^ 32)).
Proof. intros A B. unfold sysfs_bad. cbn [fst snd]. rewrite A, B. cbn. apply orb_false_r. Qed.
Lemma bad_offset k n : has_sub "gain" k = false -> has_sub "offset" k = true ->
  sysfs_bad (k, n) = negb ((- 2 ^ 31 <=? n) && (n <? 2 ^ 31)).
Proof. intros A B. unfold sysfs_bad. cbn [fst snd]. rewrite A, B. reflexivity. Qed.

Lemma check_six a b c d e f k :
  sysfs_check [("adc_current_gain", a); ("adc_current_offset", b); ("adc_voltage_gain", c);
               ("adc_voltage_offset", d); ("dac_voltage_gain", e); ("dac_voltage_offset", f)]%string k =
  if (0 <=? a) && (a <? 2 ^ 32) && ((- 2 ^ 31 <=? b) && (b <? 2 ^ 31)) && ((0 <=? c) && (c <? 2 ^ 32))
     && ((- 2 ^ 31 <=? d) && (d <? 2 ^ 31)) && ((0 <=? e) && (e <? 2 ^ 32)) && ((- 2 ^ 31 <=? f) && (f <? 2 ^ 31))
  then Ok k else Err ValueError.
Proof.
  cbn [sysfs_check].
  rewrite (bad_gain "adc_current_gain"%string), (bad_offset "adc_current_offset"%string), (bad_gain "adc_voltage_gain"%string),
    (bad_offset "adc_voltage_offset"%string), (bad_gain "dac_voltage_gain"%string), (bad_offset "dac_voltage_offset"%string) by reflexivity.
  destruct ((0 <=? a) && (a <? 2 ^ 32)); [|reflexivity].
  destruct ((- 2 ^ 31 <=? b) && (b <? 2 ^ 31)); [|reflexivity].
  destruct ((0 <=? c) && (c <? 2 ^ 32)); [|reflexivity].
  destruct ((- 2 ^ 31 <=? d) && (d <? 2 ^ 31)); [|reflexivity].
  destruct ((0 <=? e) && (e <? 2 ^ 32)); [|reflexivity].
  destruct ((- 2 ^ 31 <=? f) && (f <? 2 ^ 31)); reflexivity.
Qed.


Section Six.
  Variables cg co vg vo dg dof : f64.
  Hypothesis Fcg : fin cg = true.
  Hypothesis Fco : fin co = true.
  Hypothesis Fvg : fin vg = true.
  Hypothesis Fvo : fin vo = true.
  Hypothesis Fdg : fin dg = true.
  Hypothesis Fdof : fin dof = true.
  Hypothesis Pdg : (0 < fR dg)%R.

  Lemma exp6_ok l : exp6 cg co vg vo dg dof = Ok l ->
    sysfs_for (fR cg) (fR co) (fR vg) (fR vo) (fR dg) (fR dof) l.
  Proof.
    unfold exp6.
    destruct (scaled (10 ^ 9) 8 cg) as [a|] eqn:Ea; [cbn [bind]|discriminate].
    destruct (scaled (10 ^ 9) 0 co) as [b|] eqn:Eb; [cbn [bind]|discriminate].
    destruct (scaled (10 ^ 6) 8 vg) as [c|] eqn:Ec; [cbn [bind]|discriminate].
    destruct (scaled (10 ^ 6) 0 vo) as [d|] eqn:Ed; [cbn [bind]|discriminate].
    destruct (inv_gain dg) as [e|] eqn:Ee; [cbn [bind]|discriminate].
    destruct (scaled (10 ^ 6) 0 dof) as [f|] eqn:Ef; [cbn [bind]|discriminate].
    cbv zeta. rewrite check_six. destruct (_ && _) eqn:C; [|discriminate]. intros H. injection H as <-.
    repeat (apply andb_prop in C; destruct C as [C ?]).
    repeat match goal with H : _ && _ = true |- _ => apply andb_prop in H; destruct H end.
    repeat match goal with H : (_ <=? _) = true |- _ => apply Z.leb_le in H | H : (_ <? _) = true |- _ => apply Z.ltb_lt in H end.
    exists a, b, c, d, e, f. split; [reflexivity|].
    do 6 (split; [lia|]).
    apply scaled_spec in Ea; [|lia..|exact Fcg|lia].
    apply scaled_spec in Eb; [|lia..|exact Fco|lia].
    apply scaled_spec in Ec; [|lia..|exact Fvg|lia].
    apply scaled_spec in Ed; [|lia..|exact Fvo|lia].
    apply scaled_spec in Ef; [|lia..|exact Fdof|lia].
    apply inv_gain_spec in Ee; [|exact Fdg|exact Pdg|lia].
    split; [exact Ea|]. split; [exact Eb|]. split; [exact Ec|]. split; [exact Ed|]. split; [exact Ee|exact Ef].
  Qed.

  Lemma exp6_err e : exp6 cg co vg vo dg dof = Err e -> e = ValueError \/ e = OverflowError.
  Proof.
    unfold exp6.
    assert (S : forall base shift x k r, 0 <= base <= 2 ^ 30 -> 0 <= shift <= 8 -> fin x = true ->
      (scaled base shift x = Err k -> r = k -> r = ValueError \/ r = OverflowError)).
    { intros base shift x k r Hb Hs Hx H ->. destruct (scaled_cases base shift x Hb Hs Hx) as [[_ E]|[_ E]];
        rewrite E in H; [discriminate|]. injection H as <-. auto. }
    destruct (scaled (10 ^ 9) 8 cg) as [a|] eqn:Ea; cbn [bind];
      [|intros H; injection H as <-; eapply S; [| |exact Fcg|exact Ea|reflexivity]; lia].
    destruct (scaled (10 ^ 9) 0 co) as [b|] eqn:Eb; cbn [bind];
      [|intros H; injection H as <-; eapply S; [| |exact Fco|exact Eb|reflexivity]; lia].
    destruct (scaled (10 ^ 6) 8 vg) as [c|] eqn:Ec; cbn [bind];
      [|intros H; injection H as <-; eapply S; [| |exact Fvg|exact Ec|reflexivity]; lia].
    destruct (scaled (10 ^ 6) 0 vo) as [d|] eqn:Ed; cbn [bind];
      [|intros H; injection H as <-; eapply S; [| |exact Fvo|exact Ed|reflexivity]; lia].
    destruct (inv_gain dg) as [g|] eqn:Ee; cbn [bind].
    2:{ intros H; injection H as <-.
        right. exact (inv_gain_err dg _ Fdg Pdg Ee). }
    destruct (scaled (10 ^ 6) 0 dof) as [f|] eqn:Ef; cbn [bind];
      [|intros H; injection H as <-; eapply S; [| |exact Fdof|exact Ef|reflexivity]; lia].
    cbv zeta. rewrite check_six. destruct (_ && _); [discriminate|]. intros H. injection H as <-. auto.
  Qed.

  Lemma exp6_total : (0 <= fR cg)%R -> (0 <= fR vg)%R ->
    fits (fR cg) (fR co) (fR vg) (fR vo) (fR dg) (fR dof) -> exists l, exp6 cg co vg vo dg dof = Ok l.
  Proof.
    intros Pcg Pvg (H1 & H2 & H3 & H4 & H5 & H6). unfold exp6.
    assert (N : forall k x, 0 <= k -> (0 <= x)%R -> (Rabs (IZR k * x) = IZR k * x)%R).
    { intros k x Hk Hx. apply Rabs_pos_eq. apply Rmult_le_pos; [apply IZR_le|]; assumption. }
    destruct (scaled_total (10 ^ 9) 8 cg (2 ^ 32 - 2)) as (a & Ea & Aa & Pa);
      [lia|lia|exact Fcg|lia|rewrite N by (lia || assumption); exact H1|].
    destruct (scaled_total (10 ^ 9) 0 co (2 ^ 31 - 2)) as (b & Eb & Ab & _);
      [lia|lia|exact Fco|lia|exact H2|].
    destruct (scaled_total (10 ^ 6) 8 vg (2 ^ 32 - 2)) as (c & Ec & Ac & Pc);
      [lia|lia|exact Fvg|lia|rewrite N by (lia || assumption); exact H3|].
    destruct (scaled_total (10 ^ 6) 0 vo (2 ^ 31 - 2)) as (d & Ed & Ad & _);
      [lia|lia|exact Fvo|lia|exact H4|].
    destruct (inv_gain_total dg Fdg Pdg H5) as (e & Ee & Re).
    destruct (scaled_total (10 ^ 6) 0 dof (2 ^ 31 - 2)) as (f & Ef & Af & _);
      [lia|lia|exact Fdof|lia|exact H6|].
    rewrite Ea, Eb, Ec, Ed, Ee, Ef. cbn [bind]. cbv zeta. rewrite check_six.
    specialize (Pa Pcg). specialize (Pc Pvg).
    eexists. match goal with |- (if ?t then _ else _) = _ => assert (T : t = true) end.
    { rewrite !andb_true_iff, !Z.leb_le, !Z.ltb_lt. lia. }
    rewrite T. reflexivity.
  Qed.
End Six.

Lemma export_hrv_exp6 c : export_hrv c = exp6 (cp_gain (adc_C_Hrv c)) (cp_off (adc_C_Hrv c))
  (cp_gain (adc_V_Sense c)) (cp_off (adc_V_Sense c)) (cp_gain (dac_V_Hrv c)) (cp_off (dac_V_Hrv c)).
Proof. reflexivity. Qed.
Lemma export_emu_exp6 c : export_emu c = exp6 (cp_gain (adc_C_A c)) (cp_off (adc_C_A c))
  (fz 1) (fz 0) (cp_gain (dac_V_A c)) (cp_off (dac_V_A c)).
Proof. reflexivity. Qed.

Lemma one_ok : fin (fz 1) = true /\ fR (fz 1) = 1%R.
Proof. split; [apply fz_fin|apply fz_R]; lia. Qed.
Lemma zero_ok : fin (fz 0) = true /\ fR (fz 0) = 0%R.
Proof. split; [apply fz_fin|apply fz_R]; lia. Qed.

Lemma export_hrv_ok c l : valid_pair (adc_C_Hrv c) -> valid_pair (adc_V_Sense c) -> valid_pair (dac_V_Hrv c) ->
  export_hrv c = Ok l ->
  sysfs_for (fR (cp_gain (adc_C_Hrv c))) (fR (cp_off (adc_C_Hrv c))) (fR (cp_gain (adc_V_Sense c)))
    (fR (cp_off (adc_V_Sense c))) (fR (cp_gain (dac_V_Hrv c))) (fR (cp_off (dac_V_Hrv c))) l.
Proof. intros (A & B & _) (C & D & _) (E & F & P). rewrite export_hrv_exp6. apply exp6_ok; assumption. Qed.
Lemma export_emu_ok c l : valid_pair (adc_C_A c) -> valid_pair (dac_V_A c) ->
  export_emu c = Ok l ->
  sysfs_for (fR (cp_gain (adc_C_A c))) (fR (cp_off (adc_C_A c))) 1 0
    (fR (cp_gain (dac_V_A c))) (fR (cp_off (dac_V_A c))) l.
Proof.
  intros (A & B & _) (E & F & P) H. rewrite export_emu_exp6 in H. rewrite <- (proj2 one_ok), <- (proj2 zero_ok).
  apply exp6_ok; try assumption; [apply one_ok|apply zero_ok].
Qed.
Lemma export_hrv_err c e : valid_pair (adc_C_Hrv c) -> valid_pair (adc_V_Sense c) -> valid_pair (dac_V_Hrv c) ->
  export_hrv c = Err e -> e = ValueError \/ e = OverflowError.
Proof. intros (A & B & _) (C & D & _) (E & F & P) H. rewrite export_hrv_exp6 in H. eapply exp6_err; [..|exact H]; assumption. Qed.
Lemma export_emu_err c e : valid_pair (adc_C_A c) -> valid_pair (dac_V_A c) ->
  export_emu c = Err e -> e = ValueError \/ e = OverflowError.
Proof.
  intros (A & B & _) (E & F & P) H. rewrite export_emu_exp6 in H. eapply exp6_err; [..|exact H]; try assumption; [apply one_ok|apply zero_ok].
Qed.
Lemma export_hrv_total c : valid_pair (adc_C_Hrv c) -> valid_pair (adc_V_Sense c) -> valid_pair (dac_V_Hrv c) ->
  fits (fR (cp_gain (adc_C_Hrv c))) (fR (cp_off (adc_C_Hrv c))) (fR (cp_gain (adc_V_Sense c)))
    (fR (cp_off (adc_V_Sense c))) (fR (cp_gain (dac_V_Hrv c))) (fR (cp_off (dac_V_Hrv c))) ->
  exists l, export_hrv c = Ok l.
Proof.
  intros (A & B & Q) (C & D & S) (E & F & P) H. rewrite export_hrv_exp6. apply exp6_total; try assumption; left; assumption.
Qed.
Lemma export_emu_total c : valid_pair (adc_C_A c) -> valid_pair (dac_V_A c) ->
  fits (fR (cp_gain (adc_C_A c))) (fR (cp_off (adc_C_A c))) 1 0
    (fR (cp_gain (dac_V_A c))) (fR (cp_off (dac_V_A c))) ->
  exists l, export_emu c = Ok l.
Proof.
  intros (A & B & Q) (E & F & P) H. rewrite export_emu_exp6. rewrite <- (proj2 one_ok), <- (proj2 zero_ok) in H.
  apply exp6_total; try assumption; try (left; assumption); try apply one_ok; try apply zero_ok.
  rewrite (proj2 one_ok). lra.
Qed.
