(** Proofs about the hardware conversion functions (calibration_hw_def.py). *)
From Coq Require Import ZArith Bool String List Reals Lia Lra Psatz.
From Flocq Require Import Core IEEE754.BinarySingleNaN.
From Verif Require Import PyBase F64 CalModel CalSpec CalProofs.
Import ListNotations.
Open Scope Z_scope.

(** Multiplication with a positive number is monotone, infinities included. *)
Lemma fmul_mono a b y : is_nan a = false -> is_nan b = false -> fin y = true -> (0 < fR y)%R ->
  (xR a <= xR b)%R ->
  is_nan (fmul a y) = false /\ is_nan (fmul b y) = false /\ (xR (fmul a y) <= xR (fmul b y))%R.
Proof.
  intros Na Nb Hy Hp H.
  assert (I : forall s, fmul (B754_infinity s) y = B754_infinity s).
  { intros s. destruct y as [sy|sy| |sy my ey By]; simpl in Hy; try discriminate; simpl in Hp; [lra|].
    simpl. destruct sy; [|destruct s; reflexivity].
    exfalso. assert (fR (B754_finite true my ey By) <= 0)%R by (apply sign_le; reflexivity). simpl in *. lra. }
  pose proof Top_pos as HT.
  destruct (fin a) eqn:Fa, (fin b) eqn:Fb.
  - destruct (fmul_x a y Fa Hy) as [A1 A2]. destruct (fmul_x b y Fb Hy) as [B1 B2].
    split; [exact A1|]. split; [exact B1|]. rewrite A2, B2. apply clampR_le, rnd_le.
    rewrite !xR_fin in H by assumption. apply Rmult_le_compat_r; [lra|exact H].
  - destruct (fmul_x a y Fa Hy) as [A1 _]. split; [exact A1|].
    destruct b as [|s| |]; simpl in Nb, Fb; try discriminate. rewrite I.
    split; [reflexivity|]. destruct s.
    + rewrite xR_fin in H by exact Fa. pose proof (fR_lt_Top a) as L. apply Rabs_def2 in L. simpl in H. lra.
    + simpl. apply xR_range.
  - destruct (fmul_x b y Fb Hy) as [B1 _].
    destruct a as [|s| |]; simpl in Na, Fa; try discriminate. rewrite I.
    split; [reflexivity|]. split; [exact B1|]. destruct s.
    + simpl. apply xR_range.
    + rewrite (xR_fin b) in H by exact Fb. pose proof (fR_lt_Top b) as L. apply Rabs_def2 in L. simpl in H. lra.
  - destruct a as [|s| |], b as [|s'| |]; simpl in *; try discriminate. rewrite !I.
    auto.
Qed.

Lemma fin_not_nan x : fin x = true -> is_nan x = false.
Proof. destruct x; simpl; intros; try discriminate; reflexivity. Qed.

(** The constants. *)
Lemma adc_ref : fin (fmul G_ADC_V V_REF_ADC) = true
  /\ fR (fmul G_ADC_V V_REF_ADC) = (5764607523034235 * / 1125899906842624)%R.
Proof. apply (cst (fmul G_ADC_V V_REF_ADC) 5764607523034235 (-50)). vm_compute. reflexivity. Qed.
Lemma dac_ref : fin (fmul V_REF_DAC (fz G_DAC)) = true /\ fR (fmul V_REF_DAC (fz G_DAC)) = 5%R.
Proof.
  destruct (cst (fmul V_REF_DAC (fz G_DAC)) 5629499534213120 (-50)) as [A B]; [vm_compute; reflexivity|].
  split; [exact A|]. rewrite B. change (bpow radix2 (-50)) with (/ 1125899906842624)%R. lra.
Qed.
Lemma amp1 : fin (fmul (fz G_INST_AMP) R_SHT) = true /\ fR (fmul (fz G_INST_AMP) R_SHT) = 96%R.
Proof.
  destruct (cst (fmul (fz G_INST_AMP) R_SHT) 6755399441055744 (-46)) as [A B]; [vm_compute; reflexivity|].
  split; [exact A|]. rewrite B. change (bpow radix2 (-46)) with (/ 70368744177664)%R. lra.
Qed.
Lemma amp2 : fin (fmul R_SHT (fz G_INST_AMP)) = true /\ fR (fmul R_SHT (fz G_INST_AMP)) = 96%R.
Proof.
  destruct (cst (fmul R_SHT (fz G_INST_AMP)) 6755399441055744 (-46)) as [A B]; [vm_compute; reflexivity|].
  split; [exact A|]. rewrite B. change (bpow radix2 (-46)) with (/ 70368744177664)%R. lra.
Qed.
Lemma two18 : fin (fz (2 ^ M_ADC)) = true /\ fR (fz (2 ^ M_ADC)) = 262144%R.
Proof. apply (fz_ok (2 ^ 18)). lia. Qed.
Lemma two16 : fin (fz (2 ^ M_DAC)) = true /\ fR (fz (2 ^ M_DAC)) = 65536%R.
Proof. apply (fz_ok (2 ^ 16)). lia. Qed.

(** Clamping of codes. *)
Lemma limit_range bits n : 0 <= bits -> 0 <= limit_code true bits n < 2 ^ bits.
Proof. intros H. unfold limit_code. pose proof (Z.pow_pos_nonneg 2 bits). lia. Qed.
Lemma limit_mono l bits a b : a <= b -> limit_code l bits a <= limit_code l bits b.
Proof. unfold limit_code. destruct l; lia. Qed.
Lemma limit_id l bits a : 0 <= a < 2 ^ bits -> limit_code l bits a = a.
Proof. unfold limit_code. destruct l; lia. Qed.

(** ** From a physical value to a code *)

Lemma int_div_mono a b c k l n1 n2 : is_nan a = false -> is_nan b = false -> fin c = true -> (0 < fR c)%R ->
  (xR a <= xR b)%R ->
  (let* q := fdiv a c in let* r := fint q in Ok (limit_code l k r)) = Ok n1 ->
  (let* q := fdiv b c in let* r := fint q in Ok (limit_code l k r)) = Ok n2 -> n1 <= n2.
Proof.
  intros Na Nb Fc Hc H H1 H2. rewrite !fdiv_nz in * by (auto; lra). cbn [bind] in *.
  destruct (idiv_mono a b c Na Nb Fc Hc H) as (_ & _ & L).
  destruct (fint (idiv a c)) as [r1|] eqn:E1; [|discriminate].
  destruct (fint (idiv b c)) as [r2|] eqn:E2; [|discriminate].
  cbn [bind] in *. injection H1 as <-. injection H2 as <-.
  apply fint_inv in E1, E2. destruct E1 as [F1 ->], E2 as [F2 ->].
  apply limit_mono. apply Ztrunc_le. now rewrite !xR_fin in L by assumption.
Qed.

Lemma mono_adc_voltage v1 v2 l n1 n2 : fin v1 = true -> fin v2 = true -> (fR v1 <= fR v2)%R ->
  adc_voltage_to_raw v1 l = Ok n1 -> adc_voltage_to_raw v2 l = Ok n2 -> n1 <= n2.
Proof.
  intros F1 F2 H. unfold adc_voltage_to_raw. destruct adc_ref as [Fc Ec]. destruct two18 as [F18 E18].
  destruct (fmul_mono v1 v2 (fz (2 ^ M_ADC))) as (N1 & N2 & L); auto using fin_not_nan; try lra.
  { rewrite !xR_fin; auto. }
  apply int_div_mono; auto; lra.
Qed.

Lemma mono_adc_current v1 v2 l n1 n2 : fin v1 = true -> fin v2 = true -> (fR v1 <= fR v2)%R ->
  adc_current_to_raw v1 l = Ok n1 -> adc_current_to_raw v2 l = Ok n2 -> n1 <= n2.
Proof.
  intros F1 F2 H. unfold adc_current_to_raw. change G_ADC_I with G_ADC_V.
  destruct adc_ref as [Fc Ec]. destruct two18 as [F18 E18]. destruct amp1 as [Fa Ea].
  cbv zeta.
  assert (L0 : is_nan (fmul (fmul (fz G_INST_AMP) R_SHT) v1) = false
    /\ is_nan (fmul (fmul (fz G_INST_AMP) R_SHT) v2) = false
    /\ (xR (fmul (fmul (fz G_INST_AMP) R_SHT) v1) <= xR (fmul (fmul (fz G_INST_AMP) R_SHT) v2))%R).
  { destruct (fmul_x (fmul (fz G_INST_AMP) R_SHT) v1 Fa F1) as [A1 A2].
    destruct (fmul_x (fmul (fz G_INST_AMP) R_SHT) v2 Fa F2) as [B1 B2].
    split; [exact A1|]. split; [exact B1|]. rewrite A2, B2, Ea. apply clampR_le, rnd_le. lra. }
  destruct L0 as (M1 & M2 & M).
  destruct (fmul_mono _ _ (fz (2 ^ M_ADC)) M1 M2 F18) as (N1 & N2 & L); try lra.
  apply int_div_mono; auto; lra.
Qed.

Lemma mono_dac_voltage v1 v2 l n1 n2 : fin v1 = true -> fin v2 = true -> (fR v1 <= fR v2)%R ->
  dac_voltage_to_raw v1 l = Ok n1 -> dac_voltage_to_raw v2 l = Ok n2 -> n1 <= n2.
Proof.
  intros F1 F2 H. unfold dac_voltage_to_raw. destruct dac_ref as [Fc Ec]. destruct two16 as [F18 E18].
  destruct (fmul_mono v1 v2 (fz (2 ^ M_DAC))) as (N1 & N2 & L); auto using fin_not_nan; try lra.
  { rewrite !xR_fin; auto. }
  apply int_div_mono; auto; lra.
Qed.

Lemma range_of_limit k l (r : res Z) n : 0 <= k ->
  (let* v := r in Ok (limit_code l k v)) = Ok n -> l = true -> 0 <= n < 2 ^ k.
Proof.
  intros Hk H ->. destruct r; [|discriminate]. cbn [bind] in H. injection H as <-. now apply limit_range.
Qed.

Lemma range_adc_voltage v n : adc_voltage_to_raw v true = Ok n -> 0 <= n < 2 ^ 18.
Proof.
  unfold adc_voltage_to_raw. destruct (fdiv _ _); [|discriminate]. cbn [bind]. intros H.
  eapply range_of_limit; [|exact H|reflexivity]. unfold M_ADC. lia.
Qed.
Lemma range_adc_current v n : adc_current_to_raw v true = Ok n -> 0 <= n < 2 ^ 18.
Proof.
  unfold adc_current_to_raw. cbv zeta. destruct (fdiv _ _); [|discriminate]. cbn [bind]. intros H.
  eapply range_of_limit; [|exact H|reflexivity]. unfold M_ADC. lia.
Qed.
Lemma range_dac_voltage v n : dac_voltage_to_raw v true = Ok n -> 0 <= n < 2 ^ 16.
Proof.
  unfold dac_voltage_to_raw. destruct (fdiv _ _); [|discriminate]. cbn [bind]. intros H.
  eapply range_of_limit; [|exact H|reflexivity]. unfold M_DAC. lia.
Qed.

(** Values of reasonable size are converted without an exception. *)
Lemma big900 k r : 0 <= k <= 100 -> (Rabs r <= bpow radix2 (900 + k))%R -> (Rabs r <= Big)%R.
Proof. intros Hk H. eapply Rle_trans; [exact H|]. unfold Big. apply bpow_le. lia. Qed.

Lemma rnd_bpow k r : -1074 <= k -> (Rabs r <= bpow radix2 k)%R -> (Rabs (rnd r) <= bpow radix2 k)%R.
Proof.
  intros Hk H. assert (F : fmt (bpow radix2 k)).
  { replace (bpow radix2 k) with (1 * bpow radix2 k)%R by ring. apply (fmt_scaled 1); lia. }
  apply Rabs_le_inv in H. apply Rabs_le. apply rnd_between; auto. now apply fmt_opp.
Qed.

Lemma mul_step x y k j : fin x = true -> fin y = true -> 0 <= k -> 0 <= j -> k + j <= 100 ->
  (Rabs (fR x) <= bpow radix2 (900 + k))%R -> (Rabs (fR y) <= bpow radix2 j)%R ->
  fin (fmul x y) = true /\ (Rabs (fR (fmul x y)) <= bpow radix2 (900 + (k + j)))%R.
Proof.
  intros Fx Fy Hk Hj Hkj Hx Hy.
  assert (B : (Rabs (fR x * fR y) <= bpow radix2 (900 + (k + j)))%R).
  { rewrite Rabs_mult. replace (900 + (k + j)) with (900 + k + j) by lia. rewrite bpow_plus.
    apply Rmult_le_compat; auto using Rabs_pos. }
  destruct (fmul_Big x y Fx Fy) as [F R]; [apply big900 with (k + j); [lia|exact B]|].
  split; [exact F|]. rewrite R. apply rnd_bpow; [lia|exact B].
Qed.

Lemma div_total x c k bits l : fin x = true -> fin c = true -> (1 <= fR c)%R -> 0 <= k <= 100 ->
  (Rabs (fR x) <= bpow radix2 (900 + k))%R ->
  exists n, (let* q := fdiv x c in let* r := fint q in Ok (limit_code l bits r)) = Ok n.
Proof.
  intros Fx Fc Hc Hk Hx.
  destruct (fdiv_Big x c) as (q & E & F & _); auto; [lra| |].
  - apply big900 with k; [exact Hk|]. unfold Rdiv. rewrite Rabs_mult.
    rewrite (Rabs_pos_eq (/ fR c)) by (apply Rlt_le, Rinv_0_lt_compat; lra).
    assert (/ fR c <= 1)%R by (rewrite <- Rinv_1; apply Rinv_le; lra).
    pose proof (Rabs_pos (fR x)).
    assert (0 < / fR c)%R by (apply Rinv_0_lt_compat; lra). nra.
  - rewrite E. cbn [bind]. rewrite fint_ok by exact F. cbn [bind]. eauto.
Qed.

Lemma total_adc_voltage v l : fin v = true -> (Rabs (fR v) <= bpow radix2 900)%R ->
  exists n, adc_voltage_to_raw v l = Ok n.
Proof.
  intros F H. unfold adc_voltage_to_raw. destruct adc_ref as [Fc Ec]. destruct two18 as [F18 E18].
  destruct (mul_step v (fz (2 ^ M_ADC)) 0 18) as [G B]; auto; try lia.
  { rewrite E18. change (bpow radix2 18) with 262144%R. apply Rabs_le. lra. }
  apply div_total with (k := 0 + 18); auto; [lra|lia].
Qed.
Lemma total_dac_voltage v l : fin v = true -> (Rabs (fR v) <= bpow radix2 900)%R ->
  exists n, dac_voltage_to_raw v l = Ok n.
Proof.
  intros F H. unfold dac_voltage_to_raw. destruct dac_ref as [Fc Ec]. destruct two16 as [F18 E18].
  destruct (mul_step v (fz (2 ^ M_DAC)) 0 16) as [G B]; auto; try lia.
  { rewrite E18. change (bpow radix2 16) with 65536%R. apply Rabs_le. lra. }
  apply div_total with (k := 0 + 16); auto; [lra|lia].
Qed.
Lemma total_adc_current v l : fin v = true -> (Rabs (fR v) <= bpow radix2 900)%R ->
  exists n, adc_current_to_raw v l = Ok n.
Proof.
  intros F H. unfold adc_current_to_raw. cbv zeta. change G_ADC_I with G_ADC_V.
  destruct adc_ref as [Fc Ec]. destruct two18 as [F18 E18]. destruct amp1 as [Fa Ea].
  assert (B : (Rabs (fR (fmul (fz G_INST_AMP) R_SHT) * fR v) <= bpow radix2 (900 + 7))%R).
  { rewrite Ea, Rabs_mult. rewrite bpow_plus, Rmult_comm.
    apply Rmult_le_compat; auto using Rabs_pos. change (bpow radix2 7) with 128%R. apply Rabs_le. lra. }
  destruct (fmul_Big (fmul (fz G_INST_AMP) R_SHT) v Fa F) as [F1 R1]; [apply big900 with 7; [lia|exact B]|].
  assert (B1 : (Rabs (fR (fmul (fmul (fz G_INST_AMP) R_SHT) v)) <= bpow radix2 (900 + 7))%R).
  { rewrite R1. apply rnd_bpow; [lia|exact B]. }
  destruct (mul_step (fmul (fmul (fz G_INST_AMP) R_SHT) v) (fz (2 ^ M_ADC)) 7 18) as [G B']; auto; try lia.
  { rewrite E18. change (bpow radix2 18) with 262144%R. apply Rabs_le. lra. }
  apply div_total with (k := 7 + 18); auto; [lra|lia].
Qed.

(** ** From a code to a physical value *)

(** Steps of the error analysis: a known non-negative value bounded by [B]. *)
Lemma small_Big r B : (0 <= r <= B)%R -> (B <= 1152921504606846976)%R -> (Rabs r <= Big)%R.
Proof.
  intros H HB. apply Rle_trans with 1152921504606846976%R; [apply Rabs_le; lra|].
  change 1152921504606846976%R with (bpow radix2 60). unfold Big. apply bpow_le. lia.
Qed.

Lemma eta_tiny : (eta64 <= / 1267650600228229401496703205376)%R.
Proof. change (/ 1267650600228229401496703205376)%R with (bpow radix2 (-100)). apply bpow_le. lia. Qed.

Lemma rnd_step r B : (0 <= r <= B)%R ->
  (- (/ 9007199254740992 * B + eta64) <= rnd r - r <= / 9007199254740992 * B + eta64)%R.
Proof.
  intros H. pose proof (rnd_err_b r B) as E. rewrite u64_val in E. apply abs_le.
  apply E. apply Rabs_le. lra.
Qed.

Lemma adc_voltage_value n : 0 <= n < 2 ^ 18 -> forall l, exists v,
  adc_raw_to_voltage n l = Ok v /\ fin v = true
  /\ fR v = rnd (rnd (IZR n * (5764607523034235 * / 1125899906842624)) / 262144).
Proof.
  intros Hn l. unfold adc_raw_to_voltage. rewrite limit_id by exact Hn. cbv zeta.
  destruct adc_ref as [Fc Ec]. destruct two18 as [F18 E18]. destruct (fz_ok n) as [Fn En]; [lia|].
  assert (Z1 : (0 <= IZR n)%R) by (apply IZR_le; lia).
  assert (Z2 : (IZR n <= 262143)%R) by (apply IZR_le; lia).
  destruct (fmul_Big (fz n) (fmul G_ADC_V V_REF_ADC) Fn Fc) as [F1 R1].
  { rewrite En, Ec. apply small_Big with 2000000%R; lra. }
  rewrite En, Ec in R1.
  assert (R1' : (0 <= fR (fmul (fz n) (fmul G_ADC_V V_REF_ADC)) <= 2000000)%R).
  { rewrite R1. apply (rnd_between 0 2000000); [apply fmt_0|apply (fmt_IZR 2000000); lia|lra]. }
  destruct (fdiv_Big (fmul (fz n) (fmul G_ADC_V V_REF_ADC)) (fz (2 ^ M_ADC)) F1 F18) as (q & E & F & R).
  { rewrite E18. lra. }
  { rewrite E18. apply small_Big with 2000000%R; lra. }
  exists q. split; [exact E|]. split; [exact F|]. now rewrite R, E18, R1.
Qed.

Lemma dac_voltage_value n : 0 <= n < 2 ^ 16 -> forall l, exists v,
  dac_raw_to_voltage n l = Ok v /\ fin v = true /\ fR v = (IZR n * 5 / 65536)%R.
Proof.
  intros Hn l. unfold dac_raw_to_voltage. rewrite limit_id by exact Hn. cbv zeta.
  destruct dac_ref as [Fc Ec]. destruct two16 as [F18 E18]. destruct (fz_ok n) as [Fn En]; [lia|].
  assert (Z1 : (0 <= IZR n)%R) by (apply IZR_le; lia).
  assert (Z2 : (IZR n <= 65535)%R) by (apply IZR_le; lia).
  destruct (fmul_Big (fz n) (fmul V_REF_DAC (fz G_DAC)) Fn Fc) as [F1 R1].
  { rewrite En, Ec. apply small_Big with 2000000%R; lra. }
  rewrite En, Ec in R1.
  rewrite <- (mult_IZR n 5) in R1. rewrite rnd_IZR in R1 by lia.
  destruct (fdiv_Big (fmul (fz n) (fmul V_REF_DAC (fz G_DAC))) (fz (2 ^ M_DAC)) F1 F18) as (q & E & F & R).
  { rewrite E18. lra. }
  { rewrite E18, R1, mult_IZR. apply small_Big with 2000000%R; lra. }
  exists q. split; [exact E|]. split; [exact F|]. rewrite R, E18, R1.
  rewrite rnd_id; [rewrite mult_IZR; reflexivity|].
  unfold Rdiv. change (/ 65536)%R with (bpow radix2 (-16)). apply fmt_scaled; lia.
Qed.

Lemma adc_current_value n : 0 <= n < 2 ^ 18 -> forall l, exists v,
  adc_raw_to_current n l = Ok v /\ fin v = true
  /\ fR v = rnd (rnd (rnd (IZR n * (5764607523034235 * / 1125899906842624)) / 262144) / 96).
Proof.
  intros Hn l. unfold adc_raw_to_current. change G_ADC_I with G_ADC_V.
  destruct (adc_voltage_value n Hn l) as (v & Ev & Fv & Rv).
  unfold adc_raw_to_voltage in Ev. rewrite limit_id in * by exact Hn. cbv zeta in Ev |- *.
  rewrite Ev. cbn [bind]. destruct amp2 as [Fa Ea].
  assert (Z1 : (0 <= IZR n)%R) by (apply IZR_le; lia).
  assert (Z2 : (IZR n <= 262143)%R) by (apply IZR_le; lia).
  assert (B1 : (0 <= rnd (IZR n * (5764607523034235 * / 1125899906842624)) <= 2000000)%R).
  { apply (rnd_between 0 2000000); [apply fmt_0|apply (fmt_IZR 2000000); lia|lra]. }
  assert (B2 : (0 <= fR v <= 2000000)%R).
  { rewrite Rv. apply (rnd_between 0 2000000); [apply fmt_0|apply (fmt_IZR 2000000); lia|lra]. }
  destruct (fdiv_Big v (fmul R_SHT (fz G_INST_AMP)) Fv Fa) as (q & E & F & R).
  { rewrite Ea. lra. }
  { rewrite Ea. apply small_Big with 2000000%R; lra. }
  exists q. split; [exact E|]. split; [exact F|]. now rewrite R, Ea, Rv.
Qed.

(** Monotone in the code. *)
Lemma rnd_scale_mono a b c : (0 <= c)%R -> (a <= b)%R -> (rnd (a * c) <= rnd (b * c))%R.
Proof. intros. apply rnd_le. apply Rmult_le_compat_r; auto. Qed.

Lemma mono_adc_raw_voltage a b l va vb : 0 <= a <= b -> b < 2 ^ 18 ->
  adc_raw_to_voltage a l = Ok va -> adc_raw_to_voltage b l = Ok vb -> (fR va <= fR vb)%R.
Proof.
  intros H Hb Ea Eb.
  destruct (adc_voltage_value a ltac:(lia) l) as (va' & Ea' & _ & Ra).
  destruct (adc_voltage_value b ltac:(lia) l) as (vb' & Eb' & _ & Rb).
  rewrite Ea in Ea'. injection Ea' as <-. rewrite Eb in Eb'. injection Eb' as <-.
  rewrite Ra, Rb. assert (IZR a <= IZR b)%R by (apply IZR_le; lia).
  unfold Rdiv. apply rnd_scale_mono; [lra|]. apply rnd_scale_mono; lra.
Qed.
Lemma mono_adc_raw_current a b l va vb : 0 <= a <= b -> b < 2 ^ 18 ->
  adc_raw_to_current a l = Ok va -> adc_raw_to_current b l = Ok vb -> (fR va <= fR vb)%R.
Proof.
  intros H Hb Ea Eb.
  destruct (adc_current_value a ltac:(lia) l) as (va' & Ea' & _ & Ra).
  destruct (adc_current_value b ltac:(lia) l) as (vb' & Eb' & _ & Rb).
  rewrite Ea in Ea'. injection Ea' as <-. rewrite Eb in Eb'. injection Eb' as <-.
  rewrite Ra, Rb. assert (IZR a <= IZR b)%R by (apply IZR_le; lia).
  unfold Rdiv. apply rnd_scale_mono; [lra|]. apply rnd_scale_mono; [lra|]. apply rnd_scale_mono; lra.
Qed.
Lemma mono_dac_raw_voltage a b l va vb : 0 <= a <= b -> b < 2 ^ 16 ->
  dac_raw_to_voltage a l = Ok va -> dac_raw_to_voltage b l = Ok vb -> (fR va <= fR vb)%R.
Proof.
  intros H Hb Ea Eb.
  destruct (dac_voltage_value a ltac:(lia) l) as (va' & Ea' & _ & Ra).
  destruct (dac_voltage_value b ltac:(lia) l) as (vb' & Eb' & _ & Rb).
  rewrite Ea in Ea'. injection Ea' as <-. rewrite Eb in Eb'. injection Eb' as <-.
  rewrite Ra, Rb. assert (IZR a <= IZR b)%R by (apply IZR_le; lia). lra.
Qed.

(** ** A code, its value, and back *)

Lemma scale_small x k e : (- e <= x <= e)%R -> (0 <= k <= 1)%R -> (- e <= x * k <= e)%R.
Proof. intros. split; nra. Qed.

Lemma trunc_close n y : 0 <= n -> (Rabs (y - IZR n) <= / 2)%R -> Ztrunc y = n \/ Ztrunc y = n - 1.
Proof.
  intros Hn H. apply Rabs_le_inv in H.
  destruct (Z.eq_dec n 0) as [->|N].
  - left. destruct (Rle_or_lt 0 y) as [P|P].
    + rewrite Ztrunc_floor by exact P. apply Zfloor_imp. change (IZR (0 + 1)) with 1%R. lra.
    + rewrite Ztrunc_ceil by lra. apply Zceil_imp. change (IZR (0 - 1)) with (-1)%R. lra.
  - assert (1 <= IZR n)%R by (apply IZR_le; lia).
    rewrite Ztrunc_floor by lra.
    destruct (Rle_or_lt (IZR n) y) as [P|P].
    + left. apply Zfloor_imp. rewrite plus_IZR. lra.
    + right. apply Zfloor_imp. replace (n - 1 + 1) with n by lia. rewrite minus_IZR. lra.
Qed.

Lemma roundtrip_adc_voltage n l : 0 <= n < 2 ^ 18 -> exists v r,
  adc_raw_to_voltage n l = Ok v /\ adc_voltage_to_raw v l = Ok r /\ (r = n \/ r = n - 1) /\ 0 <= r.
Proof.
  intros Hn. destruct (adc_voltage_value n Hn l) as (v & Ev & Fv & Rv). exists v.
  destruct adc_ref as [Fc Ec]. destruct two18 as [F18 E18].
  assert (Z1 : (0 <= IZR n)%R) by (apply IZR_le; lia).
  assert (Z2 : (IZR n <= 262143)%R) by (apply IZR_le; lia).
  pose proof eta_tiny as Het. pose proof eta64_pos as Hep.
  set (c := (5764607523034235 * / 1125899906842624)%R) in *.
  assert (C : (5 <= c <= 6)%R) by (unfold c; lra).
  pose proof (rnd_step (IZR n * c) 2000000 ltac:(nra)) as S1.
  set (a := rnd (IZR n * c)) in *.
  assert (A : (0 <= a <= 2000000)%R).
  { unfold a. apply (rnd_between 0 2000000); [apply fmt_0|apply (fmt_IZR 2000000); lia|nra]. }
  pose proof (rnd_step (a / 262144) 8 ltac:(lra)) as S2. rewrite <- Rv in S2.
  assert (Bv : (0 <= fR v <= 8)%R).
  { rewrite Rv. apply (rnd_between 0 8); [apply fmt_0|apply (fmt_IZR 8); lia|lra]. }
  unfold adc_voltage_to_raw.
  destruct (fmul_Big v (fz (2 ^ M_ADC)) Fv F18) as [F1 R1].
  { rewrite E18. apply small_Big with 4000000%R; lra. }
  rewrite E18 in R1. pose proof (rnd_step (fR v * 262144) 4000000 ltac:(lra)) as S3. rewrite <- R1 in S3.
  set (m := fmul v (fz (2 ^ M_ADC))) in *.
  assert (Bm : (0 <= fR m <= 4000000)%R).
  { rewrite R1. apply (rnd_between 0 4000000); [apply fmt_0|apply (fmt_IZR 4000000); lia|lra]. }
  assert (Q : (0 <= fR m / c <= 4000000)%R).
  { unfold Rdiv. assert (0 < / c)%R by (apply Rinv_0_lt_compat; lra).
    assert (/ c <= 1)%R by (rewrite <- Rinv_1; apply Rinv_le; lra).
    split; [apply Rmult_le_pos; lra|]. apply scale_small; lra. }
  destruct (fdiv_Big m (fmul G_ADC_V V_REF_ADC) F1 Fc) as (q & E & F & R).
  { rewrite Ec. lra. }
  { rewrite Ec. apply small_Big with 4000000%R; [exact Q|lra]. }
  rewrite Ec in R. pose proof (rnd_step (fR m / c) 4000000 Q) as S4. rewrite <- R in S4.
  assert (D : (- (1 / 1000) <= fR m - IZR n * c <= 1 / 1000)%R) by lra.
  assert (D' : (- (1 / 1000) <= fR m / c - IZR n <= 1 / 1000)%R).
  { replace (fR m / c - IZR n)%R with ((fR m - IZR n * c) * / c)%R by (field; lra).
    assert (0 < / c)%R by (apply Rinv_0_lt_compat; lra).
    assert (/ c <= 1)%R by (rewrite <- Rinv_1; apply Rinv_le; lra). apply scale_small; lra. }
  rewrite E. cbn [bind]. rewrite fint_ok by exact F. cbn [bind].
  exists (limit_code l M_ADC (Ztrunc (fR q))). split; [exact Ev|]. split; [reflexivity|].
  assert (T : Ztrunc (fR q) = n \/ Ztrunc (fR q) = n - 1).
  { apply trunc_close; [lia|]. apply Rabs_le. lra. }
  assert (P : 0 <= Ztrunc (fR q)).
  { apply trunc_nonneg. rewrite R. apply rnd_nonneg. apply Q. }
  unfold limit_code, M_ADC. destruct l; lia.
Qed.

Lemma roundtrip_adc_current n l : 0 <= n < 2 ^ 18 -> exists v r,
  adc_raw_to_current n l = Ok v /\ adc_current_to_raw v l = Ok r /\ (r = n \/ r = n - 1) /\ 0 <= r.
Proof.
  intros Hn. destruct (adc_current_value n Hn l) as (v & Ev & Fv & Rv). exists v.
  destruct adc_ref as [Fc Ec]. destruct two18 as [F18 E18]. destruct amp1 as [Fa Ea].
  assert (Z1 : (0 <= IZR n)%R) by (apply IZR_le; lia).
  assert (Z2 : (IZR n <= 262143)%R) by (apply IZR_le; lia).
  pose proof eta_tiny as Het. pose proof eta64_pos as Hep.
  set (c := (5764607523034235 * / 1125899906842624)%R) in *.
  assert (C : (5 <= c <= 6)%R) by (unfold c; lra).
  pose proof (rnd_step (IZR n * c) 2000000 ltac:(nra)) as S1.
  set (a := rnd (IZR n * c)) in *.
  assert (A : (0 <= a <= 2000000)%R).
  { unfold a. apply (rnd_between 0 2000000); [apply fmt_0|apply (fmt_IZR 2000000); lia|nra]. }
  pose proof (rnd_step (a / 262144) 8 ltac:(lra)) as S2.
  set (b := rnd (a / 262144)) in *.
  assert (Bb : (0 <= b <= 8)%R).
  { unfold b. apply (rnd_between 0 8); [apply fmt_0|apply (fmt_IZR 8); lia|lra]. }
  pose proof (rnd_step (b / 96) 1 ltac:(lra)) as S2'. rewrite <- Rv in S2'.
  assert (Bv : (0 <= fR v <= 1)%R).
  { rewrite Rv. apply (rnd_between 0 1); [apply fmt_0|apply (fmt_IZR 1); lia|lra]. }
  unfold adc_current_to_raw. cbv zeta. change G_ADC_I with G_ADC_V.
  destruct (fmul_Big (fmul (fz G_INST_AMP) R_SHT) v Fa Fv) as [F0 R0].
  { rewrite Ea. apply small_Big with 128%R; lra. }
  rewrite Ea in R0. pose proof (rnd_step (96 * fR v) 128 ltac:(lra)) as S0. rewrite <- R0 in S0.
  set (w := fmul (fmul (fz G_INST_AMP) R_SHT) v) in *.
  assert (Bw : (0 <= fR w <= 9)%R).
  { split; [rewrite R0; apply rnd_nonneg; lra|lra]. }
  destruct (fmul_Big w (fz (2 ^ M_ADC)) F0 F18) as [F1 R1].
  { rewrite E18. apply small_Big with 4000000%R; lra. }
  rewrite E18 in R1. pose proof (rnd_step (fR w * 262144) 4000000 ltac:(lra)) as S3. rewrite <- R1 in S3.
  set (m := fmul w (fz (2 ^ M_ADC))) in *.
  assert (Bm : (0 <= fR m <= 4000000)%R).
  { rewrite R1. apply (rnd_between 0 4000000); [apply fmt_0|apply (fmt_IZR 4000000); lia|lra]. }
  assert (Q : (0 <= fR m / c <= 4000000)%R).
  { unfold Rdiv. assert (0 < / c)%R by (apply Rinv_0_lt_compat; lra).
    assert (/ c <= 1)%R by (rewrite <- Rinv_1; apply Rinv_le; lra).
    split; [apply Rmult_le_pos; lra|]. apply scale_small; lra. }
  destruct (fdiv_Big m (fmul G_ADC_V V_REF_ADC) F1 Fc) as (q & E & F & R).
  { rewrite Ec. lra. }
  { rewrite Ec. apply small_Big with 4000000%R; [exact Q|lra]. }
  rewrite Ec in R. pose proof (rnd_step (fR m / c) 4000000 Q) as S4. rewrite <- R in S4.
  assert (D : (- (1 / 1000) <= fR m - IZR n * c <= 1 / 1000)%R) by lra.
  assert (D' : (- (1 / 1000) <= fR m / c - IZR n <= 1 / 1000)%R).
  { replace (fR m / c - IZR n)%R with ((fR m - IZR n * c) * / c)%R by (field; lra).
    assert (0 < / c)%R by (apply Rinv_0_lt_compat; lra).
    assert (/ c <= 1)%R by (rewrite <- Rinv_1; apply Rinv_le; lra). apply scale_small; lra. }
  rewrite E. cbn [bind]. rewrite fint_ok by exact F. cbn [bind].
  exists (limit_code l M_ADC (Ztrunc (fR q))). split; [exact Ev|]. split; [reflexivity|].
  assert (T : Ztrunc (fR q) = n \/ Ztrunc (fR q) = n - 1).
  { apply trunc_close; [lia|]. apply Rabs_le. lra. }
  assert (P : 0 <= Ztrunc (fR q)).
  { apply trunc_nonneg. rewrite R. apply rnd_nonneg. apply Q. }
  unfold limit_code, M_ADC. destruct l; lia.
Qed.

(** The DAC uses a reference of exactly 5 V, so nothing is lost. *)
Lemma roundtrip_dac n l : 0 <= n < 2 ^ 16 -> exists v,
  dac_raw_to_voltage n l = Ok v /\ dac_voltage_to_raw v l = Ok n.
Proof.
  intros Hn. destruct (dac_voltage_value n Hn l) as (v & Ev & Fv & Rv). exists v. split; [exact Ev|].
  destruct dac_ref as [Fc Ec]. destruct two16 as [F16 E16].
  assert (Z1 : (0 <= IZR n)%R) by (apply IZR_le; lia).
  assert (Z2 : (IZR n <= 65535)%R) by (apply IZR_le; lia).
  unfold dac_voltage_to_raw.
  destruct (fmul_Big v (fz (2 ^ M_DAC)) Fv F16) as [F1 R1].
  { rewrite E16, Rv. apply small_Big with 4000000%R; lra. }
  rewrite E16, Rv in R1.
  replace (IZR n * 5 / 65536 * 65536)%R with (IZR (n * 5)) in R1 by (rewrite mult_IZR; field).
  rewrite rnd_IZR in R1 by lia.
  destruct (fdiv_Big (fmul v (fz (2 ^ M_DAC))) (fmul V_REF_DAC (fz G_DAC)) F1 Fc) as (q & E & F & R).
  { rewrite Ec. lra. }
  { rewrite Ec, R1, mult_IZR. apply small_Big with 4000000%R; lra. }
  rewrite Ec, R1 in R. replace (IZR (n * 5) / 5)%R with (IZR n) in R by (rewrite mult_IZR; field).
  rewrite rnd_IZR in R by lia.
  rewrite E. cbn [bind]. rewrite fint_ok by exact F. cbn [bind]. rewrite R, Ztrunc_IZR.
  now rewrite limit_id by exact Hn.
Qed.
