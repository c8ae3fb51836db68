(** The default calibration against the formulas of the hardware. *)
From Coq Require Import ZArith Bool Reals Lia Lra Psatz String.
From Flocq Require Import Core IEEE754.BinarySingleNaN.
From Verif Require Import PyBase F64 CalModel CalSpec CalProofs CalHwProofs.
Open Scope Z_scope.

(** A probe with 0 -> 0 and 1 -> N gives the gain 1/N (rounded) and no offset. *)
Lemma probe fn u N p : fn (fz 0) false = Ok 0 -> fn (fz 1) false = Ok N -> 1 <= N <= 2 ^ 30 ->
  from_fn fn u = Ok p ->
  valid_pair p /\ fR (cp_gain p) = rnd (/ IZR N) /\ fR (cp_off p) = 0%R /\ cp_unit p = u.
Proof.
  intros E0 E1 HN. unfold from_fn. rewrite E0, E1. cbn [bind]. cbv zeta. rewrite Z.sub_0_r.
  destruct (fz_ok 1) as [F1 R1]; [lia|]. destruct (fz_ok 0) as [F0 R0]; [lia|]. destruct (fz_ok N) as [FN RN]; [lia|].
  assert (PN : (1 <= IZR N)%R) by (apply IZR_le; lia).
  assert (I : (0 < / IZR N <= 1)%R).
  { split; [apply Rinv_0_lt_compat; lra|]. rewrite <- Rinv_1. apply Rinv_le; lra. }
  destruct (fdiv_Big (fz 1) (fz N) F1 FN) as (g & Eg & Fg & Rg).
  { rewrite RN. lra. }
  { rewrite R1, RN. unfold Rdiv. rewrite Rmult_1_l. apply (small_Big _ 1); lra. }
  assert (F0' : fin (fneg (fz 0)) = true) by (unfold fneg; rewrite is_finite_Bopp; exact F0).
  assert (R0' : fR (fneg (fz 0)) = 0%R) by (unfold fneg; rewrite B2R_Bopp, R0; ring).
  destruct (fdiv_Big (fneg (fz 0)) (fz N) F0' FN) as (o & Eo & Fo & Ro).
  { rewrite RN. lra. }
  { rewrite R0', RN. unfold Rdiv. rewrite Rmult_0_l. apply (small_Big _ 1); lra. }
  rewrite Eg, Eo. cbn [bind]. unfold new_pair. rewrite Fg, Fo. cbn [andb].
  destruct (flt (fz 0) g) eqn:P; [|discriminate]. intros H. injection H as <-.
  apply flt_R in P; [|exact F0|exact Fg]. rewrite R0 in P.
  rewrite R1, RN in Rg. unfold Rdiv in Rg. rewrite Rmult_1_l in Rg.
  rewrite R0', RN in Ro. unfold Rdiv in Ro. rewrite Rmult_0_l, rnd_0 in Ro.
  split; [split; [exact Fg|split; [exact Fo|exact P]]|]. cbn. auto.
Qed.

(** Conversion to raw values with such a pair. *)
Lemma probe_near p N v : 1 <= N <= 2 ^ 23 -> valid_pair p -> fR (cp_gain p) = rnd (/ IZR N) ->
  fR (cp_off p) = 0%R -> fin v = true -> (0 <= fR v)%R -> (fR v * IZR N <= 1048576)%R ->
  exists r, si_to_raw p v = Ok (ZnearestE r) /\ (Rabs (r - fR v * IZR N) <= / 1048576)%R.
Proof.
  intros HN (Fg & Fo & Pg) Rg Ro Fv Pv Hv. unfold si_to_raw.
  assert (PN : (1 <= IZR N <= 8388608)%R) by (split; apply IZR_le; lia).
  pose proof (rnd_err (/ IZR N)) as E. rewrite <- Rg in E.
  assert (I : (0 < / IZR N <= 1)%R).
  { split; [apply Rinv_0_lt_compat; lra|]. rewrite <- Rinv_1. apply Rinv_le; lra. }
  assert (I2 : (/ 8388608 <= / IZR N)%R) by (apply Rinv_le; lra).
  rewrite (Rabs_pos_eq (/ IZR N)) in E by lra. rewrite u64_val in E.
  pose proof eta_tiny as T. pose proof eta64_pos as T0.
  set (g := fR (cp_gain p)) in *. set (w := (/ IZR N)%R) in *.
  assert (W : (w * IZR N = 1)%R) by (unfold w; field; lra).
  set (N' := IZR N) in *. clearbody w.
  assert (G : (- (/ 4503599627370496 * w) <= g - w <= / 4503599627370496 * w)%R).
  { apply abs_le in E. lra. }
  set (x := fR v) in *.
  assert (S : fin (fsub v (cp_off p)) = true /\ fR (fsub v (cp_off p)) = x).
  { destruct (fsub_Big v (cp_off p) Fv Fo) as [A B].
    - rewrite Ro, Rminus_0_r. apply (small_Big _ 1048576); [fold x|lra]. split; [exact Pv|nra].
    - split; [exact A|]. rewrite B, Ro, Rminus_0_r. apply rnd_fR. }
  destruct S as [Fs Rs].
  assert (D : (0 <= x / g /\ - / 2147483648 <= x / g - x * N' <= / 2147483648)%R).
  { assert (Pgg : (0 < g)%R) by exact Pg.
    assert (Pi : (0 < / g)%R) by now apply Rinv_0_lt_compat.
    split; [apply Rmult_le_pos; lra|].
    replace (x / g - x * N')%R with ((x * N') * ((w - g) / g))%R.
    2:{ replace ((x * N') * ((w - g) / g))%R with (x * (w * N') / g - x * N')%R by (field; lra).
        rewrite W. field. lra. }
    assert (K : (- / 2251799813685248 <= (w - g) / g <= / 2251799813685248)%R).
    { clearbody g. clear - G I Pgg. unfold Rdiv.
      split; apply Rmult_le_reg_r with g; try exact Pgg; rewrite (Rmult_assoc (w - g)), Rinv_l by lra; lra. }
    assert (X : (0 <= x * N' <= 1048576)%R) by (split; [apply Rmult_le_pos; lra|exact Hv]).
    set (y := (x * N')%R) in *. set (q := ((w - g) / g)%R) in *. clearbody y q. clear - K X. split; nra. }
  destruct D as [D0 D].
  destruct (fdiv_Big (fsub v (cp_off p)) (cp_gain p) Fs Fg) as (q & Eq & Fq & Rq).
  { fold g. lra. }
  { rewrite Rs. fold g. apply (small_Big _ 2000000); lra. }
  rewrite Rs in Rq. fold g in Rq. rewrite Eq. cbn [bind].
  pose proof (rnd_nonneg _ D0) as Q0.
  assert (F0 : fin (fz 0) = true) by (apply fz_fin; lia).
  rewrite fround_ok by now apply fmax_fin. rewrite fmax_R by assumption.
  rewrite Rq, fz_R by lia. rewrite Rmax_left by exact Q0.
  eexists. split; [reflexivity|].
  assert (B : (0 <= x / g <= 1048577)%R) by lra.
  pose proof (rnd_step _ _ B) as R.
  set (r := rnd (x / g)) in *. set (y := (x / g)%R) in *. set (z := (x * N')%R) in *.
  clearbody r y z. apply abs_le. lra.
Qed.
Lemma probe_to_raw p N v : 1 <= N <= 2 ^ 23 -> valid_pair p -> fR (cp_gain p) = rnd (/ IZR N) ->
  fR (cp_off p) = 0%R -> fin v = true -> (0 <= fR v)%R -> (fR v * IZR N <= 1048576)%R ->
  exists n, si_to_raw p v = Ok n /\ (Rabs (IZR n - fR v * IZR N) <= / 2 + / 1048576)%R.
Proof.
  intros HN HV Rg Ro Fv Pv Hv. destruct (probe_near p N v HN HV Rg Ro Fv Pv Hv) as (r & E & H). exists (ZnearestE r). split; [exact E|].
  pose proof (near_half r) as H2. set (n := IZR (ZnearestE r)) in *. clearbody n. apply abs_le in H. apply abs_le in H2. apply abs_le. lra.
Qed.

(** The code of the hardware is [y] cut off; the raw value of the calibration is [a] rounded. *)
Lemma codes_close n y a : (Rabs (IZR n - a) <= / 2 + / 1048576)%R -> (0 <= y)%R ->
  (- / 1048576 <= y - a <= 1 + / 1048576)%R -> Z.abs (n - Ztrunc y) <= 1.
Proof.
  intros H Py Hy. pose proof (trunc_bounds y Py) as T. apply abs_le in H.
  set (m := Ztrunc y) in *. clearbody m.
  assert (A : (IZR n - IZR m < IZR 2)%R) by (change (IZR 2) with 2%R; lra).
  assert (B : (IZR (-2) < IZR n - IZR m)%R) by (change (IZR (-2)) with (-2)%R; lra).
  rewrite <- minus_IZR in A, B. apply lt_IZR in A. apply lt_IZR in B. lia.
Qed.

Lemma default_dac v l p : from_fn dac_voltage_to_raw (Some "V"%string) = Ok p ->
  fin v = true -> (0 <= fR v <= 5)%R ->
  exists n m, si_to_raw p v = Ok n /\ dac_voltage_to_raw v l = Ok m /\ Z.abs (n - m) <= 1.
Proof.
  intros Hp Fv Hv.
  destruct (probe dac_voltage_to_raw (Some "V"%string) 13107 p) as (V & Rg & Ro & _);
    [vm_compute; reflexivity|vm_compute; reflexivity|lia|exact Hp|].
  destruct (probe_to_raw p 13107 v) as (n & En & Hn); [lia|exact V|exact Rg|exact Ro|exact Fv|lra|lra|].
  unfold dac_voltage_to_raw. destruct dac_ref as [Fc Ec]. destruct two16 as [F18 E18].
  set (x := fR v) in *.
  destruct (fmul_Big v (fz (2 ^ M_DAC)) Fv F18) as [Fm Rm].
  { rewrite E18. fold x. apply (small_Big _ 400000); lra. }
  rewrite E18 in Rm. fold x in Rm.
  assert (X : (0 <= x * 65536 <= 327680)%R) by lra.
  pose proof (rnd_step _ _ X) as R1. pose proof (rnd_nonneg _ (proj1 X)) as P1.
  pose proof eta_tiny as T. pose proof eta64_pos as T0.
  set (r1 := rnd (x * 65536)) in *.
  assert (Y : (0 <= r1 / 5 <= 65537)%R) by lra.
  destruct (fdiv_Big (fmul v (fz (2 ^ M_DAC))) (fmul V_REF_DAC (fz G_DAC)) Fm Fc) as (q & Eq & Fq & Rq).
  { rewrite Ec. lra. }
  { rewrite Ec, Rm. apply (small_Big _ 65537); lra. }
  rewrite Ec, Rm in Rq. rewrite Eq. cbn [bind]. rewrite fint_ok by exact Fq. cbn [bind]. rewrite Rq.
  pose proof (rnd_step _ _ Y) as R2. pose proof (rnd_nonneg _ (proj1 Y)) as P2.
  assert (U : (rnd (r1 / 5) <= 65536)%R).
  { apply rnd_le_Z; [lia|]. assert (r1 <= 327680)%R by (unfold r1; apply rnd_le_Z; [lia|lra]). lra. }
  set (r2 := rnd (r1 / 5)) in *. clearbody r1 r2.
  assert (C : Z.abs (n - Ztrunc r2) <= 1).
  { apply codes_close with (a := (x * 13107)%R); [exact Hn|exact P2|]. lra. }
  eexists n, _. split; [exact En|]. split; [reflexivity|].
  assert (U2 : Ztrunc r2 <= 65536) by (rewrite <- (Ztrunc_IZR 65536); now apply Ztrunc_le).
  pose proof (trunc_nonneg _ P2) as P3.
  assert (N : n <= 65536).
  { apply abs_le in Hn. assert (IZR n < IZR 65537)%R by lra. apply lt_IZR in H. lia. }
  unfold limit_code, M_DAC. destruct l; lia.
Qed.

Lemma default_adc_v v l p : from_fn adc_voltage_to_raw (Some "V"%string) = Ok p ->
  fin v = true -> (0 <= fR v <= 512 / 100)%R ->
  exists n m, si_to_raw p v = Ok n /\ adc_voltage_to_raw v l = Ok m /\ Z.abs (n - m) <= 1.
Proof.
  intros Hp Fv Hv.
  destruct (probe adc_voltage_to_raw (Some "V"%string) 51200 p) as (V & Rg & Ro & _);
    [vm_compute; reflexivity|vm_compute; reflexivity|lia|exact Hp|].
  destruct (probe_to_raw p 51200 v) as (n & En & Hn); [lia|exact V|exact Rg|exact Ro|exact Fv|lra|lra|].
  unfold adc_voltage_to_raw. destruct adc_ref as [Fc Ec]. destruct two18 as [F18 E18].
  set (x := fR v) in *.
  destruct (fmul_Big v (fz (2 ^ M_ADC)) Fv F18) as [Fm Rm].
  { rewrite E18. fold x. apply (small_Big _ 2000000); lra. }
  rewrite E18 in Rm. fold x in Rm.
  assert (X : (0 <= x * 262144 <= 1342178)%R) by lra.
  pose proof (rnd_step _ _ X) as R1. pose proof (rnd_nonneg _ (proj1 X)) as P1.
  pose proof eta_tiny as T. pose proof eta64_pos as T0.
  set (r1 := rnd (x * 262144)) in *.
  set (c := (5764607523034235 * / 1125899906842624)%R) in *.
  assert (HI : (/ c = 1125899906842624 / 5764607523034235)%R) by (unfold c; field).
  assert (Y : (0 <= r1 / c <= 262145)%R) by (unfold Rdiv; rewrite HI; lra).
  destruct (fdiv_Big (fmul v (fz (2 ^ M_ADC))) (fmul G_ADC_V V_REF_ADC) Fm Fc) as (q & Eq & Fq & Rq).
  { rewrite Ec. unfold c. lra. }
  { rewrite Ec, Rm. apply (small_Big _ 262145); lra. }
  rewrite Ec, Rm in Rq. rewrite Eq. cbn [bind]. rewrite fint_ok by exact Fq. cbn [bind]. rewrite Rq.
  pose proof (rnd_step _ _ Y) as R2. pose proof (rnd_nonneg _ (proj1 Y)) as P2.
  assert (U : (rnd (r1 / c) <= 262144)%R).
  { apply rnd_le_Z; [lia|].
    assert (R1' : (r1 <= IZR 5764607523034235 * bpow radix2 (-32))%R).
    { apply rnd_le_fmt; [apply fmt_scaled; lia|]. change (bpow radix2 (-32)) with (/ 4294967296)%R. lra. }
    change (bpow radix2 (-32)) with (/ 4294967296)%R in R1'. unfold Rdiv. rewrite HI. lra. }
  unfold Rdiv in R2. rewrite HI in R2. fold (r1 / c)%R in R2.
  set (r2 := rnd (r1 / c)) in *.
  assert (C : Z.abs (n - Ztrunc r2) <= 1).
  { apply codes_close with (a := (x * 51200)%R); [exact Hn|exact P2|].
    unfold Rdiv in R2. unfold r2, Rdiv. rewrite HI. lra. }
  eexists n, _. split; [exact En|]. split; [reflexivity|].
  assert (U2 : Ztrunc r2 <= 262144) by (rewrite <- (Ztrunc_IZR 262144); now apply Ztrunc_le).
  pose proof (trunc_nonneg _ P2) as P3.
  assert (N : n <= 262145).
  { lia. }
  unfold limit_code, M_ADC. destruct l; [|exact C].
  assert (n <= 262144).
  { apply abs_le in Hn. assert (IZR n < IZR 262145)%R by lra. apply lt_IZR in H. lia. }
  lia.
Qed.

Lemma default_adc_c v l p : from_fn adc_current_to_raw (Some "A"%string) = Ok p ->
  fin v = true -> (0 <= fR v <= 512 / 9600)%R ->
  exists n m, si_to_raw p v = Ok n /\ adc_current_to_raw v l = Ok m /\ Z.abs (n - m) <= 1.
Proof.
  intros Hp Fv Hv.
  destruct (probe adc_current_to_raw (Some "A"%string) 4915200 p) as (V & Rg & Ro & _);
    [vm_compute; reflexivity|vm_compute; reflexivity|lia|exact Hp|].
  destruct (probe_to_raw p 4915200 v) as (n & En & Hn); [lia|exact V|exact Rg|exact Ro|exact Fv|lra|lra|].
  unfold adc_current_to_raw. cbv zeta. change G_ADC_I with G_ADC_V.
  destruct adc_ref as [Fc Ec]. destruct two18 as [F18 E18]. destruct amp1 as [Fa Ea].
  set (x := fR v) in *. pose proof eta_tiny as T. pose proof eta64_pos as T0.
  destruct (fmul_Big (fmul (fz G_INST_AMP) R_SHT) v Fa Fv) as [F0 R0].
  { rewrite Ea. fold x. apply (small_Big _ 6); lra. }
  rewrite Ea in R0. fold x in R0.
  assert (W : (0 <= 96 * x <= 6)%R) by lra.
  pose proof (rnd_step _ _ W) as S0. pose proof (rnd_nonneg _ (proj1 W)) as P0.
  set (r0 := rnd (96 * x)) in *. clearbody r0.
  destruct (fmul_Big (fmul (fmul (fz G_INST_AMP) R_SHT) v) (fz (2 ^ M_ADC)) F0 F18) as [Fm Rm].
  { rewrite E18, R0. apply (small_Big _ 2000000); lra. }
  rewrite E18, R0 in Rm.
  assert (X : (0 <= r0 * 262144 <= 1342178)%R) by lra.
  pose proof (rnd_step _ _ X) as R1. pose proof (rnd_nonneg _ (proj1 X)) as P1.
  set (r1 := rnd (r0 * 262144)) in *. clearbody r1.
  set (c := (5764607523034235 * / 1125899906842624)%R) in *.
  assert (HI : (/ c = 1125899906842624 / 5764607523034235)%R) by (unfold c; field).
  assert (Y : (0 <= r1 / c <= 262145)%R) by (unfold Rdiv; rewrite HI; lra).
  destruct (fdiv_Big _ (fmul G_ADC_V V_REF_ADC) Fm Fc) as (q & Eq & Fq & Rq).
  { rewrite Ec. unfold c. lra. }
  { rewrite Ec, Rm. apply (small_Big _ 262145); lra. }
  rewrite Ec, Rm in Rq. rewrite Eq. cbn [bind]. rewrite fint_ok by exact Fq. cbn [bind]. rewrite Rq.
  pose proof (rnd_step _ _ Y) as R2. pose proof (rnd_nonneg _ (proj1 Y)) as P2.
  set (r2 := rnd (r1 / c)) in *. clearbody r2. unfold Rdiv in R2. rewrite HI in R2.
  assert (C : Z.abs (n - Ztrunc r2) <= 1).
  { apply codes_close with (a := (x * 4915200)%R); [exact Hn|exact P2|]. lra. }
  eexists n, _. split; [exact En|]. split; [reflexivity|].
  pose proof (trunc_bounds _ P2) as U2. pose proof (trunc_nonneg _ P2) as P3.
  assert (U3 : Ztrunc r2 < 262145).
  { apply lt_IZR. lra. }
  assert (N : n < 262145).
  { apply lt_IZR. apply abs_le in Hn. lra. }
  unfold limit_code, M_ADC. destruct l; lia.
Qed.

(** All three converters are part of the default calibration. *)
Lemma default_parts : exists h e d v c, default_hrv = Ok h /\ default_emu = Ok e
  /\ from_fn dac_voltage_to_raw (Some "V"%string) = Ok d
  /\ from_fn adc_voltage_to_raw (Some "V"%string) = Ok v
  /\ from_fn adc_current_to_raw (Some "A"%string) = Ok c
  /\ h = mkHrv d d v c /\ e = mkEmu d d c c.
Proof.
  unfold default_hrv, default_emu.
  assert (ID : is_ok (from_fn dac_voltage_to_raw (Some "V"%string)) = true) by (vm_compute; reflexivity).
  destruct (from_fn dac_voltage_to_raw (Some "V"%string)) as [d|] eqn:D; [clear ID|discriminate ID].
  assert (IW : is_ok (from_fn adc_voltage_to_raw (Some "V"%string)) = true) by (vm_compute; reflexivity).
  destruct (from_fn adc_voltage_to_raw (Some "V"%string)) as [v|] eqn:W; [clear IW|discriminate IW].
  assert (IC : is_ok (from_fn adc_current_to_raw (Some "A"%string)) = true) by (vm_compute; reflexivity).
  destruct (from_fn adc_current_to_raw (Some "A"%string)) as [c|] eqn:C; [clear IC|discriminate IC].
  do 5 eexists. repeat (split; [reflexivity|]). auto.
Qed.
