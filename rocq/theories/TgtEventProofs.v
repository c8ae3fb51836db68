(** Proofs about GPIO events. *)
From Coq Require Import ZArith Bool Reals Lia Lra Psatz List.
From Flocq Require Import Core IEEE754.BinarySingleNaN.
From Verif Require Import PyBase F64 F64x CfgModel CfgHrvProofs CfgSrcProofs TgtModel TgtSpec TgtProofs TgtDiodeProofs.
Import ListNotations.
Open Scope Z_scope.

Lemma fceil_R x : fin x = true -> fceil x = Zceil (fR x).
Proof.
  intros F. unfold fceil. destruct (Bnearbyint_correct 53 1024 eq_refl mode_UP x) as (A & _ & _).
  change (ftrunc (Bnearbyint mode_UP x) = Zceil (fR x)). rewrite ftrunc_R. unfold fR at 1.
  match goal with |- Ztrunc ?r = _ => replace r with (IZR (Zceil (fR x))) end; [apply Ztrunc_IZR|].
  etransitivity; [|symmetry; exact A]. unfold round, scaled_mantissa, cexp, FIX_exp, F2R. cbn [Fnum Fexp].
  change (Z.opp 0) with 0. change (bpow radix2 0) with 1%R. rewrite !Rmult_1_r. reflexivity.
Qed.

Lemma len_ok start stop step d q : fsub stop start = d -> fdiv d step = Ok q -> fin q = true -> (0 < fR q < 1000000)%R ->
  arange_len start stop step = Ok (Zceil (fR q)).
Proof.
  intros D Q F H. unfold arange_len. rewrite D, Q. cbn [bind]. destruct fz0 as [F0 R0].
  assert (E : feq q (fz 0) = false) by (apply feq_R_false; auto; rewrite R0; lra). rewrite E. cbn [andb]. rewrite F.
  rewrite fceil_R by exact F.
  assert (L : 0 <= Zceil (fR q)) by (apply le_IZR; pose proof (Zceil_ub (fR q)); lra).
  assert (U : Zceil (fR q) <= 1000000) by (apply Zceil_glb; lra).
  destruct (- 2 ^ 63 <=? Zceil (fR q)) eqn:A; [|apply Z.leb_gt in A; lia].
  destruct (Zceil (fR q) <? 2 ^ 63) eqn:B; [reflexivity|apply Z.ltb_ge in B; lia].
Qed.

Lemma arange_spec start stop step n : arange_len start stop step = Ok n -> 0 <= n ->
  exists l, arange start stop step = Ok l /\ Z.of_nat (List.length l) = n
    /\ forall k, (k < Z.to_nat n)%nat -> nth k l (fz 0) = arange_at start step (Z.of_nat k).
Proof.
  intros E H. unfold arange. rewrite E. cbn [bind]. eexists. split; [reflexivity|]. rewrite map_length, seq_length. split; [lia|].
  intros k Hk. set (f := fun k => arange_at start step (Z.of_nat k)). set (z := fz 0). clearbody z.
  rewrite (nth_indep _ z (f 0%nat)) by (rewrite map_length, seq_length; exact Hk). rewrite map_nth, seq_nth by exact Hk. reflexivity.
Qed.

(** ** Exact case *)
Lemma fmul_exact x y z : fin x = true -> fin y = true -> (fR x * fR y = z)%R -> fmt z -> (Rabs z <= Big)%R -> fin (fmul x y) = true /\ fR (fmul x y) = z.
Proof. intros A B E F G. destruct (fmul_Big x y A B) as [C D]; [now rewrite E|]. split; [exact C|]. now rewrite D, E, rnd_id. Qed.
Lemma fadd_exact x y z : fin x = true -> fin y = true -> (fR x + fR y = z)%R -> fmt z -> (Rabs z <= Big)%R -> fin (fadd x y) = true /\ fR (fadd x y) = z.
Proof. intros A B E F G. destruct (fadd_Big x y A B) as [C D]; [now rewrite E|]. split; [exact C|]. now rewrite D, E, rnd_id. Qed.
Lemma fsub_exact x y z : fin x = true -> fin y = true -> (fR x - fR y = z)%R -> fmt z -> (Rabs z <= Big)%R -> fin (fsub x y) = true /\ fR (fsub x y) = z.
Proof. intros A B E F G. destruct (fsub_Big x y A B) as [C D]; [now rewrite E|]. split; [exact C|]. now rewrite D, E, rnd_id. Qed.

Lemma scaled_fmt m j : 0 <= m <= 2 ^ 53 -> 0 <= j <= 1000 -> fmt (IZR m * bpow radix2 (- j)) /\ (Rabs (IZR m * bpow radix2 (- j)) <= Big)%R.
Proof.
  intros Hm Hj. split; [apply fmt_scaled; lia|].
  assert (P : (0 <= IZR m <= bpow radix2 53)%R).
  { split; [apply IZR_le; lia|]. change (bpow radix2 53) with (IZR (2 ^ 53)). apply IZR_le. lia. }
  assert (B : (0 < bpow radix2 (- j) <= 1)%R) by (split; [apply bpow_gt_0|change 1%R with (bpow radix2 0); apply bpow_le; lia]).
  apply (le_Big _ 53); [lia|]. split; [apply Rmult_le_pos; lra|]. rewrite <- (Rmult_1_r (bpow radix2 53)). apply Rmult_le_compat; lra.
Qed.

Lemma valid_event_inv e : valid_event e = true ->
  fin (ev_delay e) = true /\ (0 < fR (ev_delay e))%R /\ fin (ev_period e) = true /\ (/ 100000 <= fR (ev_period e))%R /\ 1 <= ev_count e <= 4096.
Proof.
  unfold valid_event, in_rangeZ. rewrite !andb_true_iff. intros ((((A & B) & C) & D) & E & G). destruct fz0 as [F0 R0].
  assert (K : fin (fdec 1 5) = true /\ (/ 100000 <= fR (fdec 1 5))%R).
  { destruct (cst (fdec 1 5) 5902958103587057 (-69)) as [X Y]; [vm_compute; reflexivity|]. split; [exact X|]. rewrite Y.
    change (bpow radix2 (-69)) with (/ 590295810358705651712)%R. lra. }
  destruct K as [K1 K2]. apply flt_R in B; auto. apply fle_R in D; auto. rewrite R0 in B.
  apply Z.leb_le in E, G. repeat split; auto; lra || lia.
Qed.

Theorem events_exact e : valid_event e = true -> binary_times e ->
  exists l, get_events e = Ok l /\ Z.of_nat (List.length l) = ev_count e
    /\ forall k, (k < List.length l)%nat -> fin (nth k l (fz 0)) = true /\ fR (nth k l (fz 0)) = event_time e (Z.of_nat k).
Proof.
  intros V (a & b & j & HA & HB & Hj & Ha & Hb & HN). destruct (valid_event_inv e V) as (FD & PD & FP & PP & HC).
  destruct e as [d p n]. cbn [ev_delay ev_period ev_count] in *.
  assert (M1 : n * b <= 2 ^ 53) by nia. assert (M2 : a + n * b <= 2 ^ 53) by nia. assert (M3 : b <= 2 ^ 53) by nia. assert (M4 : a <= 2 ^ 53) by nia.
  destruct (fz_ok n) as [Fn Rn]; [lia|]. pose proof (bpow_gt_0 radix2 (- j)) as PJ. set (s := bpow radix2 (- j)) in *.
  assert (SF : forall m, 0 <= m <= 2 ^ 53 -> fmt (IZR m * s) /\ (Rabs (IZR m * s) <= Big)%R) by (intros; now apply scaled_fmt).
  destruct (SF (n * b)) as [S1 S2]; [nia|]. destruct (SF (a + n * b)) as [S3 S4]; [nia|]. destruct (SF (a + b)) as [S5 S6]; [nia|]. destruct (SF b) as [S7 S8]; [nia|].
  destruct (fmul_exact (fz n) p (IZR (n * b) * s) Fn FP) as [X1 X2]; [rewrite Rn, HB, mult_IZR; ring|exact S1|exact S2|].
  destruct (fadd_exact d (fmul (fz n) p) (IZR (a + n * b) * s) FD X1) as [Y1 Y2]; [rewrite HA, X2, plus_IZR; ring|exact S3|exact S4|].
  unfold get_events. cbn [ev_delay ev_period ev_count]. set (stop := fadd d (fmul (fz n) p)) in *. clearbody stop.
  destruct (fsub_exact stop d (IZR (n * b) * s) Y1 FD) as [Z1 Z2]; [rewrite HA, Y2, plus_IZR; ring|exact S1|exact S2|].
  assert (Pb : (0 < IZR b)%R) by (apply IZR_lt; lia).
  assert (Q : (fR (fsub stop d) / fR p = IZR n)%R) by (rewrite Z2, HB, mult_IZR; field; lra).
  assert (Hn : (1 <= IZR n <= 4096)%R) by (split; apply IZR_le; lia).
  destruct (fdiv_Big (fsub stop d) p Z1 FP) as (q & EQ & FQ & RQ); [lra|rewrite Q; apply (le_Big _ 20); [lia|change (bpow radix2 20) with 1048576%R; lra]|].
  rewrite Q, rnd_IZR in RQ by lia.
  assert (L : arange_len d stop p = Ok n).
  { rewrite (len_ok d stop p _ q eq_refl EQ FQ) by (rewrite RQ; lra). rewrite RQ. now rewrite Zceil_IZR. }
  destruct (arange_spec d stop p n L) as (l & E1 & E2 & E3); [lia|]. exists l. split; [exact E1|]. split; [exact E2|].
  intros k Hk. rewrite E3 by lia. unfold event_time. cbn [ev_delay ev_period]. clear E1 E3.
  set (K := Z.of_nat k). assert (HK : 0 <= K < n) by lia. unfold arange_at.
  destruct (fadd_exact d p (IZR (a + b) * s) FD FP) as [A1 A2]; [rewrite HA, HB, plus_IZR; ring|exact S5|exact S6|].
  destruct (K =? 0) eqn:G0; [apply Z.eqb_eq in G0; rewrite G0; split; [exact FD|lra]|].
  destruct (K =? 1) eqn:G1; [apply Z.eqb_eq in G1; rewrite G1; split; [exact A1|rewrite A2, HA, HB, plus_IZR; lra]|].
  destruct (fsub_exact (fadd d p) d (IZR b * s) A1 FD) as [B1 B2]; [rewrite HA, A2, plus_IZR; ring|exact S7|exact S8|].
  destruct (fz_ok K) as [FK RK]; [lia|]. destruct (SF (K * b)) as [S9 S10]; [nia|]. destruct (SF (a + K * b)) as [S11 S12]; [nia|].
  destruct (fmul_exact (fz K) _ (IZR (K * b) * s) FK B1) as [C1 C2]; [rewrite RK, B2, mult_IZR; ring|exact S9|exact S10|].
  destruct (fadd_exact d _ (IZR (a + K * b) * s) FD C1) as [D1 D2]; [rewrite HA, C2, plus_IZR; ring|exact S11|exact S12|].
  split; [exact D1|]. rewrite D2, HA, HB, plus_IZR, mult_IZR. ring.
Qed.

(** ** General case: at most one event too many, and every event close to its time *)
Theorem events_close e : valid_event e = true ->
  (fR (ev_period e) <= bpow radix2 900)%R -> (fR (ev_delay e) <= bpow radix2 40 * fR (ev_period e))%R ->
  exists l, get_events e = Ok l
    /\ (Z.of_nat (List.length l) = ev_count e \/ Z.of_nat (List.length l) = ev_count e + 1)
    /\ forall k, (k < List.length l)%nat -> fin (nth k l (fz 0)) = true
         /\ (Rabs (fR (nth k l (fz 0)) - event_time e (Z.of_nat k))
               <= (IZR (Z.of_nat k) + 1) * (fR (ev_delay e) + fR (ev_period e)) * bpow radix2 (-50))%R.
Proof.
  intros V HP HD. destruct (valid_event_inv e V) as (FD & PD & FP & PP & HC).
  destruct e as [d p n]. cbn [ev_delay ev_period ev_count] in *. unfold event_time, get_events. cbn [ev_delay ev_period ev_count].
  change (bpow radix2 40) with 1099511627776%R in HD. change (bpow radix2 (-50)) with (/ 1125899906842624)%R.
  destruct (fz_ok n) as [Fn Rn]; [lia|]. assert (Hn : (1 <= IZR n <= 4096)%R) by (split; apply IZR_le; lia).
  set (D := fR d) in *. set (P := fR p) in *.
  assert (BIG : forall r, (0 <= r <= 1152921504606846976 * P)%R -> (Rabs r <= Big)%R).
  { intros r Hr. apply (le_Big _ 960); [lia|]. split; [lra|]. change 960 with (60 + 900). rewrite bpow_plus.
    change (bpow radix2 60) with 1152921504606846976%R. lra. }
  assert (REL : forall r, (P / 2 <= r)%R -> (r * (1 - / 4503599627370496) <= rnd r <= r * (1 + / 4503599627370496))%R).
  { intros r Hr. assert (K : (bpow radix2 (-900) <= Rabs r)%R) by (rewrite Rabs_pos_eq by lra; apply tiny_le; lra).
    apply rnd_rel in K. rewrite (Rabs_pos_eq r) in K by lra. apply Rabs_le_inv in K. lra. }
  assert (NP : (P <= IZR n * P <= 4096 * P)%R) by nra.
  destruct (fmul_Big (fz n) p Fn FP) as [X1 X2]; [rewrite Rn; fold P; apply BIG; lra|]. rewrite Rn in X2. fold P in X2.
  pose proof (REL (IZR n * P)%R ltac:(lra)) as XR. rewrite <- X2 in XR. set (np := fmul (fz n) p) in *. clearbody np. clear X2.
  destruct (fadd_Big d np FD X1) as [Y1 Y2]; [fold D; apply BIG; lra|]. fold D in Y2.
  pose proof (REL (D + fR np)%R ltac:(lra)) as YR. rewrite <- Y2 in YR. set (stop := fadd d np) in *. clearbody stop. clear Y2.
  set (NPr := (IZR n * P)%R) in *.
  assert (SD : (NPr - P * / 1024 <= fR stop - D <= NPr + P * / 1024)%R) by lra.
  destruct (fsub_Big stop d Y1 FD) as [Z1 Z2]; [fold D; apply BIG; lra|]. fold D in Z2.
  pose proof (REL (fR stop - D)%R ltac:(lra)) as ZR. rewrite <- Z2 in ZR.
  assert (DD : (NPr - P * / 512 <= fR (fsub stop d) <= NPr + P * / 512)%R) by lra. clear ZR Z2.
  assert (QQ : (IZR n - / 512 <= fR (fsub stop d) / P <= IZR n + / 512)%R).
  { assert (0 < / P)%R by (apply Rinv_0_lt_compat; lra). unfold Rdiv.
    replace (IZR n - / 512)%R with ((NPr - P * / 512) * / P)%R by (unfold NPr; field; lra).
    replace (IZR n + / 512)%R with ((NPr + P * / 512) * / P)%R by (unfold NPr; field; lra).
    split; apply Rmult_le_compat_r; lra. }
  destruct (fdiv_Big (fsub stop d) p Z1 FP) as (q & EQ & FQ & RQ); [fold P; lra|fold P; apply (le_Big _ 20); [lia|change (bpow radix2 20) with 1048576%R; lra]|].
  fold P in RQ.
  assert (QR : (IZR n - / 2 <= fR q <= IZR n + / 2)%R).
  { pose proof (rnd_err (fR (fsub stop d) / P)) as K. rewrite <- RQ, (Rabs_pos_eq (fR (fsub stop d) / P)), u64_val in K by lra. apply Rabs_le_inv in K.
    pose proof (eta_bpow 0 ltac:(lia)) as E0. change (bpow radix2 0) with 1%R in E0. lra. }
  assert (L : arange_len d stop p = Ok (Zceil (fR q))) by (apply (len_ok d stop p _ q eq_refl EQ FQ); lra).
  assert (C1 : n <= Zceil (fR q)) by (apply le_IZR; pose proof (Zceil_ub (fR q)) as K;
     destruct (Z_lt_le_dec (Zceil (fR q)) n) as [G|G]; [exfalso; assert (IZR (Zceil (fR q)) <= IZR n - 1)%R by (rewrite <- minus_IZR; apply IZR_le; lia); lra|apply IZR_le; lia]).
  assert (C2 : Zceil (fR q) <= n + 1) by (apply Zceil_glb; rewrite plus_IZR; lra).
  destruct (arange_spec d stop p _ L) as (l & E1 & E2 & E3); [lia|]. exists l. split; [exact E1|]. split; [lia|].
  intros k Hk. rewrite E3 by lia. clear E1 E3. set (K := Z.of_nat k). assert (HK : 0 <= K <= n) by lia.
  assert (HKR : (0 <= IZR K <= 4096)%R) by (split; apply IZR_le; lia).
  clear L C1 C2 QR RQ EQ QQ DD Z1 SD YR XR.
  destruct (fadd_Big d p FD FP) as [A1 A2]; [fold D P; apply BIG; lra|]. fold D P in A2.
  pose proof (rnd_add_err D P (fmt_fR _) (fmt_fR _)) as AR. rewrite <- A2, (Rabs_pos_eq (D + P)), u64_val in AR by lra. apply Rabs_le_inv in AR.
  unfold arange_at. destruct (K =? 0) eqn:G0.
  { apply Z.eqb_eq in G0. rewrite G0. split; [exact FD|]. fold D. replace (D - (D + 0 * P))%R with 0%R by ring. rewrite Rabs_R0. lra. }
  destruct (K =? 1) eqn:G1.
  { apply Z.eqb_eq in G1. rewrite G1. split; [exact A1|]. apply Rabs_le. lra. }
  apply Z.eqb_neq in G0, G1. assert (HK2 : (2 <= IZR K)%R) by (apply IZR_le; lia).
  assert (DP : (D + P <= 1099511627777 * P)%R) by lra.
  destruct (fsub_Big (fadd d p) d A1 FD) as [B1 B2]; [fold D; apply BIG; lra|]. fold D in B2.
  pose proof (REL (fR (fadd d p) - D)%R ltac:(lra)) as BR. rewrite <- B2 in BR. set (st := fsub (fadd d p) d) in *. clearbody st.
  assert (BQ : (P - 4 * (D + P) * / 9007199254740992 <= fR st <= P + 4 * (D + P) * / 9007199254740992)%R) by lra. clear BR B2 AR A2.
  destruct (fz_ok K) as [FK RK]; [lia|].
  assert (KB : (IZR K * P - IZR K * (4 * (D + P) * / 9007199254740992) <= IZR K * fR st <= IZR K * P + IZR K * (4 * (D + P) * / 9007199254740992))%R).
  { rewrite <- Rmult_minus_distr_l, <- Rmult_plus_distr_l. split; apply Rmult_le_compat_l; lra. }
  assert (KP : (P <= IZR K * P <= 4096 * P)%R) by nra.
  set (Q := (IZR K * (D + P))%R).
  assert (HQ : (2 * (D + P) <= Q <= 4096 * (D + P))%R) by (unfold Q; nra).
  assert (KE : (IZR K * (4 * (D + P) * / 9007199254740992) = 4 * Q * / 9007199254740992)%R) by (unfold Q; field). rewrite KE in KB.
  assert (QP : (Q <= 1099511627777 * (IZR K * P))%R).
  { unfold Q. replace (1099511627777 * (IZR K * P))%R with (IZR K * (1099511627777 * P))%R by ring. apply Rmult_le_compat_l; lra. }
  set (KPr := (IZR K * P)%R) in *. set (Kst := (IZR K * fR st)%R) in *.
  assert (KST : (0 <= Kst <= 5000 * P)%R) by lra.
  destruct (fmul_Big (fz K) st FK B1) as [M1 M2]; [rewrite RK; fold Kst; apply BIG; lra|]. rewrite RK in M2. fold Kst in M2.
  assert (KS2 : (P / 2 <= Kst)%R) by lra. pose proof (REL Kst KS2) as MR. rewrite <- M2 in MR. set (ks := fmul (fz K) st) in *. clearbody ks. clear M2.
  destruct (fadd_Big d ks FD M1) as [N1 N2]; [fold D; apply BIG; lra|]. fold D in N2.
  pose proof (rnd_add_err D (fR ks) (fmt_fR _) (fmt_fR _)) as NR. rewrite <- N2, (Rabs_pos_eq (D + fR ks)), u64_val in NR by lra. apply Rabs_le_inv in NR.
  split; [exact N1|]. apply Rabs_le.
  assert (QK : (KPr <= Q)%R) by (unfold KPr, Q; apply Rmult_le_compat_l; lra).
  replace ((IZR K + 1) * (D + P))%R with (Q + (D + P))%R by (unfold Q; ring).
  clearbody KPr Kst Q. lra.
Qed.
