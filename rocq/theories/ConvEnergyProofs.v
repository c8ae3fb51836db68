(** Proofs about the converter: the energy in the storage. *)
From Coq Require Import ZArith Bool Reals Lia Lra Psatz List.
From Flocq Require Import Core IEEE754.BinarySingleNaN.
From Verif Require Import PyBase F64 F64x CalModel CalSpec CalProofs CalHwProofs ConvModel ConvSpec ConvProofs ConvStepProofs ConvRunProofs ConvSrcProofs.
Import ListNotations.
Open Scope Z_scope.

(** The change of voltage, times the voltage, is the balance of the powers up to rounding. *)
Lemma euler V pi po k : (1 <= V)%R -> (0 <= k <= 16)%R ->
  (Rabs (V * (charged V pi po k - V) - k * (pi - po)) <= / 1125899906842624 * (V * V + k * Rabs (pi - po)))%R.
Proof.
  intros HV Hk. unfold charged. rewrite Rmax_right by exact HV. set (P := (pi - po)%R).
  pose proof eta_tiny as T. pose proof eta64_pos as T0.
  pose proof (rnd_err P) as E0. set (d0 := rnd P) in *. rewrite u64_val in E0.
  pose proof (rnd_err (d0 / V)) as E1. set (d1 := rnd (d0 / V)) in *. rewrite u64_val in E1.
  pose proof (rnd_err (d1 * k)) as E2. set (d2 := rnd (d1 * k)) in *. rewrite u64_val in E2.
  pose proof (rnd_err (V + d2)) as E3. set (d3 := rnd (V + d2)) in *. rewrite u64_val in E3.
  clearbody d0 d1 d2 d3 P. set (u := (/ 9007199254740992)%R) in *.
  assert (U : (u = / 9007199254740992)%R) by reflexivity. clearbody u. set (h := eta64) in *. clearbody h.
  set (A := Rabs P) in *. assert (PA : (0 <= A)%R) by apply Rabs_pos.
  (* magnitudes *)
  assert (M0 : (Rabs d0 <= (1 + u) * A + h)%R).
  { replace d0 with (P + (d0 - P))%R by ring. eapply Rle_trans; [apply Rabs_triang|]. fold A. lra. }
  assert (F1 : (V * Rabs (d0 / V) = Rabs d0)%R).
  { unfold Rdiv. rewrite Rabs_mult, (Rabs_pos_eq (/ V)) by (apply Rlt_le, Rinv_0_lt_compat; lra). field. lra. }
  assert (M1 : (V * Rabs d1 <= (1 + u) * Rabs d0 + V * h)%R).
  { assert (Rabs d1 <= (1 + u) * Rabs (d0 / V) + h)%R.
    { replace d1 with (d0 / V + (d1 - d0 / V))%R by ring. eapply Rle_trans; [apply Rabs_triang|]. lra. }
    apply Rle_trans with (V * ((1 + u) * Rabs (d0 / V) + h))%R; [apply Rmult_le_compat_l; lra|].
    replace (V * ((1 + u) * Rabs (d0 / V) + h))%R with ((1 + u) * (V * Rabs (d0 / V)) + V * h)%R by ring. rewrite F1. lra. }
  assert (F2 : (Rabs (d1 * k) = Rabs d1 * k)%R) by (rewrite Rabs_mult, (Rabs_pos_eq k) by lra; reflexivity).
  rewrite F2 in E2.
  assert (M2 : (V * Rabs d2 <= (1 + u) * (V * Rabs d1 * k) + V * h)%R).
  { assert (Rabs d2 <= (1 + u) * (Rabs d1 * k) + h)%R.
    { replace d2 with (d1 * k + (d2 - d1 * k))%R by ring. eapply Rle_trans; [apply Rabs_triang|]. rewrite F2. lra. }
    apply Rle_trans with (V * ((1 + u) * (Rabs d1 * k) + h))%R; [apply Rmult_le_compat_l; lra|]. lra. }
  (* split *)
  replace (V * (d3 - V) - k * P)%R with (V * (d3 - (V + d2)) + V * (d2 - d1 * k) + k * (V * (d1 - d0 / V)) + k * (d0 - P))%R
    by (field; lra).
  assert (S0 : (Rabs (k * (d0 - P)) <= k * (u * A + h))%R).
  { rewrite Rabs_mult, (Rabs_pos_eq k) by lra. apply Rmult_le_compat_l; [lra|exact E0]. }
  assert (S1 : (Rabs (k * (V * (d1 - d0 / V))) <= k * (u * Rabs d0 + V * h))%R).
  { rewrite Rabs_mult, (Rabs_pos_eq k), Rabs_mult, (Rabs_pos_eq V) by lra. apply Rmult_le_compat_l; [lra|].
    apply Rle_trans with (V * (u * Rabs (d0 / V) + h))%R; [apply Rmult_le_compat_l; lra|].
    replace (V * (u * Rabs (d0 / V) + h))%R with (u * (V * Rabs (d0 / V)) + V * h)%R by ring. rewrite F1. lra. }
  assert (S2 : (Rabs (V * (d2 - d1 * k)) <= u * (V * Rabs d1 * k) + V * h)%R).
  { rewrite Rabs_mult, (Rabs_pos_eq V) by lra. apply Rle_trans with (V * (u * (Rabs d1 * k) + h))%R; [apply Rmult_le_compat_l; lra|lra]. }
  assert (S3 : (Rabs (V * (d3 - (V + d2))) <= u * (V * V + V * Rabs d2) + V * h)%R).
  { rewrite Rabs_mult, (Rabs_pos_eq V) by lra. pose proof (Rabs_triang V d2) as TR. rewrite (Rabs_pos_eq V) in TR by lra.
    apply Rle_trans with (V * (u * (V + Rabs d2) + h))%R; [apply Rmult_le_compat_l; [lra|]|lra].
    eapply Rle_trans; [exact E3|]. assert (0 <= u)%R by lra. assert (u * Rabs (V + d2) <= u * (V + Rabs d2))%R by (apply Rmult_le_compat_l; lra). lra. }
  eapply Rle_trans; [apply Rabs_triang|]. eapply Rle_trans; [apply Rplus_le_compat_r, Rabs_triang|].
  eapply Rle_trans; [apply Rplus_le_compat_r, Rplus_le_compat_r, Rabs_triang|].
  set (a0 := Rabs d0) in *. set (a1 := (V * Rabs d1)%R) in *. set (a2 := (V * Rabs d2)%R) in *.
  assert (VV : (V <= V * V)%R) by nra. set (W := (V * V)%R) in *.
  assert (VH : (0 <= V * h <= W * h)%R) by (split; [apply Rmult_le_pos; lra|apply Rmult_le_compat_r; lra]).
  set (v := (V * h)%R) in *.
  assert (WH : (W * h <= W * / 1267650600228229401496703205376)%R) by (apply Rmult_le_compat_l; lra).
  assert (W1 : (1 <= W)%R) by lra. clearbody v.
  assert (K0 : (k * a0 <= (1 + u) * (k * A) + 16 * h)%R).
  { apply Rle_trans with (k * ((1 + u) * A + h))%R; [apply Rmult_le_compat_l; lra|]. assert (k * h <= 16 * h)%R by (apply Rmult_le_compat_r; lra). lra. }
  assert (K1 : (a1 * k <= (1 + u) * (k * a0) + 16 * v)%R).
  { apply Rle_trans with (((1 + u) * a0 + v) * k)%R; [apply Rmult_le_compat_r; lra|]. assert (v * k <= 16 * v)%R by (rewrite Rmult_comm; apply Rmult_le_compat_r; lra). lra. }
  assert (KA : (0 <= k * A)%R) by (apply Rmult_le_pos; lra). assert (A0 : (0 <= a0)%R) by apply Rabs_pos.
  assert (KA0 : (0 <= k * a0)%R) by (apply Rmult_le_pos; lra).
  assert (A1 : (0 <= a1 * k)%R) by (apply Rmult_le_pos; [apply Rmult_le_pos; [lra|apply Rabs_pos]|lra]).
  assert (KH : (k * h <= 16 * h)%R) by (apply Rmult_le_compat_r; lra).
  assert (KV : (k * v <= 16 * v)%R) by (apply Rmult_le_compat_r; lra).
  clear - S0 S1 S2 S3 K0 K1 KA KA0 A1 KH KV VH WH W1 M2 U T T0.
  rewrite !Rmult_plus_distr_l in *. 
  assert (X0 : (k * (u * A) = u * (k * A))%R) by ring. assert (X1 : (k * (u * a0) = u * (k * a0))%R) by ring.
  rewrite X0 in S0. rewrite X1 in S1.
  set (p := (k * A)%R) in *. set (q := (k * a0)%R) in *. set (r := (a1 * k)%R) in *. subst u. 
  set (z0 := (k * h)%R) in *. set (z1 := (k * v)%R) in *. clearbody p q r z0 z1 W a2. 
  set (b0 := Rabs _) in *. set (b1 := Rabs (k * (V * _))) in *. set (b2 := Rabs (V * (d2 - d1 * k))) in *. set (b3 := Rabs (k * _)) in *. clearbody b0 b1 b2 b3.
  assert (WH2 : (h <= W * h)%R) by nra. set (wh := (W * h)%R) in *. clearbody wh. lra.
Qed.

(** One step of a simulation away from the limits of the storage. *)
Theorem storage_energy c cal xs x s0 s1 s2 s3 : valid_ccfg c -> bounded_cal cal -> has_storage c -> calls c cal xs x s0 s1 s2 s3 ->
  let k := (IZR (Constant_us_per_nF_n28 c) / 268435456)%R in
  let V := fR (V_mid s0) in let V' := fR (V_mid s3) in let P := (fR (P_inp s1) - fR (P_out s2))%R in
  (1 <= V)%R -> (1 < V' < IZR (V_intermediate_max_uV c))%R ->
  (Rabs (V' * V' - V * V - (2 * k * P + (V' - V) * (V' - V))) <= / 562949953421312 * (V * V + k * Rabs P))%R.
Proof.
  intros VC Hb St (n1 & n2 & n3 & H0 & H1 & H2 & H3). cbv zeta. intros L1 L2.
  destruct (storage_step c VC cal xs x s0 s1 n1 s2 n2 s3 n3 Hb H0 H1 H2 H3) as (_ & _ & B & _). specialize (B St).
  change V_next with charged in B.
  assert (Hk : (0 <= IZR (Constant_us_per_nF_n28 c) / 268435456 <= 16)%R).
  { assert (u32 (Constant_us_per_nF_n28 c)) as [K1 K2] by apply VC. apply IZR_le in K1. apply IZR_lt in K2. change (IZR (2 ^ 32)) with 4294967296%R in K2. lra. }
  pose proof (euler (fR (V_mid s0)) (fR (P_inp s1)) (fR (P_out s2)) _ L1 Hk) as E.
  set (k := (IZR (Constant_us_per_nF_n28 c) / 268435456)%R) in *. set (V := fR (V_mid s0)) in *. set (V' := fR (V_mid s3)) in *.
  set (w := charged V (fR (P_inp s1)) (fR (P_out s2)) k) in *.
  assert (EQ : V' = w).
  { revert B L2. unfold Rmax, Rmin. destruct (Rle_dec w _); destruct (Rle_dec _ 1); intros; lra. }
  rewrite <- EQ in E. set (P := (fR (P_inp s1) - fR (P_out s2))%R) in *.
  replace (V' * V' - V * V - (2 * k * P + (V' - V) * (V' - V)))%R with (2 * (V * (V' - V) - k * P))%R by ring.
  rewrite Rabs_mult, (Rabs_pos_eq 2) by lra. set (r := Rabs (V * _ - _)) in *. set (q := (V * V + k * Rabs P)%R) in *. clearbody r q. lra.
Qed.
