(** Proofs about the byte representation of a cape calibration. *)
From Coq Require Import ZArith Bool Reals Lia Lra String List.
From Flocq Require Import Core IEEE754.BinarySingleNaN IEEE754.Binary IEEE754.Bits.
From Verif Require Import PyBase F64 CalModel CalSpec.
Import ListNotations.
Open Scope Z_scope.

(* ------------------------------------------------------------------ words and bytes *)

Lemma be_word_app a b : be_word (a ++ [b]) = be_word a * 256 + b.
Proof. unfold be_word. now rewrite fold_left_app. Qed.

Lemma be_bytes_length n : forall w, List.length (be_bytes n w) = n.
Proof. induction n as [|n IH]; intros w; cbn; [reflexivity|]. rewrite app_length, IH. cbn. lia. Qed.

Lemma be_bytes_range n : forall w, bytes (be_bytes n w).
Proof.
  induction n as [|n IH]; intros w; cbn; [constructor|]. apply Forall_app. split; [apply IH|].
  constructor; [|constructor]. apply Z.mod_pos_bound. lia.
Qed.

Lemma be_word_bytes n : forall w, 0 <= w < 256 ^ Z.of_nat n -> be_word (be_bytes n w) = w.
Proof.
  induction n as [|n IH]; intros w H.
  - change (256 ^ Z.of_nat 0) with 1 in H. cbn. lia.
  - cbn [be_bytes]. rewrite be_word_app, IH.
    + pose proof (Z.div_mod w 256). lia.
    + rewrite Nat2Z.inj_succ, Z.pow_succ_r in H by lia. split; [apply Z.div_pos; lia|].
      apply Z.div_lt_upper_bound; lia.
Qed.

Lemma be_word_range l : bytes l -> 0 <= be_word l < 256 ^ Z.of_nat (List.length l).
Proof.
  induction l as [|b l IH] using rev_ind; intros H.
  - cbn. lia.
  - apply Forall_app in H. destruct H as [Hl Hb]. inversion Hb as [|? ? Hb' _]; subst.
    rewrite be_word_app, app_length, Nat2Z.inj_add. cbn [List.length]. change (Z.of_nat 1) with 1.
    rewrite Z.pow_add_r by lia. change (256 ^ 1) with 256. specialize (IH Hl). nia.
Qed.

Lemma be_bytes_word l : bytes l -> be_bytes (List.length l) (be_word l) = l.
Proof.
  induction l as [|b l IH] using rev_ind; intros H; [reflexivity|].
  apply Forall_app in H. destruct H as [Hl Hb]. inversion Hb as [|? ? Hb' _]; subst.
  rewrite app_length, Nat.add_1_r. cbn [be_bytes]. rewrite be_word_app.
  rewrite Z.div_add_l by lia. rewrite (Z.div_small b 256) by lia. rewrite Z.add_0_r, IH by exact Hl.
  f_equal. f_equal. rewrite Z.add_comm, Z.mod_add by lia. apply Z.mod_small. lia.
Qed.

Lemma word_range x : 0 <= word_of x < 2 ^ 64.
Proof. unfold word_of, bits_of_b64. apply (bits_of_binary_float_range 52 11); reflexivity. Qed.

Lemma of_word_of x : of_word (word_of x) = x.
Proof.
  unfold of_word, word_of, b64_of_bits, bits_of_b64.
  rewrite binary_float_of_bits_of_binary_float. apply B2BSN_BSN2B.
Qed.

Lemma BSN2B_B2BSN nan x : Binary.is_nan 53 1024 x = false -> BSN2B 53 1024 nan (B2BSN 53 1024 x) = x.
Proof. destruct x; cbn; intros H; try reflexivity. discriminate. Qed.

Lemma word_of_of w : 0 <= w < 2 ^ 64 -> fin (of_word w) = true -> word_of (of_word w) = w.
Proof.
  intros H F. unfold of_word, word_of, b64_of_bits, bits_of_b64 in *.
  rewrite BSN2B_B2BSN.
  - apply bits_of_binary_float_of_bits. exact H.
  - rewrite is_finite_B2BSN in F. destruct (binary_float_of_bits _ _ _ _ _ w); cbn in *; try reflexivity. discriminate.
Qed.

Lemma pack_length x : List.length (pack_d x) = 8%nat.
Proof. apply be_bytes_length. Qed.

Lemma firstn_pack x l : firstn 8 (pack_d x ++ l) = pack_d x.
Proof. rewrite <- (pack_length x) at 1. rewrite firstn_app, Nat.sub_diag, firstn_all, firstn_O. apply app_nil_r. Qed.
Lemma skipn_pack x l : skipn 8 (pack_d x ++ l) = l.
Proof. rewrite <- (pack_length x) at 1. rewrite skipn_app, Nat.sub_diag, skipn_all. reflexivity. Qed.

Lemma unpack_pack : forall l, unpack_d (List.length l) (flat_map pack_d l) = l.
Proof.
  induction l as [|x l IH]; [reflexivity|]. cbn [List.length unpack_d flat_map].
  rewrite firstn_pack, skipn_pack, IH. unfold pack_d. rewrite be_word_bytes, of_word_of; [reflexivity|].
  exact (word_range x).
Qed.

Lemma flat_pack_length l : List.length (flat_map pack_d l) = (8 * List.length l)%nat.
Proof. induction l as [|x l IH]; cbn [flat_map List.length]; [reflexivity|]. rewrite app_length, pack_length, IH. lia. Qed.

Lemma pack_unpack : forall n data, List.length data = (8 * n)%nat -> bytes data ->
  Forall (fun x => fin x = true) (unpack_d n data) -> flat_map pack_d (unpack_d n data) = data.
Proof.
  induction n as [|n IH]; intros data L B F.
  - destruct data; [reflexivity|cbn in L; lia].
  - cbn [unpack_d flat_map] in *. inversion F as [|? ? F1 F2]; subst.
    assert (L8 : List.length (firstn 8 data) = 8%nat) by (rewrite firstn_length; lia).
    assert (B8 : bytes (firstn 8 data)).
    { unfold bytes. rewrite <- (firstn_skipn 8 data) in B. apply Forall_app in B. apply B. }
    rewrite IH; [|rewrite skipn_length; lia| |exact F2].
    + pose proof (be_word_range _ B8) as R. rewrite L8 in R.
      unfold pack_d. rewrite word_of_of; [|exact R|exact F1].
      rewrite <- L8 at 1. rewrite be_bytes_word by exact B8. apply firstn_skipn.
    + unfold bytes. rewrite <- (firstn_skipn 8 data) in B. apply Forall_app in B. apply B.
Qed.

(* ------------------------------------------------------------------ the sixteen numbers *)

Definition numbers (p : cpair) : list f64 := [cp_gain p; cp_off p].
Definition all_numbers (c : cal_cape) : list f64 :=
  numbers (dac_V_Hrv (harvester c)) ++ numbers (dac_V_Sim (harvester c)) ++ numbers (adc_V_Sense (harvester c))
  ++ numbers (adc_C_Hrv (harvester c)) ++ numbers (dac_V_A (emulator c)) ++ numbers (dac_V_B (emulator c))
  ++ numbers (adc_C_A (emulator c)) ++ numbers (adc_C_B (emulator c)).

Lemma floats_app a b : floats (a ++ b) = floats a ++ floats b.
Proof. induction a as [|w a IH]; cbn; [reflexivity|]. destruct (float_of w); cbn; now rewrite IH. Qed.

Lemma floats_unit pre u : floats (dict_generator pre (match u with Some s => TStr s | None => TNone end)) = [].
Proof. destruct u as [s|]; cbn; [|reflexivity]. induction (list_ascii_of_string s) as [|c l IH]; cbn; [reflexivity|exact IH]. Qed.

Lemma floats_pair pre p : floats (dict_generator pre (dump_pair p)) = numbers p.
Proof.
  unfold dump_pair. cbn [dict_generator]. rewrite !floats_app, floats_unit. reflexivity.
Qed.

Lemma floats_cape c : floats (dict_generator [] (dump_cape c)) = all_numbers c.
Proof.
  unfold dump_cape, dump_hrv, dump_emu. cbn [dict_generator]. rewrite !floats_app, !floats_pair.
  unfold all_numbers. rewrite ?app_nil_r, <- ?app_assoc. reflexivity.
Qed.

Lemma to_bytestr_numbers c : to_bytestr c = flat_map pack_d (all_numbers c).
Proof. unfold to_bytestr. now rewrite floats_cape. Qed.

Lemma to_bytestr_length c : List.length (to_bytestr c) = 128%nat.
Proof. rewrite to_bytestr_numbers, flat_pack_length. reflexivity. Qed.

Lemma to_bytestr_bytes c : bytes (to_bytestr c).
Proof.
  rewrite to_bytestr_numbers. induction (all_numbers c) as [|x l IH]; cbn [flat_map]; [constructor|].
  apply Forall_app. split; [apply be_bytes_range|exact IH].
Qed.

(* ------------------------------------------------------------------ parsing *)

Definition V := Some "V"%string.
Definition A := Some "A"%string.

Lemma default_units : exists d v c, default_hrv = Ok (mkHrv d d v c) /\ default_emu = Ok (mkEmu d d c c)
  /\ cp_unit d = V /\ cp_unit v = V /\ cp_unit c = A.
Proof.
  unfold default_hrv, default_emu.
  assert (ID : is_ok (from_fn dac_voltage_to_raw (Some "V"%string)) = true) by (vm_compute; reflexivity).
  destruct (from_fn dac_voltage_to_raw (Some "V"%string)) as [d|] eqn:D; [clear ID|discriminate ID].
  assert (IW : is_ok (from_fn adc_voltage_to_raw (Some "V"%string)) = true) by (vm_compute; reflexivity).
  destruct (from_fn adc_voltage_to_raw (Some "V"%string)) as [v|] eqn:W; [clear IW|discriminate IW].
  assert (IC : is_ok (from_fn adc_current_to_raw (Some "A"%string)) = true) by (vm_compute; reflexivity).
  destruct (from_fn adc_current_to_raw (Some "A"%string)) as [c|] eqn:C; [clear IC|discriminate IC].
  exists d, v, c. split; [reflexivity|]. split; [reflexivity|].
  assert (U : forall fn u p, from_fn fn u = Ok p -> cp_unit p = u).
  { intros fn u p. unfold from_fn. destruct (fn (fz 0) false); [cbn [bind]|discriminate].
    destruct (fn (fz 1) false); [cbn [bind]|discriminate]. destruct (fdiv (fz 1) _); [cbn [bind]|discriminate].
    destruct (fdiv (fneg _) _); [cbn [bind]|discriminate]. unfold new_pair.
    destruct (_ && _); [|discriminate]. intros H. injection H as <-. reflexivity. }
  split; [exact (U _ _ _ D)|]. split; [exact (U _ _ _ W)|exact (U _ _ _ C)].
Qed.

(** Parsing is: sixteen numbers, in this order, to eight validated pairs. *)
Definition pairs_of (vs : list f64) : res cal_cape :=
  match vs with
  | [g1; o1; g2; o2; g3; o3; g4; o4; g5; o5; g6; o6; g7; o7; g8; o8] =>
      let* p1 := new_pair g1 o1 V in let* p2 := new_pair g2 o2 V in
      let* p3 := new_pair g3 o3 V in let* p4 := new_pair g4 o4 A in
      let* p5 := new_pair g5 o5 V in let* p6 := new_pair g6 o6 V in
      let* p7 := new_pair g7 o7 A in let* p8 := new_pair g8 o8 A in
      Ok (mkCape (mkHrv p1 p2 p3 p4) (mkEmu p5 p6 p7 p8))
  | _ => Err ValueError
  end.

Lemma assoc_hrv g1 o1 g2 o2 g3 o3 g4 o4 :
  parse_hrv (dump_hrv (mkHrv (mkPair g1 o1 V) (mkPair g2 o2 V) (mkPair g3 o3 V) (mkPair g4 o4 A)))
  = let* p1 := new_pair g1 o1 V in let* p2 := new_pair g2 o2 V in
    let* p3 := new_pair g3 o3 V in let* p4 := new_pair g4 o4 A in Ok (mkHrv p1 p2 p3 p4).
Proof. reflexivity. Qed.
Lemma assoc_emu g1 o1 g2 o2 g3 o3 g4 o4 :
  parse_emu (dump_emu (mkEmu (mkPair g1 o1 V) (mkPair g2 o2 V) (mkPair g3 o3 A) (mkPair g4 o4 A)))
  = let* p1 := new_pair g1 o1 V in let* p2 := new_pair g2 o2 V in
    let* p3 := new_pair g3 o3 A in let* p4 := new_pair g4 o4 A in Ok (mkEmu p1 p2 p3 p4).
Proof. reflexivity. Qed.

Lemma assign_all d v c vs : cp_unit d = V -> cp_unit v = V -> cp_unit c = A -> List.length vs = 16%nat ->
  (let dv := dump_cape (mkCape (mkHrv d d v c) (mkEmu d d c c)) in
   let* dv' := assign (filter is_float (dict_generator [] dv)) vs dv in parse_cape dv') = pairs_of vs.
Proof.
  intros Ud Uv Uc L. destruct d as [gd od ud], v as [gv ov uv], c as [gc oc uc]. cbn in Ud, Uv, Uc. subst ud uv uc.
  do 16 (destruct vs as [|? vs]; [discriminate L|]). destruct vs; [|discriminate L]. clear L.
  cbv zeta. unfold pairs_of.
  match goal with |- bind (assign ?l ?w ?t) _ = _ =>
    assert (E : exists l', l = l' /\ assign l' w t = Ok (dump_cape (mkCape
      (mkHrv (mkPair f f0 V) (mkPair f1 f2 V) (mkPair f3 f4 V) (mkPair f5 f6 A))
      (mkEmu (mkPair f7 f8 V) (mkPair f9 f10 V) (mkPair f11 f12 A) (mkPair f13 f14 A))))) end.
  { eexists. split; [cbn; reflexivity|]. vm_compute. reflexivity. }
  destruct E as (l' & -> & E). rewrite E. cbn [bind]. unfold parse_cape, dump_cape. cbn [get String.eqb Ascii.eqb Bool.eqb bind].
  change (get "harvester" _) with (Ok (dump_hrv (mkHrv (mkPair f f0 V) (mkPair f1 f2 V) (mkPair f3 f4 V) (mkPair f5 f6 A)))).
  change (get "emulator" _) with (Ok (dump_emu (mkEmu (mkPair f7 f8 V) (mkPair f9 f10 V) (mkPair f11 f12 A) (mkPair f13 f14 A)))).
  cbn [bind harvester emulator]. rewrite assoc_hrv, assoc_emu.
  repeat (destruct (new_pair _ _ _); cbn [bind]; [|reflexivity]). reflexivity.
Qed.

Lemma unpack_length n : forall data, List.length (unpack_d n data) = n.
Proof. induction n as [|n IH]; intros data; cbn [unpack_d List.length]; [reflexivity|]. now rewrite IH. Qed.

Lemma from_bytestr_eq data : from_bytestr data =
  if Nat.eqb (List.length data) 128 then pairs_of (unpack_d 16 data) else Err StructError.
Proof.
  destruct default_units as (d & v & c & Eh & Ee & Ud & Uv & Uc).
  unfold from_bytestr. rewrite Eh, Ee. cbn [bind]. cbv zeta.
  assert (L : List.length (filter is_float (dict_generator [] (dump_cape (mkCape (mkHrv d d v c) (mkEmu d d c c))))) = 16%nat).
  { destruct d as [gd od ud], v as [gv ov uv], c as [gc oc uc]. cbn in Ud, Uv, Uc. subst. reflexivity. }
  rewrite L. unfold struct_unpack. change (8 * 16)%nat with 128%nat.
  destruct (Nat.eqb (List.length data) 128); [cbn [bind]|reflexivity].
  exact (assign_all d v c (unpack_d 16 data) Ud Uv Uc (unpack_length 16 data)).
Qed.

Lemma new_pair_ok g o u p : new_pair g o u = Ok p -> p = mkPair g o u /\ valid_pair p.
Proof.
  unfold new_pair. destruct (fin g) eqn:Fg; [|discriminate]. destruct (fin o) eqn:Fo; [|discriminate].
  cbn [andb]. destruct (flt (fz 0) g) eqn:P; [|discriminate]. intros H. injection H as <-.
  split; [reflexivity|]. unfold valid_pair. cbn. split; [exact Fg|]. split; [exact Fo|].
  apply flt_R in P; [|apply fz_fin; lia|exact Fg]. now rewrite fz_R in P by lia.
Qed.
Lemma new_pair_valid p u : valid_pair p -> new_pair (cp_gain p) (cp_off p) u = Ok (mkPair (cp_gain p) (cp_off p) u).
Proof.
  intros (Fg & Fo & P). unfold new_pair. rewrite Fg, Fo. cbn [andb].
  replace (flt (fz 0) (cp_gain p)) with true; [reflexivity|]. symmetry. apply flt_R; [apply fz_fin; lia|exact Fg|].
  now rewrite fz_R by lia.
Qed.
Lemma new_pair_err g o u e : new_pair g o u = Err e -> e = ValueError.
Proof. unfold new_pair. destruct (_ && _); [discriminate|]. congruence. Qed.

Lemma roundtrip_bytes c : valid_cape c -> exists c', from_bytestr (to_bytestr c) = Ok c' /\ same_numbers c c'.
Proof.
  intros (H1 & H2 & H3 & H4 & H5 & H6 & H7 & H8). rewrite from_bytestr_eq, to_bytestr_length. cbn [Nat.eqb].
  rewrite to_bytestr_numbers. change 16%nat with (List.length (all_numbers c)). rewrite unpack_pack.
  destruct c as [[a b d e] [f g h i]]. cbn in H1, H2, H3, H4, H5, H6, H7, H8. unfold all_numbers. cbn [harvester emulator
    dac_V_Hrv dac_V_Sim adc_V_Sense adc_C_Hrv dac_V_A dac_V_B adc_C_A adc_C_B app]. unfold numbers. cbn [app].
  unfold pairs_of. rewrite !new_pair_valid by assumption. cbn [bind]. eexists. split; [reflexivity|].
  unfold same_numbers, same_pair. cbn. auto 20.
Qed.

Lemma wrong_length data : List.length data <> 128%nat -> from_bytestr data = Err StructError.
Proof. intros H. rewrite from_bytestr_eq. now apply Nat.eqb_neq in H; rewrite H. Qed.

Lemma parsed_ok data c : from_bytestr data = Ok c ->
  List.length data = 128%nat /\ unpack_d 16 data = all_numbers c /\ valid_cape c.
Proof.
  rewrite from_bytestr_eq. destruct (Nat.eqb_spec (List.length data) 128) as [L|L]; [|discriminate].
  intros H. split; [exact L|]. revert H. pose proof (unpack_length 16 data) as U.
  set (vs := unpack_d 16 data) in *. clearbody vs.
  do 16 (destruct vs as [|? vs]; [discriminate U|]). destruct vs; [|discriminate U]. clear U.
  unfold pairs_of.
  repeat (match goal with |- bind (new_pair ?g ?o ?u) _ = _ -> _ =>
    let E := fresh "E" in let W := fresh "W" in
    destruct (new_pair g o u) eqn:E; cbn [bind]; [apply new_pair_ok in E; destruct E as [E W]|discriminate] end).
  intros H. injection H as <-. subst. split; [reflexivity|]. unfold valid_cape. cbn [harvester emulator
    dac_V_Hrv dac_V_Sim adc_V_Sense adc_C_Hrv dac_V_A dac_V_B adc_C_A adc_C_B]. auto 20.
Qed.

Lemma parsed_err data e : from_bytestr data = Err e ->
  e = StructError /\ List.length data <> 128%nat \/ e = ValueError /\ List.length data = 128%nat.
Proof.
  rewrite from_bytestr_eq. destruct (Nat.eqb_spec (List.length data) 128) as [L|L].
  - intros H. right. split; [|exact L]. revert H. unfold pairs_of.
    pose proof (unpack_length 16 data) as U.
    set (vs := unpack_d 16 data) in *. clearbody vs.
    do 16 (destruct vs as [|? vs]; [discriminate U|]). destruct vs; [|discriminate U]. clear U.
    repeat (match goal with |- bind (new_pair ?g ?o ?u) _ = _ -> _ =>
      let E := fresh "E" in
      destruct (new_pair g o u) eqn:E; cbn [bind]; [clear E|apply new_pair_err in E; congruence] end).
    discriminate.
  - intros H. injection H as <-. auto.
Qed.

Lemma valid_fin c : valid_cape c -> Forall (fun x => fin x = true) (all_numbers c).
Proof.
  intros (H1 & H2 & H3 & H4 & H5 & H6 & H7 & H8). unfold all_numbers, valid_pair in *.
  repeat (apply Forall_app; split); repeat constructor; intuition.
Qed.

Lemma reverse_bytes data c : bytes data -> from_bytestr data = Ok c -> to_bytestr c = data.
Proof.
  intros B H. apply parsed_ok in H. destruct H as (L & E & W).
  rewrite to_bytestr_numbers, <- E. apply pack_unpack; [exact L|exact B|]. rewrite E. now apply valid_fin.
Qed.
