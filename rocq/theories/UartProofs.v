(** Proofs about the UART decoder (C39, C40). *)
From Verif Require Import PyBase UartModel UartSpec.
From Coq Require Import QArith Qround Qabs Lqa ZifyBool.
Open Scope Z_scope.

(** * Rounding *)

Lemma qround_near q n : (Qabs (q - inject_Z n) < 1 # 2)%Q -> qround q = n.
Proof.
  intros H. apply Qabs_Qlt_condition in H as [H1 H2].
  unfold qround.
  pose proof (Qfloor_le q) as F1. pose proof (Qlt_floor q) as F2.
  rewrite inject_Z_plus in F2. set (f := Qfloor q) in *. clearbody f.
  assert (Hf : f = n \/ f = n - 1).
  { assert (A : (inject_Z f < inject_Z (n + 1))%Q).
    { rewrite inject_Z_plus. change (inject_Z 1) with 1%Q. lra. }
    assert (B : (inject_Z (n - 2) < inject_Z f)%Q).
    { change (n - 2) with (n + -2). rewrite inject_Z_plus.
      change (inject_Z (-2)) with (-2 # 1)%Q. change (inject_Z 1) with 1%Q in F2. lra. }
    rewrite <- Zlt_Qlt in A, B. lia. }
  change (inject_Z 1) with 1%Q in F2.
  destruct (Qle_bool (1 # 2) (q - inject_Z f)) eqn:E1.
  - apply Qle_bool_iff in E1. destruct Hf as [->| ->].
    + exfalso. lra.
    + change (n - 1) with (n + -1) in *. rewrite inject_Z_plus in *.
      change (inject_Z (-1)) with (-1 # 1)%Q in *.
      destruct (Qle_bool (q - (inject_Z n + (-1 # 1))) (1 # 2)) eqn:E2.
      * apply Qle_bool_iff in E2. exfalso. lra.
      * lia.
  - destruct Hf as [->| ->]; [reflexivity|].
    exfalso. assert (Hn : ~ (1 # 2 <= q - inject_Z (n - 1))%Q).
    { intros C. apply Qle_bool_iff in C. congruence. }
    apply Hn. change (n - 1) with (n + -1). rewrite inject_Z_plus.
    change (inject_Z (-1)) with (-1 # 1)%Q. lra.
Qed.

Lemma qround_ge q n : (inject_Z n - (1 # 2) < q)%Q -> n <= qround q.
Proof.
  intros H. unfold qround.
  pose proof (Qfloor_le q) as F1. pose proof (Qlt_floor q) as F2.
  rewrite inject_Z_plus in F2. set (f := Qfloor q) in *. clearbody f.
  change (inject_Z 1) with 1%Q in F2.
  assert (Hf : n - 1 <= f).
  { assert (B : (inject_Z (n - 2) < inject_Z f)%Q).
    { change (n - 2) with (n + -2). rewrite inject_Z_plus.
      change (inject_Z (-2)) with (-2 # 1)%Q. lra. }
    rewrite <- Zlt_Qlt in B. lia. }
  destruct (Z.eq_dec f (n - 1)) as [->|Hne].
  - change (n - 1) with (n + -1) in *. rewrite inject_Z_plus in *.
    change (inject_Z (-1)) with (-1 # 1)%Q in *.
    destruct (Qle_bool (1 # 2) (q - (inject_Z n + (-1 # 1)))) eqn:E1.
    + destruct (Qle_bool (q - (inject_Z n + (-1 # 1))) (1 # 2)) eqn:E2; [|lia].
      apply Qle_bool_iff in E2. exfalso. lra.
    + exfalso. assert (C : ~ (1 # 2 <= q - (inject_Z n + (-1 # 1)))%Q).
      { intros C. apply Qle_bool_iff in C. congruence. }
      apply C. lra.
  - destruct (Qle_bool (1 # 2) (q - inject_Z f)); [|lia].
    destruct (Qle_bool (q - inject_Z f) (1 # 2)); [|lia].
    destruct (Z.even f); lia.
Qed.

Lemma Qle_bool_false a b : Qle_bool a b = false <-> (b < a)%Q.
Proof.
  split; intros H.
  - apply Qnot_le_lt. intros C. apply Qle_bool_iff in C. congruence.
  - destruct (Qle_bool a b) eqn:E; [|reflexivity]. apply Qle_bool_iff in E. lra.
Qed.

Lemma Qle_bool_true a b : Qle_bool a b = true <-> (a <= b)%Q.
Proof. apply Qle_bool_iff. Qed.

(** * The decoder on exact runs *)

(** Position and symbol of the frame in progress, or nothing; a finished symbol. *)
Definition irun (st : option (Z * Z)) (run : bool * Z) : option (Z * Z) * option Z :=
  let (v, n) := run in
  match st with
  | None => if v then (None, None)
            else if 8 <=? n - 1 then (None, Some 0) else (Some (n - 1, 0), None)
  | Some (p, s) =>
      let s' := if v then s + Z.shiftl (2 ^ Z.min n (7 - p) - 1) (Z.min p 7) else s in
      if 8 <=? p + n then (None, Some s') else (Some (p + n, s'), None)
  end.

Definition lift (d : dec) (t : Q) (r : option (Z * Z) * option Z) : dec :=
  let o := match snd r with Some s => out d ++ [(t, s)] | None => out d end in
  match fst r with
  | Some (p, s) => mkDec (Some p) s t o
  | None => mkDec None 0 t o
  end.

Definition sees (d : dec) (st : option (Z * Z)) : Prop :=
  match st with
  | Some (p, s) => pos_df d = Some p /\ symbol d = s /\ 0 <= p <= 7
  | None => pos_df d = None /\ symbol d = 0
  end.

Lemma tolerance_low e n : in_tolerance (false, n) e -> (Qabs (e_steps e - inject_Z n) < 1 # 2)%Q.
Proof. intros [_ H]. exact H. Qed.

Lemma inject_le a b : a <= b -> (inject_Z a <= inject_Z b)%Q.
Proof. rewrite <- Zle_Qle. auto. Qed.

(** One event within tolerance is decoded like the exact run. *)
Lemma dec_run d st run e :
  sees d st -> 1 <= snd run <= 7 -> in_tolerance run e ->
  (st = None -> fst run = false) ->
  dec_step 8 d e =
  lift d (match st with None => e_time e | _ => t_start d end) (irun st run).
Proof.
  destruct run as [v n]. cbn [fst snd]. intros Hs Hn Ht Hv.
  assert (Hval : e_value e = level v) by apply Ht.
  assert (Hq : (Qabs (e_steps e - inject_Z n) < 1 # 2)%Q).
  { destruct Ht as [_ Ht]. cbn in Ht. destruct v; [|exact Ht].
    eapply Qle_lt_trans; [exact Ht|]. reflexivity. }
  assert (Hb : (inject_Z n - (1 # 2) < e_steps e /\ e_steps e < inject_Z n + (1 # 2))%Q).
  { apply Qabs_Qlt_condition in Hq as [A B]. split; lra. }
  assert (Hn7 : (inject_Z n <= 7)%Q) by (apply (inject_le n 7); lia).
  assert (Hn1 : (1 <= inject_Z n)%Q) by (apply (inject_le 1 n); lia).
  assert (H8 : Qle_bool (e_steps e) (inject_Z 8) = true).
  { apply Qle_bool_true. change (inject_Z 8) with 8%Q. lra. }
  unfold dec_step. rewrite H8. cbn [negb].
  destruct st as [[p s]|].
  - destruct Hs as (Hp & Hsy & Hpr). rewrite Hp, Hval.
    unfold dec_frame. rewrite (qround_near _ _ Hq).
    destruct v; cbn [level irun].
    + assert (E1 : (1 <=? n) && negb (1 =? 0) = true) by (cbn; lia). rewrite E1.
      assert (Hoff : Qle_bool (Qabs (e_steps e - inject_Z n)) tick_tolerance = true).
      { apply Qle_bool_true. destruct Ht as [_ Ht]. cbn in Ht.
        eapply Qle_trans; [exact Ht|]. unfold tick_tolerance, Qle; cbn. lia. }
      rewrite Hoff. cbn [negb andb]. rewrite orb_false_r.
      assert (Hch : (if Qle_bool (e_steps e) (inject_Z (8 - p - 1)) then n else 8 - p - 1)
                    = Z.min n (7 - p)).
      { destruct (Qle_bool (e_steps e) (inject_Z (8 - p - 1))) eqn:E2.
        - apply Qle_bool_true in E2.
          assert (A : (inject_Z (n - 1) < inject_Z (8 - p - 1))%Q).
          { change (n - 1) with (n + -1). rewrite inject_Z_plus.
            change (inject_Z (-1)) with (-1 # 1)%Q. lra. }
          rewrite <- Zlt_Qlt in A. lia.
        - apply Qle_bool_false in E2.
          assert (A : (inject_Z (8 - p - 1) < inject_Z (n + 1))%Q).
          { rewrite inject_Z_plus. change (inject_Z 1) with 1%Q. lra. }
          rewrite <- Zlt_Qlt in A. lia. }
      change (8 - 1) with 7. rewrite Hch, Hsy.
      destruct (8 <=? p + n); unfold lift; cbn; reflexivity.
    + change (0 =? 0) with true. cbn [negb]. rewrite !andb_false_r, orb_false_r, Hsy.
      destruct (8 <=? p + n); unfold lift; cbn; reflexivity.
  - destruct Hs as (Hp & Hsy). specialize (Hv eq_refl). subst v.
    rewrite Hp, Hval. cbn [level]. change (0 =? 0) with true. cbv iota.
    unfold dec_frame.
    assert (Hr : qround (e_steps e - 1) = n - 1).
    { apply qround_near. change (n - 1) with (n + -1). rewrite inject_Z_plus.
      change (inject_Z (-1)) with (-1 # 1)%Q.
      assert (E : (e_steps e - 1 - (inject_Z n + (-1 # 1)) == e_steps e - inject_Z n)%Q) by lra.
      rewrite E. exact Hq. }
    rewrite Hr. change (0 =? 0) with true. cbn [negb]. rewrite !andb_false_r, orb_false_r.
    cbn [symbol t_start out]. rewrite Hsy. cbn [irun].
    replace (0 + (n - 1)) with (n - 1) by lia.
    destruct (8 <=? n - 1); unfold lift; cbn; reflexivity.
Qed.

(** A list of exact runs: final state and finished symbols. *)
Fixpoint iruns (st : option (Z * Z)) (runs : list (bool * Z)) : option (Z * Z) * list Z :=
  match runs with
  | [] => (st, [])
  | r :: rest =>
      let (st1, o) := irun st r in
      let (st2, os) := iruns st1 rest in
      (st2, match o with Some s => s :: os | None => os end)
  end.

(** Levels alternate and all runs are short; a frame in progress is never left before the end. *)
Fixpoint runs_ok (st : option (Z * Z)) (runs : list (bool * Z)) : bool :=
  match runs with
  | [] => match st with Some (p, _) => (0 <=? p) && (p <=? 7) | None => true end
  | r :: rest =>
      (1 <=? snd r) && (snd r <=? 7) &&
      (match st with Some (p, _) => (0 <=? p) && (p <=? 7) | None => negb (fst r) end) &&
      match fst (irun st r), rest with
      | None, _ :: _ => false
      | st1, _ => runs_ok st1 rest
      end
  end.

(** The state of the decoder just after a frame's front part, started idle. *)
Definition closed (d : dec) (t : Q) (r : option (Z * Z) * list Z) : dec :=
  let o := out d ++ map (fun s => (t, s)) (snd r) in
  match fst r with
  | Some (p, s) => mkDec (Some p) s t o
  | None => mkDec None 0 t o
  end.

Lemma dec_runs_busy runs : forall d p s front,
  runs_ok (Some (p, s)) runs = true -> sees d (Some (p, s)) ->
  Forall2 in_tolerance runs front ->
  fold_left (dec_step 8) front d = closed d (t_start d) (iruns (Some (p, s)) runs).
Proof.
  induction runs as [|r rest IH]; intros d p s front Hok Hs HF.
  - inversion HF; subst. cbn. destruct Hs as (H1 & H2 & H3). unfold closed; cbn.
    rewrite app_nil_r. destruct d; cbn in *. congruence.
  - inversion HF as [|? e ? front' He HF']; subst. cbn [fold_left].
    cbn [runs_ok] in Hok. apply andb_prop in Hok as [Hok Hrest].
    apply andb_prop in Hok as [Hok Hp]. apply andb_prop in Hok as [Hn1 Hn2].
    rewrite (dec_run d (Some (p, s)) r e Hs); [|lia|exact He|discriminate].
    cbn [iruns]. destruct (irun (Some (p, s)) r) as [st1 o] eqn:E1. cbn [fst] in Hrest.
    destruct st1 as [[p1 s1]|].
    + assert (o = None) as ->.
      { destruct r as [v n]. cbn in E1.
        destruct (8 <=? p + n); [discriminate|]. injection E1 as; congruence. }
      assert (Hok1 : runs_ok (Some (p1, s1)) rest = true) by (destruct rest; exact Hrest).
      assert (Hp1 : 0 <= p1 <= 7).
      { destruct rest; cbn in Hok1; [lia|].
        apply andb_prop in Hok1 as [Hok1 _]. apply andb_prop in Hok1 as [_ Hok1]. lia. }
      rewrite (IH _ p1 s1 front' Hok1); [|cbn; auto|exact HF'].
      unfold lift; cbn. destruct (iruns (Some (p1, s1)) rest) as [st2 os].
      unfold closed; cbn. reflexivity.
    + destruct rest; [|discriminate]. inversion HF'; subst. cbn.
      destruct o as [s1|]; unfold lift, closed; cbn; [reflexivity|].
      rewrite app_nil_r. reflexivity.
Qed.

Lemma dec_runs runs : forall d front e0 r,
  runs_ok None runs = true -> sees d None ->
  Forall2 in_tolerance runs front -> front = e0 :: r ->
  fold_left (dec_step 8) front d = closed d (e_time e0) (iruns None runs).
Proof.
  destruct runs as [|r0 rest]; intros d front e0 r Hok Hs HF ->; [inversion HF|].
  inversion HF as [|? e ? front' He HF']; subst. cbn [fold_left].
  cbn [runs_ok] in Hok. apply andb_prop in Hok as [Hok Hrest].
  apply andb_prop in Hok as [Hok Hp]. apply andb_prop in Hok as [Hn1 Hn2].
  rewrite (dec_run d None r0 e0 Hs); [|lia|exact He|intros _; destruct (fst r0); [discriminate|reflexivity]].
  cbn [iruns]. destruct (irun None r0) as [st1 o] eqn:E1. cbn [fst] in Hrest.
  destruct st1 as [[p1 s1]|].
  - assert (o = None) as ->.
    { destruct r0 as [v n]. cbn in E1. destruct v; [discriminate|].
      destruct (8 <=? n - 1); [discriminate|]. injection E1 as; congruence. }
    assert (Hok1 : runs_ok (Some (p1, s1)) rest = true) by (destruct rest; exact Hrest).
    assert (Hp1 : 0 <= p1 <= 7).
    { destruct rest; cbn in Hok1; [lia|].
      apply andb_prop in Hok1 as [Hok1 _]. apply andb_prop in Hok1 as [_ Hok1]. lia. }
    rewrite (dec_runs_busy _ _ p1 s1 _ Hok1); [|cbn; auto|exact HF'].
    unfold lift; cbn. destruct (iruns (Some (p1, s1)) rest) as [st2 os].
    unfold closed; cbn. reflexivity.
  - destruct rest; [|discriminate]. inversion HF'; subst. cbn.
    destruct o as [s1|]; unfold lift, closed; cbn; [reflexivity|].
    rewrite app_nil_r. reflexivity.
Qed.

(** * All bytes, by evaluation on exact runs *)

Definition bytes : list Z := map Z.of_nat (seq 0 256).

Lemma in_bytes b : 0 <= b < 256 -> In b bytes.
Proof.
  intros H. unfold bytes. apply in_map_iff. exists (Z.to_nat b). split; [lia|].
  apply in_seq. lia.
Qed.

Definition pair_eqb (a b : option (Z * Z) * list Z) : bool :=
  match a, b with
  | (None, l), (None, l') => if list_eq_dec Z.eq_dec l l' then true else false
  | (Some (p, s), l), (Some (p', s'), l') =>
      (p =? p') && (s =? s') && (if list_eq_dec Z.eq_dec l l' then true else false)
  | _, _ => false
  end.

Lemma pair_eqb_eq a b : pair_eqb a b = true -> a = b.
Proof.
  destruct a as [[[p s]|] l], b as [[[p' s']|] l']; cbn; try discriminate;
    destruct (list_eq_dec Z.eq_dec l l'); rewrite ?andb_false_r; try discriminate; intros H;
    f_equal; auto; f_equal. f_equal; lia.
Qed.

Definition small_ok (b : Z) : bool :=
  let rs := rle (frame_bits b) in
  runs_ok None (removelast rs) && pair_eqb (iruns None (removelast rs)) (None, [b]) &&
  (fst (List.last rs (true, 1))).

Definition large_ok (b : Z) : bool :=
  let rs := rle (frame_bits b) in
  let j := below_ones b 8 in
  runs_ok None (removelast rs) &&
  pair_eqb (iruns None (removelast rs)) (Some (j, b mod 2 ^ j), []) &&
  (0 <=? j) && (j <=? 7) && (snd (List.last rs (true, 1)) =? 9 - j) &&
  (fst (List.last rs (true, 1))) &&
  (b mod 2 ^ j + Z.shiftl (2 ^ (7 - j) - 1) (Z.min j 7) =? b - 128).

Lemma all_bytes :
  forallb (fun b => if (b =? 0) || (b =? 128) then true
                    else if b <? 128 then small_ok b else large_ok b) bytes = true.
Proof. vm_compute. reflexivity. Qed.

Lemma small_byte b : 1 <= b <= 127 -> small_ok b = true.
Proof.
  intros H. pose proof all_bytes as A. rewrite forallb_forall in A.
  specialize (A b (in_bytes b ltac:(lia))).
  destruct ((b =? 0) || (b =? 128)) eqn:E; [lia|]. destruct (b <? 128) eqn:E2; [exact A|lia].
Qed.

Lemma large_byte b : 129 <= b <= 255 -> large_ok b = true.
Proof.
  intros H. pose proof all_bytes as A. rewrite forallb_forall in A.
  specialize (A b (in_bytes b ltac:(lia))).
  destruct ((b =? 0) || (b =? 128)) eqn:E; [lia|]. destruct (b <? 128) eqn:E2; [lia|exact A].
Qed.

(** A high level while no frame is in progress changes nothing. *)
Lemma dec_idle d e : sees d None -> e_value e = 1 -> dec_step 8 d e = d.
Proof.
  intros [Hp Hs] Hv. unfold dec_step. rewrite Hp, Hv. change (1 =? 0) with false. cbn [negb].
  destruct (Qle_bool (e_steps e) (inject_Z 8)); cbn; reflexivity.
Qed.

Lemma front_nonempty b front :
  Forall2 in_tolerance (removelast (rle (frame_bits b))) front -> exists e0 r, front = e0 :: r.
Proof.
  intros H.
  assert (exists r0 rs, removelast (rle (frame_bits b)) = r0 :: rs) as (r0 & rs & E).
  { unfold frame_bits. cbn [rle map app].
    repeat match goal with |- context [Z.testbit b ?i] => destruct (Z.testbit b i) end; cbn; eauto. }
  rewrite E in H. inversion H; subst. eauto.
Qed.

Lemma frame_small t b evs d s :
  1 <= b <= 127 -> sends t b evs d -> sees s None ->
  fold_left (dec_step 8) evs s = mkDec None 0 t (out s ++ [(t, b)]).
Proof.
  intros Hb (front & last & -> & -> & HF & HL & Ht) Hs.
  destruct (front_nonempty b front HF) as (e0 & r & E0).
  pose proof (small_byte b Hb) as Hok. unfold small_ok in Hok. cbv zeta in Hok.
  apply andb_prop in Hok as [Hok Hlast]. apply andb_prop in Hok as [Hok Hrun].
  apply pair_eqb_eq in Hrun.
  rewrite fold_left_app, (dec_runs _ s front e0 r Hok Hs HF E0), Hrun, (Ht e0 r E0).
  cbn [fold_left]. rewrite dec_idle; [reflexivity|split; reflexivity|].
  destruct HL as [-> _]. destruct (fst (List.last (rle (frame_bits b)) (true, 1))); [reflexivity|discriminate].
Qed.

Lemma frame_large t b evs d s :
  129 <= b <= 255 -> sends t b evs d -> sees s None ->
  fold_left (dec_step 8) evs s =
  mkDec None 0 t (out s ++ [(t, if Qle_bool d 8 then b - 128 else b mod 2 ^ below_ones b 8)]).
Proof.
  intros Hb (front & last & -> & -> & HF & HL & Ht) Hs.
  destruct (front_nonempty b front HF) as (e0 & r & E0).
  pose proof (large_byte b Hb) as Hok. unfold large_ok in Hok. cbv zeta in Hok.
  set (j := below_ones b 8) in *.
  apply andb_prop in Hok as [Hok Hsum]. apply andb_prop in Hok as [Hok Hlast].
  apply andb_prop in Hok as [Hok Hlen]. apply andb_prop in Hok as [Hok Hj2].
  apply andb_prop in Hok as [Hok Hj1]. apply andb_prop in Hok as [Hok Hrun].
  apply pair_eqb_eq in Hrun.
  rewrite fold_left_app, (dec_runs _ s front e0 r Hok Hs HF E0), Hrun, (Ht e0 r E0).
  cbn [fold_left closed fst snd map]. rewrite app_nil_r.
  destruct HL as [HLv HLd].
  assert (Hv1 : e_value last = 1).
  { rewrite HLv. destruct (fst (List.last (rle (frame_bits b)) (true, 1))); [reflexivity|discriminate]. }
  assert (Hn : snd (List.last (rle (frame_bits b)) (true, 1)) = 9 - j) by lia.
  rewrite Hn in HLd.
  unfold dec_step. rewrite Hv1. change (1 =? 0) with false. cbn [negb pos_df].
  change (inject_Z 8) with 8%Q.
  destruct (Qle_bool (e_steps last) 8) eqn:E8; cbn [negb]; [|reflexivity].
  unfold dec_frame. change (1 =? 0) with false. cbn [negb symbol t_start out].
  assert (Hr : 9 - j <= qround (e_steps last)) by (apply qround_ge; lra).
  assert (E1 : (1 <=? qround (e_steps last)) && true = true) by lia. rewrite E1.
  assert (E2 : Qle_bool (e_steps last) (inject_Z (8 - j - 1)) = false).
  { apply Qle_bool_false.
    assert (A : (inject_Z (8 - j - 1) == inject_Z (9 - j) - 2)%Q).
    { replace (8 - j - 1) with ((9 - j) + -2) by lia. rewrite inject_Z_plus.
      change (inject_Z (-2)) with (-2 # 1)%Q. lra. }
    rewrite A. lra. }
  rewrite E2.
  replace (8 <=? j + qround (e_steps last)) with true by lia. cbn [orb].
  replace (8 - j - 1) with (7 - j) by lia. change (8 - 1) with 7.
  do 3 f_equal. f_equal. lia.
Qed.

(** NUL (low for nine bit-times) and 0x80 (low for eight). *)
Lemma frame_low n t b evs d s :
  removelast (rle (frame_bits b)) = [(false, n)] ->
  fst (List.last (rle (frame_bits b)) (true, 1)) = true ->
  snd (List.last (rle (frame_bits b)) (true, 1)) = 10 - n -> 8 <= n <= 9 ->
  sends t b evs d -> sees s None ->
  exists t', fold_left (dec_step 8) evs s = mkDec None 0 t' (out s) \/
             fold_left (dec_step 8) evs s = mkDec None 0 t' (out s ++ [(t', 0)]).
Proof.
  intros E1 E2 E3 Hn (front & last & -> & -> & HF & HL & Ht) [Hs1 Hs2].
  rewrite E1 in HF. inversion HF as [|? e ? l' He HF']; subst. inversion HF'; subst. clear HF HF'.
  cbn [app fold_left].
  destruct He as [Hv Hd]. cbn [fst snd level] in Hv, Hd. apply Qabs_Qlt_condition in Hd as [D1 D2].
  destruct HL as [HLv HLd]. rewrite E2 in HLv. rewrite E3 in HLd. cbn in HLv.
  assert (H1 : dec_step 8 s e = if Qle_bool (e_steps e) 8
               then dec_frame 8 (mkDec (Some 0) 0 (e_time e) (out s)) 0 0 (e_steps e - 1)%Q else s).
  { unfold dec_step. rewrite Hs1, Hv, Hs2. change (0 =? 0) with true. cbn [negb].
    change (inject_Z 8) with 8%Q. destruct (Qle_bool (e_steps e) 8); reflexivity. }
  rewrite H1. clear H1.
  destruct (Qle_bool (e_steps e) 8) eqn:E8.
  - apply Qle_bool_true in E8.
    assert (n = 8) as ->.
    { assert (n = 8 \/ n = 9) as [->| ->] by lia; [reflexivity|exfalso].
      change (inject_Z 9) with 9%Q in *. lra. }
    assert (Hr : qround (e_steps e - 1) = 7).
    { apply qround_near. apply Qabs_Qlt_condition. change (inject_Z 7) with 7%Q.
      change (inject_Z 8) with 8%Q in *. split; lra. }
    assert (H1 : dec_frame 8 (mkDec (Some 0) 0 (e_time e) (out s)) 0 0 (e_steps e - 1)%Q
                 = mkDec (Some 7) 0 (e_time e) (out s)).
    { unfold dec_frame. rewrite Hr. change (0 =? 0) with true. cbn [negb].
      rewrite !andb_false_r. change (8 <=? 0 + 7) with false. cbn [orb symbol t_start out].
      reflexivity. }
    rewrite H1. clear H1.
    exists (e_time e). right.
    unfold dec_step. rewrite HLv. change (1 =? 0) with false. cbn [negb pos_df].
    change (inject_Z 8) with 8%Q.
    destruct (Qle_bool (e_steps last) 8) eqn:E9; cbn [negb].
    + unfold dec_frame. change (1 =? 0) with false. cbn [negb symbol t_start out].
      assert (Hq : 2 <= qround (e_steps last)).
      { apply qround_ge. change (10 - 8) with 2 in HLd. change (inject_Z 2) with 2%Q in *. lra. }
      assert (X1 : (1 <=? qround (e_steps last)) && true = true) by lia. rewrite X1.
      assert (X2 : Qle_bool (e_steps last) (inject_Z (8 - 7 - 1)) = false).
      { apply Qle_bool_false. change (inject_Z (8 - 7 - 1)) with 0%Q.
        change (10 - 8) with 2 in HLd. change (inject_Z 2) with 2%Q in HLd. lra. }
      rewrite X2. replace (8 <=? 7 + qround (e_steps last)) with true by lia. cbn [orb].
      reflexivity.
    + reflexivity.
  - exists (t_start s). left.
    rewrite dec_idle; [|split; assumption|exact HLv].
    destruct s; cbn in *. congruence.
Qed.

(** * Whole transmissions *)

Lemma tx_small msg : forall evs s,
  transmits msg evs -> Forall (fun x => 1 <= snd (fst x) <= 127) msg -> sees s None ->
  let s' := fold_left (dec_step 8) evs s in
  sees s' None /\ out s' = out s ++ map fst msg.
Proof.
  induction msg as [|[[t b] d] msg IH]; intros evs s HT HF Hs; cbv zeta.
  - inversion HT; subst. cbn. split; [exact Hs|rewrite app_nil_r; reflexivity].
  - inversion HT as [|? ? ? evs1 ? evs2 H1 H2]; subst. inversion HF as [|? ? Hb HF']; subst. cbn in Hb.
    rewrite fold_left_app, (frame_small t b evs1 d s Hb H1 Hs).
    destruct (IH evs2 (mkDec None 0 t (out s ++ [(t, b)])) H2 HF') as [A B]; [split; reflexivity|].
    split; [exact A|]. rewrite B. cbn. rewrite <- app_assoc. reflexivity.
Qed.

Lemma idle_skip lead : forall s, Forall idle lead -> sees s None -> fold_left (dec_step 8) lead s = s.
Proof.
  induction lead as [|e lead IH]; intros s HF Hs; [reflexivity|].
  inversion HF; subst. cbn. rewrite dec_idle by assumption. apply IH; assumption.
Qed.

Lemma uart_text lead msg evs :
  transmits msg evs -> Forall idle lead -> msg <> [] ->
  Forall (fun x => 1 <= snd (fst x) <= 127) msg ->
  get_symbols 8 (lead ++ evs) = Ok (map (fun x => (fst (fst x), [snd (fst x)])) msg).
Proof.
  intros HT HL Hne HF. unfold get_symbols.
  rewrite fold_left_app, (idle_skip lead dec_init HL) by (split; reflexivity).
  destruct (tx_small msg evs dec_init HT HF) as [_ E]; [split; reflexivity|]. rewrite E. cbn [out dec_init app].
  destruct msg as [|x msg]; [contradiction|].
  cbn [map]. f_equal. rewrite !map_map.
  assert (G : forall y : Q * Z * Q, 1 <= snd (fst y) <= 127 ->
              (fst (fst y), stored (snd (fst y))) = ((fst (fst y), [snd (fst y)]) : Q * list Z)).
  { intros y Hy. unfold stored. destruct (snd (fst y) =? 0) eqn:E0; [lia|reflexivity]. }
  inversion HF as [|? ? H1 H2]; subst. f_equal; [apply (G x H1)|].
  apply map_ext_in. intros y Hy. apply (G y). rewrite Forall_forall in H2. apply H2. exact Hy.
Qed.

Lemma text_snoc l (t : Q) v :
  concat (map (fun p => stored (snd p)) (l ++ [(t, v)])) =
  concat (map (fun p : Q * Z => stored (snd p)) l) ++ stored v.
Proof. rewrite map_app, concat_app. cbn. rewrite app_nil_r. reflexivity. Qed.

Lemma tx_any msg : forall evs s,
  transmits msg evs -> Forall (fun x => 0 <= snd (fst x) <= 255) msg -> sees s None ->
  let s' := fold_left (dec_step 8) evs s in
  sees s' None /\
  concat (map (fun p => stored (snd p)) (out s')) =
  concat (map (fun p => stored (snd p)) (out s)) ++ concat (map (fun x => heard (snd (fst x)) (snd x)) msg).
Proof.
  induction msg as [|[[t b] d] msg IH]; intros evs s HT HF Hs; cbv zeta.
  - inversion HT; subst. cbn. split; [exact Hs|rewrite app_nil_r; reflexivity].
  - inversion HT as [|? ? ? evs1 ? evs2 H1 H2]; subst. inversion HF as [|? ? Hb HF']; subst. cbn in Hb.
    rewrite fold_left_app. cbn [map concat fst snd].
    assert (Hstep : exists t' o, fold_left (dec_step 8) evs1 s = mkDec None 0 t' o /\
       concat (map (fun p => stored (snd p)) o) =
       concat (map (fun p => stored (snd p)) (out s)) ++ heard b d).
    { destruct (Z.eq_dec b 0) as [->|Hb0]; [|destruct (Z.eq_dec b 128) as [->|Hb1]].
      - destruct (frame_low 9 t 0 evs1 d s) as (t' & [E|E]); try reflexivity; try lia; try assumption.
        + exists t', (out s). split; [exact E|]. cbn. rewrite app_nil_r. reflexivity.
        + exists t', (out s ++ [(t', 0)]). split; [exact E|]. rewrite text_snoc. reflexivity.
      - assert (Hh : heard 128 d = []).
        { unfold heard. change (128 <? 128) with false. cbv iota.
          destruct (Qle_bool d 8); reflexivity. }
        rewrite Hh, app_nil_r.
        destruct (frame_low 8 t 128 evs1 d s) as (t' & [E|E]); try reflexivity; try lia; try assumption.
        + exists t', (out s). split; [exact E|]. reflexivity.
        + exists t', (out s ++ [(t', 0)]). split; [exact E|]. rewrite text_snoc.
          cbn. rewrite app_nil_r. reflexivity.
      - destruct (Z.ltb_spec b 128).
        + rewrite (frame_small t b evs1 d s) by (assumption || lia).
          exists t, (out s ++ [(t, b)]). split; [reflexivity|]. rewrite text_snoc. f_equal.
          unfold heard, stored. destruct (b <? 128) eqn:E; [reflexivity|lia].
        + rewrite (frame_large t b evs1 d s) by (assumption || lia).
          eexists t, _. split; [reflexivity|]. rewrite text_snoc. f_equal.
          unfold heard, stored. destruct (b <? 128) eqn:E; [lia|].
          destruct (Qle_bool d 8); reflexivity. }
    destruct Hstep as (t' & o & E & Ho). rewrite E.
    destruct (IH evs2 (mkDec None 0 t' o) H2 HF') as [A B]; [split; reflexivity|].
    split; [exact A|]. rewrite B. cbn [out]. rewrite Ho, app_assoc. reflexivity.
Qed.

Lemma uart_any lead msg evs :
  transmits msg evs -> Forall idle lead ->
  Forall (fun x => 0 <= snd (fst x) <= 255) msg ->
  text_of (get_symbols 8 (lead ++ evs)) = concat (map (fun x => heard (snd (fst x)) (snd x)) msg).
Proof.
  intros HT HL HF. unfold get_symbols.
  rewrite fold_left_app, (idle_skip lead dec_init HL) by (split; reflexivity).
  destruct (tx_any msg evs dec_init HT HF) as [_ E]; [split; reflexivity|]. cbn in E. rewrite <- E.
  destruct (out (fold_left (dec_step 8) evs dec_init)); [reflexivity|].
  cbn [text_of]. rewrite map_map. reflexivity.
Qed.

(** * Lines *)

Definition lstate (l : lines) : Prop := semi_stop l = false.

Lemma is_char_single a ch : is_char [a] ch = (a =? ch).
Proof. reflexivity. Qed.

Lemma lines_body body : forall ts l,
  Forall plain body -> length ts = length body -> semi_stop l = false ->
  let l' := fold_left line_step (combine ts (map (fun c => [c]) body)) l in
  semi_stop l' = false /\ line l' = line l ++ body /\ l_out l' = l_out l /\
  l_start l' = match l_start l with None => hd_error ts | s => s end.
Proof.
  induction body as [|c body IH]; intros ts l HF Hlen Hs; cbv zeta.
  - destruct ts; [|discriminate]. cbn. rewrite app_nil_r. destruct (l_start l); auto.
  - destruct ts as [|t ts]; [discriminate|]. inversion HF as [|? ? [Hc1 Hc2] HF']; subst.
    injection Hlen as Hlen. cbn [map combine fold_left].
    set (l1 := line_step l (t, [c])).
    assert (H1 : semi_stop l1 = false /\ line l1 = line l ++ [c] /\ l_out l1 = l_out l /\
                 l_start l1 = match l_start l with None => Some t | s => s end).
    { unfold l1, line_step. rewrite !is_char_single, Hs.
      destruct (Z.eqb_spec c LF); [contradiction|]. destruct (Z.eqb_spec c CR); [contradiction|].
      cbn. auto. }
    destruct H1 as (A & B & C & G). destruct (IH ts l1 HF' Hlen A) as (D & E & F & H).
    split; [exact D|]. split; [rewrite E, B, <- app_assoc; reflexivity|]. split; [congruence|].
    rewrite H, G. destruct (l_start l); reflexivity.
Qed.

Lemma combine_app {A B} (a1 a2 : list A) (b1 b2 : list B) :
  length a1 = length b1 -> combine (a1 ++ a2) (b1 ++ b2) = combine a1 b1 ++ combine a2 b2.
Proof.
  revert b1. induction a1 as [|x a1 IH]; intros [|y b1] H; try discriminate; [reflexivity|].
  cbn. f_equal. apply IH. injection H as. assumption.
Qed.

Lemma lines_one l : forall ts s,
  proper_line l -> length ts = length l -> semi_stop s = false -> line s = [] ->
  l_start s = None ->
  let s' := fold_left line_step (combine ts (map (fun c => [c]) l)) s in
  semi_stop s' = false /\ line s' = [] /\ l_start s' = None /\
  l_out s' = l_out s ++ [(match l with [c] => None | _ => hd_error ts end, l)].
Proof.
  intros ts s (body & HF & HL) Hlen Hs Hline Hst. cbv zeta.
  set (n := length body).
  rewrite <- (firstn_skipn n ts) in Hlen |- *.
  assert (Hn : length (firstn n ts) = n).
  { apply firstn_length_le. rewrite app_length, firstn_length, skipn_length in Hlen.
    destruct HL as [->| ->]; rewrite app_length in Hlen; fold n in Hlen; cbn in Hlen; lia. }
  rewrite app_length, Hn in Hlen.
  destruct (lines_body body (firstn n ts) s HF Hn Hs) as (A & B & C & D).
  rewrite Hline in B. cbn in B. rewrite Hst in D.
  assert (Hhd : body <> [] -> hd_error (firstn n ts ++ skipn n ts) = hd_error (firstn n ts)).
  { intros Hb. destruct (firstn n ts); [|reflexivity]. cbn in Hn. destruct body; [contradiction|].
    discriminate. }
  destruct HL as [->| ->]; rewrite map_app, combine_app, fold_left_app by (rewrite map_length; exact Hn);
    rewrite app_length in Hlen; fold n in Hlen; cbn [length] in Hlen;
    revert A B C D; generalize (fold_left line_step (combine (firstn n ts) (map (fun c => [c]) body)) s);
    intros s1 A B C D.
  - destruct (skipn n ts) as [|t1 [|t2 r]]; cbn in Hlen; try lia.
    cbn. unfold line_step. cbn. change (LF =? LF) with true. cbn. rewrite B, C.
    split; [reflexivity|]. split; [reflexivity|]. split; [reflexivity|].
    destruct body as [|b0 [|b1 body]]; cbn [app]; rewrite D.
    + destruct (firstn n ts); [reflexivity|]. subst n. discriminate.
    + rewrite Hhd by discriminate. reflexivity.
    + rewrite Hhd by discriminate. reflexivity.
  - destruct (skipn n ts) as [|t1 [|t2 [|t3 r]]]; cbn in Hlen; try lia.
    cbn. unfold line_step. cbn. change (CR =? LF) with false. change (CR =? CR) with true.
    change (LF =? LF) with true. rewrite A. cbn. rewrite B, C, <- app_assoc.
    split; [reflexivity|]. split; [reflexivity|]. split; [reflexivity|].
    rewrite D. destruct body as [|b0 body]; cbn [app].
    + destruct (firstn n ts); [reflexivity|]. subst n. discriminate.
    + rewrite Hhd by discriminate. destruct (firstn n ts) as [|t0 ts0]; [subst n; discriminate|].
      destruct (body ++ [CR; LF]) eqn:Eb; [destruct body; discriminate|]. reflexivity.
Qed.

Lemma lines_all ls : forall ts s,
  Forall proper_line ls -> length ts = length (concat ls) -> semi_stop s = false -> line s = [] ->
  l_start s = None ->
  let s' := fold_left line_step (combine ts (map (fun c => [c]) (concat ls))) s in
  semi_stop s' = false /\ line s' = [] /\
  l_out s' = l_out s ++ combine (line_starts ts ls) ls.
Proof.
  induction ls as [|l ls IH]; intros ts s HF Hlen Hs Hline Hst; cbv zeta.
  - destruct ts; [|discriminate]. cbn. split; [exact Hs|]. split; [exact Hline|].
    rewrite app_nil_r. auto.
  - inversion HF as [|? ? H1 H2]; subst. cbn [concat] in *. rewrite app_length in Hlen.
    set (n := length l) in *.
    assert (Hn : length (firstn n ts) = n) by (apply firstn_length_le; lia).
    replace (combine ts (map (fun c => [c]) (l ++ concat ls)))
      with (combine (firstn n ts) (map (fun c => [c]) l) ++
            combine (skipn n ts) (map (fun c => [c]) (concat ls))).
    2:{ rewrite <- (firstn_skipn n ts) at 3.
        rewrite map_app, combine_app by (rewrite map_length; exact Hn). reflexivity. }
    rewrite fold_left_app.
    destruct (lines_one l (firstn n ts) s H1 Hn Hs Hline Hst) as (A & B & S & C).
    assert (Hsk : length (skipn n ts) = length (concat ls)) by (rewrite skipn_length; lia).
    destruct (IH (skipn n ts) _ H2 Hsk A B S) as (D & E & F).
    split; [exact D|]. split; [exact E|].
    rewrite F, C, <- app_assoc. cbn [line_starts combine app]. fold n.
    replace (hd_error (firstn n ts)) with (hd_error ts); [reflexivity|].
    destruct ts; [destruct n; reflexivity|]. destruct n eqn:En; [|reflexivity].
    exfalso. subst n. destruct H1 as (body & _ & [->| ->]); rewrite app_length in En; cbn in En; lia.
Qed.

Lemma get_lines_proper ls ts :
  Forall proper_line ls -> ls <> [] -> length ts = length (concat ls) ->
  get_lines (combine ts (map (fun c => [c]) (concat ls))) = Ok (combine (line_starts ts ls) ls).
Proof.
  intros HF Hne Hlen. unfold get_lines.
  destruct (lines_all ls ts lines_init HF Hlen eq_refl eq_refl eq_refl) as (_ & _ & E).
  rewrite E. cbn [app l_out lines_init]. destruct ls as [|l ls]; [contradiction|]. reflexivity.
Qed.

Lemma get_text_proper ls ts :
  Forall proper_line ls -> ls <> [] -> length ts = length (concat ls) ->
  get_text (combine ts (map (fun c => [c]) (concat ls))) = Ok (concat ls).
Proof.
  intros HF Hne Hlen. unfold get_text.
  rewrite (get_lines_proper ls ts HF Hne Hlen). cbn [bind]. do 2 f_equal.
  clear. revert ts. induction ls as [|l ls IH]; intros ts; [reflexivity|].
  cbn. f_equal. apply IH.
Qed.

(** Nothing is ever invented or reordered. *)
Lemma sub_refl {A} (l : list A) : sub l l.
Proof. induction l; constructor; assumption. Qed.

Lemma sub_app {A} (a b c d : list A) : sub a b -> sub c d -> sub (a ++ c) (b ++ d).
Proof. intros H1 H2. induction H1; cbn; [exact H2|constructor; assumption|constructor; assumption]. Qed.

Lemma sub_nil_l {A} (l : list A) : sub [] l.
Proof. induction l; constructor; assumption. Qed.

Lemma sub_trans {A} (x y z : list A) : sub x y -> sub y z -> sub x z.
Proof.
  intros H1 H2. revert x H1. induction H2 as [|a y z H IH|a y z H IH]; intros x H1.
  - exact H1.
  - constructor. apply IH. exact H1.
  - inversion H1 as [|? ? ? H3|? x' ? H3]; subst.
    + apply sub_skip. apply IH. exact H3.
    + apply sub_keep. apply IH. exact H3.
Qed.

Lemma lines_sub syms : forall l,
  let l' := fold_left line_step syms l in
  sub (concat (map snd (l_out l')) ++ line l')
      (concat (map snd (l_out l)) ++ line l ++ chars_of syms).
Proof.
  induction syms as [|[t sym] syms IH]; intros l; cbv zeta.
  - cbn. rewrite app_nil_r. apply sub_refl.
  - cbn [fold_left].
    eapply sub_trans; [apply IH|]. unfold chars_of; cbn [map concat snd].
    unfold line_step. destruct (is_char sym LF || semi_stop l).
    + cbn. rewrite map_app, concat_app. cbn. rewrite app_nil_r.
      destruct (is_char sym LF).
      * rewrite <- !app_assoc. apply sub_refl.
      * rewrite <- !app_assoc. apply sub_app; [apply sub_refl|]. apply sub_app; [apply sub_refl|].
        apply (sub_app [] sym); [apply sub_nil_l|apply sub_refl].
    + cbn. rewrite <- !app_assoc. apply sub_refl.
Qed.

Lemma get_text_sub syms txt : get_text syms = Ok txt -> sub txt (chars_of syms).
Proof.
  unfold get_text, get_lines. pose proof (lines_sub syms lines_init) as H. cbv zeta in H.
  destruct (l_out (fold_left line_step syms lines_init)) as [|x o] eqn:E; [discriminate|].
  cbn [bind]. intros [= <-]. change (concat (map snd (l_out lines_init)) ++ line lines_init ++ chars_of syms)
    with (chars_of syms) in H.
  eapply sub_trans; [|exact H]. change (snd x ++ concat (map snd o)) with (concat (map snd (x :: o))).
  set (A := concat (map snd (x :: o))). set (B := line _). clearbody A B.
  pose proof (sub_app A A [] B (sub_refl A) (sub_nil_l B)) as H1. rewrite app_nil_r in H1. exact H1.
Qed.

(** * Waveforms *)

(** The filter on a list whose predecessor state is [p]. *)
Fixpoint changes (p : Z) (l : list Z) : list bool :=
  match l with [] => [] | a :: r => negb (a =? p) :: changes a r end.

Lemma filter_changes d0 l :
  redundancy_filter (d0 :: l) = Ok (true :: changes d0 l).
Proof.
  unfold redundancy_filter. f_equal.
  assert (G : forall p l, map (fun q : Z * Z => negb (fst q =? snd q)) (combine l (p :: removelast l))
              = changes p l).
  { intros p l'. revert p. induction l' as [|a r IH]; intros p; [reflexivity|].
    cbn [combine map fst snd changes]. f_equal.
    destruct r as [|b r]; [reflexivity|]. apply (IH a). }
  change (removelast (d0 :: l)) with (match l with [] => [] | _ => d0 :: removelast l end).
  destruct l as [|a l].
  - cbn. unfold py_not. destruct (d0 =? 0) eqn:E; f_equal; destruct (d0 =? _) eqn:E2; try lia; reflexivity.
  - change (combine (d0 :: a :: l) (py_not d0 :: d0 :: removelast (a :: l)))
      with ((d0, py_not d0) :: combine (a :: l) (d0 :: removelast (a :: l))).
    rewrite map_cons, (G d0 (a :: l)). f_equal. cbn [fst snd].
    unfold py_not. destruct (d0 =? 0) eqn:E; destruct (d0 =? _) eqn:E2; try lia; reflexivity.
Qed.

Lemma filter_length l f : redundancy_filter l = Ok f -> length f = length l.
Proof.
  destruct l as [|d l]; [discriminate|]. rewrite filter_changes. intros [= <-]. cbn. f_equal.
  revert d. induction l as [|a l IH]; intros d; [reflexivity|]. cbn. f_equal. apply IH.
Qed.

Lemma select_sub {A} (m : list bool) : forall l : list A, sub (select m l) l.
Proof.
  induction m as [|b m IH]; intros [|a l]; cbn; try apply sub_nil_l.
  destruct b; constructor; apply IH.
Qed.

Lemma changes_alternating l : forall p,
  alternating (select (changes p l) l) /\
  match select (changes p l) l with a :: _ => a <> p | [] => True end.
Proof.
  induction l as [|a l IH]; intros p; [cbn; auto|]. cbn [changes select].
  destruct (IH a) as [H1 H2]. destruct (Z.eqb_spec a p) as [->|Hne]; cbn [negb].
  - exact (IH p).
  - destruct (select (changes a l) l); cbn in *; auto.
Qed.

Lemma filter_alternating l f :
  redundancy_filter l = Ok f -> alternating (select f l) /\ hd_error (select f l) = hd_error l.
Proof.
  destruct l as [|d l]; [discriminate|]. rewrite filter_changes. intros [= <-]. cbn.
  destruct (changes_alternating l d) as [H1 H2].
  destruct (select (changes d l) l); cbn in *; auto.
Qed.

(** Replaying: position and state of the kept events. *)
Fixpoint kept_from (n : nat) (m : list bool) (l : list Z) : list (nat * Z) :=
  match m, l with
  | b :: m', a :: l' => if b then (n, a) :: kept_from (S n) m' l' else kept_from (S n) m' l'
  | _, _ => []
  end.

Lemma kept_select m : forall l n, map snd (kept_from n m l) = select m l.
Proof.
  induction m as [|b m IH]; intros [|a l] n; cbn; try reflexivity.
  destruct b; cbn; rewrite IH; reflexivity.
Qed.

Lemma kept_combine m : forall l n,
  kept_from n m l = combine (select m (seq n (length l))) (select m l).
Proof.
  induction m as [|b m IH]; intros [|a l] n; cbn; try reflexivity.
  destruct b; cbn; rewrite IH; reflexivity.
Qed.

Lemma replay_changes l : forall p n k a,
  nth_error l k = Some a ->
  fold_left (fun acc e => if Nat.leb (fst e) (n + k) then Some (snd e) else acc)
            (kept_from n (changes p l) l) (Some p) = Some a.
Proof.
  assert (Late : forall l m n k acc, (k < n)%nat ->
    fold_left (fun acc (e : nat * Z) => if Nat.leb (fst e) k then Some (snd e) else acc)
              (kept_from n m l) acc = acc).
  { clear. induction l as [|a l IH]; intros [|b m] n k acc H; try reflexivity.
    cbn [kept_from]. destruct b; cbn [fold_left fst snd].
    - rewrite (proj2 (Nat.leb_gt n k) H). apply IH. lia.
    - apply IH. lia. }
  induction l as [|a l IH]; intros p n k x Hx; [destruct k; discriminate|].
  cbn [changes kept_from].
  destruct k as [|k]; cbn in Hx.
  - injection Hx as ->. rewrite Nat.add_0_r.
    destruct (Z.eqb_spec x p) as [->|Hne]; cbn [negb].
    + apply Late. lia.
    + cbn [fold_left fst snd]. rewrite Nat.leb_refl. apply Late. lia.
  - replace (n + S k)%nat with (S n + k)%nat by lia.
    destruct (Z.eqb_spec a p) as [->|Hne]; cbn [negb].
    + apply IH. exact Hx.
    + cbn [fold_left fst snd]. rewrite (proj2 (Nat.leb_le n (S n + k))) by lia. apply IH. exact Hx.
Qed.

Lemma filter_replay l f k a :
  redundancy_filter l = Ok f -> nth_error l k = Some a ->
  replay (combine (select f (seq 0 (length l))) (select f l)) k = Some a.
Proof.
  destruct l as [|d l]; [discriminate|]. rewrite filter_changes. intros [= <-] Hk.
  rewrite <- kept_combine. unfold replay. cbn [kept_from fold_left fst snd].
  change (Nat.leb 0 k) with true. cbv iota.
  destruct k as [|k]; cbn in Hk.
  - injection Hk as ->.
    assert (Late : forall l m n acc, (0 < n)%nat ->
      fold_left (fun acc (e : nat * Z) => if Nat.leb (fst e) 0 then Some (snd e) else acc)
                (kept_from n m l) acc = acc).
    { clear. induction l as [|b l IH]; intros [|c m] n acc H; try reflexivity.
      cbn [kept_from]. destruct c; cbn [fold_left fst snd].
      - destruct n; [lia|]. apply IH. lia.
      - apply IH. lia. }
    apply Late. lia.
  - exact (replay_changes l d 1 k a Hk).
Qed.

Lemma nth_error_combine_select {A} (f : list bool) : forall (ts : list A) (ps : list Z),
  length ts = length ps -> combine (select f ts) (select f ps) = select f (combine ts ps).
Proof.
  induction f as [|b f IH]; intros [|t ts] [|p ps] H; cbn; try reflexivity; try discriminate.
  injection H as H. destruct b; cbn; rewrite IH by exact H; reflexivity.
Qed.

Lemma map_snd_select {A} (f : list bool) : forall (ts : list A) (ps : list Z),
  length ts = length ps -> map snd (combine (select f ts) (select f ps)) = select f ps.
Proof.
  induction f as [|b f IH]; intros [|t ts] [|p ps] H; cbn; try reflexivity; try discriminate.
  injection H as H. destruct b; cbn; rewrite IH by exact H; reflexivity.
Qed.
