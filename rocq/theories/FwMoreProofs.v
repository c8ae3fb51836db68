(** Reading symbols of any size: proofs about FwModel. *)
From Coq Require Import String.
From Verif Require Import PyBase FileModel FileSpec FileSysProofs FwModel FwSpec FwProofs FwMoreSpec.
Open Scope Z_scope.
Open Scope list_scope.

Lemma away_clip a n l : Forall (away a n) l -> flat_map (clip a (a + n)) l = [].
Proof.
  induction 1 as [|i l H _ IH]; [reflexivity|]. cbn. rewrite IH, app_nil_r. unfold clip, away in *.
  destruct (Z.ltb_spec (Z.max a (iv_begin i)) (Z.min (a + n) (iv_end i))); [lia|reflexivity].
Qed.

Lemma read_inside e b a n i : 0 < n -> only_in e a n i ->
  elf_read e b a n = Ok (match iv_data i with
    | InFile o => part b (o + (a - iv_begin i)) (o + (a - iv_begin i) + n)
    | Zeros => repeat 0 (Z.to_nat n) end).
Proof.
  intros Hn (l1 & l2 & He & H1 & H2 & Hb & Hd). unfold elf_read. replace (n <=? 0) with false by lia.
  rewrite He, flat_map_app. cbn [flat_map]. rewrite (away_clip _ _ _ H1), (away_clip _ _ _ H2), app_nil_r. cbn [app].
  unfold clip. replace (Z.max a (iv_begin i)) with a by lia. replace (Z.min (a + n) (iv_end i)) with (a + n) by lia.
  replace (a <? a + n) with true by lia. cbn [existsb fst snd flat_map]. rewrite !Z.eqb_refl. cbn [orb andb]. rewrite app_nil_r.
  replace (a + n - a) with n by lia. destruct (iv_data i); reflexivity.
Qed.

Lemma le_value_app l l' : le_value (l ++ l') = le_value l + 256 ^ Z.of_nat (length l) * le_value l'.
Proof.
  induction l as [|x l IH]; [cbn [app le_value length]; rewrite Z.pow_0_r; lia|]. cbn [app le_value length].
  rewrite IH, Nat2Z.inj_succ, Z.pow_succ_r by lia. lia.
Qed.

Lemma value_of b o n little : (o + n <= length b)%nat ->
  from_bytes little (firstn n (skipn o b)) = value_at b o n little.
Proof.
  unfold from_bytes. revert o. induction n as [|n IH]; intros o H; [destruct little; reflexivity|].
  assert (E : skipn o b = nth o b 0 :: skipn (S o) b).
  { clear -H. revert o H. induction b as [|x b IHb]; intros [|o] H; cbn in H; try lia; [reflexivity|]. apply (IHb o). lia. }
  rewrite E. cbn [firstn value_at]. specialize (IH (S o)). destruct little.
  - cbn [le_value]. rewrite IH by lia. reflexivity.
  - cbn [rev]. rewrite le_value_app, IH by lia. rewrite rev_length, firstn_length_le by (rewrite skipn_length; lia). cbn [le_value]. lia.
Qed.

Lemma le_value_zeros n : le_value (repeat 0 n) = 0.
Proof. induction n as [|n IH]; [reflexivity|]. cbn [repeat le_value]. rewrite IH. reflexivity. Qed.

Lemma rev_zeros n : rev (repeat 0 n) = repeat 0 n.
Proof.
  induction n as [|n IH]; [reflexivity|]. cbn [repeat rev]. rewrite IH. clear. induction n as [|n IH]; [reflexivity|].
  cbn [repeat app]. rewrite IH. reflexivity.
Qed.

Lemma last_all n l : length l = n -> last_n n l = l.
Proof. intros <-. unfold last_n. rewrite Nat.sub_diag. reflexivity. Qed.

Lemma read_initialised T d p sym n b e a i o : (0 < n)%nat ->
  content d p = Some b -> parse_elf T b = Some e -> e_symbols e sym = Some a ->
  only_in e a (Z.of_nat n) i -> iv_data i = InFile o -> 0 <= o + (a - iv_begin i) ->
  o + (a - iv_begin i) + Z.of_nat n <= Z.of_nat (length b) ->
  read_symbol T d p sym n = Ok (Some (value_at b (Z.to_nat (o + (a - iv_begin i))) n (e_little e))).
Proof.
  intros Hn Hc Hp Hs Hi Hd H0 H1. unfold read_symbol. rewrite (find_known _ _ _ _ _ _ _ Hc Hp Hs).
  assert (Hz : 0 < Z.of_nat n) by lia. rewrite (read_inside _ _ _ _ _ Hz Hi), Hd. cbn [bind]. do 2 f_equal. unfold part.
  set (k := o + (a - iv_begin i)) in *. replace (Z.to_nat (k + Z.of_nat n - k)) with n by lia.
  rewrite last_all; [apply value_of; lia|]. rewrite firstn_length_le; [reflexivity|]. rewrite skipn_length. lia.
Qed.

Lemma read_uninitialised T d p sym n b e a i : (0 < n)%nat ->
  content d p = Some b -> parse_elf T b = Some e -> e_symbols e sym = Some a ->
  only_in e a (Z.of_nat n) i -> iv_data i = Zeros -> read_symbol T d p sym n = Ok (Some 0).
Proof.
  intros Hn Hc Hp Hs Hi Hd. unfold read_symbol. rewrite (find_known _ _ _ _ _ _ _ Hc Hp Hs).
  assert (Hz : 0 < Z.of_nat n) by lia. rewrite (read_inside _ _ _ _ _ Hz Hi), Hd. cbn [bind]. do 2 f_equal.
  rewrite last_all by (rewrite repeat_length; lia). unfold from_bytes. rewrite rev_zeros. destruct (e_little e); apply le_value_zeros.
Qed.

Lemma read_uncovered T d p sym n b e a : (0 < n)%nat ->
  content d p = Some b -> parse_elf T b = Some e -> e_symbols e sym = Some a ->
  Forall (fun i => ~ iv_begin i <= a < iv_end i) (e_memory e) \/ Forall (fun i => ~ iv_begin i < a + Z.of_nat n <= iv_end i) (e_memory e) ->
  read_symbol T d p sym n = Err RuntimeError.
Proof.
  intros Hn Hc Hp Hs Hi. unfold read_symbol. rewrite (find_known _ _ _ _ _ _ _ Hc Hp Hs). unfold elf_read.
  replace (Z.of_nat n <=? 0) with false by lia. set (hi := a + Z.of_nat n) in *. assert (Hhi : a < hi) by lia. clearbody hi.
  assert (K : existsb (fun x => fst (fst x) =? a) (flat_map (clip a hi) (e_memory e)) && existsb (fun x => snd (fst x) =? hi) (flat_map (clip a hi) (e_memory e)) = false).
  { apply andb_false_iff. destruct Hi as [Hi | Hi]; [left|right]; apply not_true_is_false; intros K; apply existsb_exists in K;
    destruct K as (x & K1 & K2); apply in_flat_map in K1; destruct K1 as (i & I1 & I2); rewrite Forall_forall in Hi; specialize (Hi i I1);
    unfold clip in I2; destruct (Z.ltb_spec (Z.max a (iv_begin i)) (Z.min hi (iv_end i))) as [L|L]; cbn in I2; try contradiction; destruct I2 as [I2 | I2]; try contradiction; subst x; cbn [fst snd] in K2; lia. }
  rewrite K. reflexivity.
Qed.

(** * Firmware with a given controller *)
Lemma prefix_app n s : prefix n s = true <-> exists r, s = (n ++ r)%string.
Proof.
  revert s. induction n as [|c n IH]; intros s; cbn [prefix append].
  - destruct s; (split; [intros _; eexists; reflexivity|reflexivity]).
  - destruct s as [|d s]; [split; [discriminate|intros [r H]; discriminate]|].
    change (prefix (String c n) (String d s)) with (if Ascii.ascii_dec c d then prefix n s else false).
    destruct (Ascii.ascii_dec c d) as [<- | N].
    + destruct (IH s) as [I1 I2]. split.
      * intros H. destruct (I1 H) as [r ->]. exists r. reflexivity.
      * intros [r H]. injection H as H. apply I2. exists r. exact H.
    + split; [discriminate|]. intros [r H]. injection H as -> _. now contradiction N.
Qed.

Lemma contains_mentions n s : mentions n s -> contains n s = true.
Proof.
  intros (a & r & ->). induction a as [|c a IH]; cbn [append].
  - destruct (n ++ r)%string as [|d u] eqn:E; cbn [contains].
    + apply orb_true_intro. left. apply prefix_app. exists r. symmetry. exact E.
    + apply orb_true_intro. left. apply prefix_app. exists r. symmetry. exact E.
  - cbn [contains]. apply orb_true_intro. right. exact IH.
Qed.

Lemma given_mcu T d p b embed m name f e :
  content d p = Some b -> parse_elf T b = Some e ->
  from_firmware T d p embed (Some Base64Elf) (Some m) name = Ok f ->
  fw_mcu f = m /\ e_exec e = true /\
  (mentions "msp430" (e_arch e) -> exists h, objcopy T b = Some h /\ hex_msp430 T h = Ok true) /\
  (mentions "nrf52" (e_arch e) \/ mentions "arm" (e_arch e) -> exists h, objcopy T b = Some h /\ hex_nrf52 T h = true).
Proof.
  intros Hc Ee. unfold from_firmware, file_to_hash, file_to_base64, read_arch, is_elf_msp430, is_elf_nrf52, open_elf, elf_as_hex. rewrite Hc, Ee. cbn [bind].
  destruct (e_exec e) eqn:Ex; [|discriminate].
  match goal with |- context [bind (bind ?x _) _] => destruct x as [[]|] eqn:E1; [|discriminate] end. cbn [bind].
  match goal with |- context [bind (bind ?x _) _] => destruct x as [[]|] eqn:E2; [|discriminate] end. cbn [bind].
  intros H. split; [|split; [reflexivity|split]].
  - destruct embed; cbn [bind to_path_dtype] in H; apply validated in H as [-> _]; reflexivity.
  - intros M. rewrite (contains_mentions _ _ M) in E1. destruct (objcopy T b) as [h|]; [|discriminate]. exists h. split; [reflexivity|].
    cbn [bind] in E1. destruct (hex_msp430 T h) as [[]|]; [reflexivity|discriminate|discriminate].
  - intros M. assert (K : (contains "nrf52" (e_arch e) || contains "arm" (e_arch e))%bool = true).
    { apply orb_true_intro. destruct M as [M|M]; [left|right]; apply contains_mentions; exact M. }
    rewrite K in E2. destruct (objcopy T b) as [h|]; [|discriminate]. exists h. split; [reflexivity|].
    cbn [bind] in E2. destruct (hex_nrf52 T h); [reflexivity|discriminate].
Qed.
