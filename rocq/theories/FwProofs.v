(** Proofs about the firmware tools (C51, C52, C62 - C65). *)
From Coq Require Import String Ascii ZifyBool.
From Verif Require Import PyBase FileModel FileSpec FileSysProofs FwModel FwSpec.
Open Scope Z_scope.

(* ------------------------------------------------------------------ files *)

Lemma path_eqb_iff a b : path_eqb a b = true <-> a = b.
Proof.
  destruct a as [a1 a2], b as [b1 b2]. unfold path_eqb. cbn.
  rewrite andb_true_iff, !String.eqb_eq. split; [intros [-> ->]; reflexivity | intros [= -> ->]; auto].
Qed.

Lemma content_same d p b : content (write_file d p b) p = Some b.
Proof. unfold content, write_file. cbn. now rewrite (proj2 (path_eqb_iff p p) eq_refl). Qed.

Lemma content_other d p b : only_touches d (write_file d p b) p.
Proof.
  intros q Hq. unfold content, write_file. cbn.
  destruct (path_eqb p q) eqn:E; [apply path_eqb_iff in E; congruence | reflexivity].
Qed.

(* ------------------------------------------------------------------ bytes *)

Lemma splice_length b o new : 0 <= o -> o + Z.of_nat (length new) <= Z.of_nat (length b) ->
  length (splice b o new) = length b.
Proof.
  intros H1 H2. unfold splice. rewrite !app_length, firstn_length, skipn_length. lia.
Qed.

Lemma splice_other b o new k : 0 <= o -> o + Z.of_nat (length new) <= Z.of_nat (length b) ->
  (k < Z.to_nat o \/ Z.to_nat o + length new <= k)%nat -> nth k (splice b o new) 0 = nth k b 0.
Proof.
  intros H1 H2 Hk. unfold splice.
  assert (Hl : length (firstn (Z.to_nat o) b) = Z.to_nat o) by (rewrite firstn_length; lia).
  destruct Hk as [Hk|Hk].
  - rewrite app_nth1 by lia.
    rewrite <- (firstn_skipn (Z.to_nat o) b) at 2. rewrite app_nth1 by lia. reflexivity.
  - rewrite app_nth2 by lia. rewrite app_nth2 by lia. rewrite Hl.
    rewrite <- (firstn_skipn (Z.to_nat o + length new) b) at 2.
    rewrite app_nth2 by (rewrite firstn_length; lia). f_equal.
    rewrite firstn_length. lia.
Qed.

Lemma splice_same b o new : 0 <= o -> o + Z.of_nat (length new) <= Z.of_nat (length b) ->
  part (splice b o new) o (o + Z.of_nat (length new)) = new.
Proof.
  intros H1 H2. unfold part, splice.
  replace (Z.to_nat (o + Z.of_nat (length new) - o)) with (length new) by lia.
  assert (Hl : length (firstn (Z.to_nat o) b) = Z.to_nat o) by (rewrite firstn_length; lia).
  rewrite skipn_app, Hl, Nat.sub_diag. rewrite skipn_all2 by lia.
  cbn [app skipn]. rewrite firstn_app, firstn_all, Nat.sub_diag. cbn. apply app_nil_r.
Qed.

Lemma le_digits_length n : forall v, length (le_digits n v) = n.
Proof. induction n as [|n IH]; intros v; [reflexivity|]. cbn. now rewrite IH. Qed.

Lemma le_value_digits n : forall v, 0 <= v < 2 ^ (8 * Z.of_nat n) -> le_value (le_digits n v) = v.
Proof.
  induction n as [|n IH]; intros v Hv.
  - change (2 ^ (8 * Z.of_nat 0)) with 1 in Hv. cbn. lia.
  - cbn [le_digits le_value]. rewrite IH.
    + pose proof (Z_div_mod_eq_full v 256). lia.
    + replace (8 * Z.of_nat (S n)) with (8 + 8 * Z.of_nat n) in Hv by lia.
      rewrite Z.pow_add_r in Hv by lia. change (2 ^ 8) with 256 in Hv.
      split; [apply Z.div_pos; lia | apply Z.div_lt_upper_bound; lia].
Qed.

Lemma to_bytes_length little n v : length (to_bytes little n v) = n.
Proof. destruct little; cbn; rewrite ?rev_length; apply le_digits_length. Qed.

Lemma from_to_bytes little n v : 0 <= v < 2 ^ (8 * Z.of_nat n) ->
  from_bytes little (to_bytes little n v) = v.
Proof.
  intros H. unfold from_bytes, to_bytes. destruct little; [|rewrite rev_involutive]; now apply le_value_digits.
Qed.

(* ------------------------------------------------------------------ reading and writing *)

Lemma clip_off a i : off_range a i -> clip a (a + 2) i = [].
Proof. intros H. unfold clip, off_range in *. destruct (Z.ltb_spec (Z.max a (iv_begin i)) (Z.min (a + 2) (iv_end i))); [lia | reflexivity]. Qed.

Lemma clip_all_off a l : Forall (off_range a) l -> flat_map (clip a (a + 2)) l = [].
Proof. intros H. induction H as [|i l Hi Hl IH]; [reflexivity|]. cbn. now rewrite clip_off. Qed.

Lemma read_placed e b a o : placed e a o -> elf_read e b a 2 = Ok (part b o (o + 2)).
Proof.
  intros (l1 & i & l2 & s & He & H1 & H2 & Hb & Hen & Hd & ->). unfold elf_read.
  replace (2 <=? 0) with false by lia. rewrite He, flat_map_app. cbn [flat_map].
  rewrite (clip_all_off _ _ H1), (clip_all_off _ _ H2), app_nil_r. cbn [app].
  unfold clip. rewrite Hd.
  replace (Z.max a (iv_begin i)) with a by lia. replace (Z.min (a + 2) (iv_end i)) with (a + 2) by lia.
  replace (a <? a + 2) with true by lia. cbn [existsb fst snd flat_map].
  rewrite !Z.eqb_refl. cbn [orb andb]. rewrite app_nil_r.
  replace (s + (a - iv_begin i) + (a + 2 - a)) with (s + (a - iv_begin i) + 2) by lia. reflexivity.
Qed.

Lemma find_skip {A} (f : A -> bool) l1 l2 : (forall x, In x l1 -> f x = false) ->
  find f (l1 ++ l2) = find f l2.
Proof.
  induction l1 as [|x l1 IH]; intros H; [reflexivity|]. cbn.
  rewrite (H x) by now left. apply IH. intros y Hy. apply H. now right.
Qed.

Lemma write_placed e b a o new : placed e a o -> length new = 2%nat ->
  0 <= o -> o + 2 <= Z.of_nat (length b) -> elf_write e b a new = Ok (splice b o new).
Proof.
  intros (l1 & i & l2 & s & He & H1 & H2 & Hb & Hen & Hd & ->) Hn Ho Hl. unfold elf_write.
  rewrite He, find_skip.
  - cbn [find]. replace ((iv_begin i <=? a) && (a <? iv_end i)) with true by lia. rewrite Hd, Hn.
    replace ((0 <=? s + (a - iv_begin i)) && (s + (a - iv_begin i) + Z.of_nat 2 <=? Z.of_nat (length b)))
      with true by lia. reflexivity.
  - intros x Hx. rewrite Forall_forall in H1. specialize (H1 x Hx). unfold off_range in H1. lia.
Qed.

(** Whatever is written: [length new] bytes in one place. *)
Lemma write_local e b a new b' : elf_write e b a new = Ok b' ->
  exists o, same_except b b' o (length new).
Proof.
  unfold elf_write. destruct (find _ _) as [i|].
  - destruct (iv_data i) as [s|]; [|discriminate].
    destruct (_ && _) eqn:E; [|discriminate]. intros [= <-].
    apply andb_true_iff in E as [E1 E2].
    exists (Z.to_nat (s + (a - iv_begin i))). split.
    + apply splice_length; lia.
    + intros k Hk. apply splice_other; lia.
  - intros [= <-]. exists 0%nat. split; reflexivity.
Qed.

(* ------------------------------------------------------------------ names *)

Lemma substring_all s : forall n, (String.length s <= n)%nat -> substring 0 n s = s.
Proof.
  induction s as [|c s IH]; intros [|n] H; cbn in *; try reflexivity; try lia. f_equal. apply IH. lia.
Qed.

Lemma substring_split s : forall k, (substring 0 k s ++ substring k (String.length s - k) s)%string = s.
Proof.
  induction s as [|c s IH]; intros [|k]; cbn; try reflexivity.
  - f_equal. apply substring_all. lia.
  - f_equal. apply IH.
Qed.

Lemma stem_suffix s : (stem s ++ suffix s)%string = s.
Proof.
  unfold stem, suffix, split_name. destruct (last_dot 0 s) as [k|].
  - destruct (_ && _); cbn [fst snd]; [apply substring_split|].
    induction s as [|c s IH]; cbn; [reflexivity | now f_equal].
  - cbn. induction s as [|c s IH]; cbn; [reflexivity | now f_equal].
Qed.

Lemma append_length a b : String.length (a ++ b) = (String.length a + String.length b)%nat.
Proof. induction a as [|c a IH]; cbn; [reflexivity | now rewrite IH]. Qed.

Lemma append_assoc a b c : (a ++ (b ++ c))%string = ((a ++ b) ++ c)%string.
Proof. induction a as [|x a IH]; cbn; [reflexivity | now rewrite IH]. Qed.

Lemma append_inj_r a b c : (a ++ c)%string = (b ++ c)%string -> a = b.
Proof.
  revert b. induction a as [|x a IH]; intros [|y b] H; cbn in *.
  - reflexivity.
  - exfalso. apply (f_equal String.length) in H. cbn in H. rewrite append_length in H. lia.
  - exfalso. apply (f_equal String.length) in H. cbn in H. rewrite append_length in H. lia.
  - injection H as -> H. f_equal. now apply IH.
Qed.

Lemma patched_name_new s x : (stem s ++ "_" ++ x ++ suffix s)%string <> s.
Proof.
  intros H. apply (f_equal String.length) in H.
  rewrite <- (stem_suffix s) in H at 3. rewrite !append_length in H. cbn in H. lia.
Qed.

Section Tools.
  Context (T : tools).

  Lemma find_known d p sym b e a : content d p = Some b -> parse_elf T b = Some e ->
    e_symbols e sym = Some a -> find_symbol T d p sym = Some (b, e, a).
  Proof. intros H1 H2 H3. unfold find_symbol, open_elf. now rewrite H1, H2, H3. Qed.

  Definition target_path (p : path) (value : Z) (overwrite : bool) : path :=
    if overwrite then p
    else (fst p, (stem (snd p) ++ "_" ++ dec (Z.to_nat value) ++ suffix (snd p))%string).

  Lemma target_new p value : target_path p value false <> p.
  Proof.
    destruct p as [dir name]. unfold target_path. cbn [fst snd]. intros H.
    apply (f_equal snd) in H. cbn [snd] in H. now apply patched_name_new in H.
  Qed.

  Lemma patch_reads_back d p sym v ow b e a o :
    content d p = Some b -> parse_elf T b = Some e -> e_symbols e sym = Some a -> placed e a o ->
    0 <= o -> o + 2 <= Z.of_nat (length b) -> 0 <= v < 65536 ->
    exists d' b',
      modify_symbol_value T d p sym v ow = (d', Ok (Some (target_path p v ow)))
      /\ content d' (target_path p v ow) = Some b' /\ same_except b b' (Z.to_nat o) 2
      /\ only_touches d d' (target_path p v ow)
      /\ (parse_elf T b' = Some e -> read_symbol T d' (target_path p v ow) sym 2 = Ok (Some v)).
  Proof.
    intros Hc Hp Hs Hpl Ho Hl Hv.
    set (new := to_bytes (e_little e) 2 v).
    assert (Hn : length new = 2%nat) by apply to_bytes_length.
    exists (write_file d (target_path p v ow) (splice b o new)), (splice b o new). split.
    - unfold modify_symbol_value. change (2 ^ (8 * Z.of_nat uid_len_default)) with 65536.
      replace ((0 <=? v) && (v <? 65536)) with true by lia. cbn [negb].
      rewrite (find_known _ _ _ _ _ _ Hc Hp Hs). change (Z.of_nat uid_len_default) with 2.
      rewrite (read_placed _ _ _ _ Hpl). change uid_len_default with 2%nat. fold new.
      rewrite (write_placed _ _ _ _ _ Hpl Hn Ho Hl). reflexivity.
    - split; [apply content_same|]. split; [|split].
      + split; [apply splice_length; lia|]. intros k Hk. apply splice_other; lia.
      + apply content_other.
      + intros Hp'. unfold read_symbol. rewrite (find_known _ _ _ _ _ _ (content_same _ _ _) Hp' Hs).
        change (Z.of_nat 2) with 2. rewrite (read_placed _ _ _ _ Hpl).
        replace (o + 2) with (o + Z.of_nat (length new)) by lia. rewrite splice_same by lia.
        cbn [bind]. unfold last_n. rewrite Hn. cbn [Nat.sub skipn].
        unfold new. rewrite from_to_bytes; [reflexivity|]. change (2 ^ (8 * Z.of_nat 2)) with 65536. lia.
  Qed.

  Lemma patch_local d p sym v ow d' q b :
    content d p = Some b -> modify_symbol_value T d p sym v ow = (d', Ok (Some q)) ->
    exists b' o, content d' q = Some b' /\ same_except b b' o 2 /\ only_touches d d' q
                 /\ q = target_path p v ow /\ 0 <= v < 65536.
  Proof.
    intros Hc. unfold modify_symbol_value. change (2 ^ (8 * Z.of_nat uid_len_default)) with 65536.
    destruct ((0 <=? v) && (v <? 65536)) eqn:Ev; [|discriminate]. cbn [negb].
    unfold find_symbol, open_elf. rewrite Hc. destruct (parse_elf T b) as [e|]; [|discriminate].
    destruct (e_symbols e sym) as [a|]; [|discriminate].
    destruct (elf_read e b a _); [|discriminate].
    destruct (elf_write e b a _) as [b'|x] eqn:E; [|destruct x; discriminate].
    intros [= <- <-]. destruct (write_local _ _ _ _ _ E) as [o Ho]. rewrite to_bytes_length in Ho.
    exists b', o. split; [apply content_same|]. split; [exact Ho|]. split; [apply content_other|].
    split; [reflexivity | lia].
  Qed.

  Lemma patch_refused d p sym v ow : ~ (0 <= v < 65536) ->
    modify_symbol_value T d p sym v ow = (d, Err ValueError).
  Proof.
    intros H. unfold modify_symbol_value. change (2 ^ (8 * Z.of_nat uid_len_default)) with 65536.
    destruct ((0 <=? v) && (v <? 65536)) eqn:E; [lia | reflexivity].
  Qed.

  Lemma patch_failed d p sym v ow d' r : modify_symbol_value T d p sym v ow = (d', r) ->
    (forall q, r <> Ok (Some q)) -> d' = d.
  Proof.
    unfold modify_symbol_value.
    destruct (negb _); [intros [= <- _]; reflexivity|].
    destruct (find_symbol T d p sym) as [[[b e] a]|]; [|intros [= <- _]; reflexivity].
    destruct (elf_read _ _ _ _); [|intros [= <- _]; reflexivity].
    destruct (elf_write _ _ _ _) as [b'|x].
    - intros [= <- <-] H. exfalso. eapply H. reflexivity.
    - destruct x; intros [= <- _]; reflexivity.
  Qed.

  (** A symbol without bytes in the file (.bss). *)
  Lemma patch_bss d p sym v ow b e a l1 i l2 :
    content d p = Some b -> parse_elf T b = Some e -> e_symbols e sym = Some a -> 0 <= v < 65536 ->
    e_memory e = l1 ++ i :: l2 -> Forall (off_range a) l1 ->
    iv_begin i <= a -> a + 2 <= iv_end i -> iv_data i = Zeros ->
    modify_symbol_value T d p sym v ow = (d, Ok None).
  Proof.
    intros Hc Hp Hs Hv He H1 Hb Hen Hd. unfold modify_symbol_value.
    change (2 ^ (8 * Z.of_nat uid_len_default)) with 65536.
    replace ((0 <=? v) && (v <? 65536)) with true by lia. cbn [negb].
    rewrite (find_known _ _ _ _ _ _ Hc Hp Hs). change (Z.of_nat uid_len_default) with 2.
    assert (Hr : exists r, elf_read e b a 2 = Ok r).
    { unfold elf_read. replace (2 <=? 0) with false by lia. rewrite He, flat_map_app. cbn [flat_map].
      rewrite (clip_all_off _ _ H1). cbn [app]. unfold clip at 1 3 5.
      replace (Z.max a (iv_begin i)) with a by lia. replace (Z.min (a + 2) (iv_end i)) with (a + 2) by lia.
      replace (a <? a + 2) with true by lia. cbn [existsb fst snd app]. rewrite !Z.eqb_refl.
      cbn [orb andb]. eauto. }
    destruct Hr as [r ->].
    assert (Hw : elf_write e b a (to_bytes (e_little e) uid_len_default v) = Err AttributeError).
    { unfold elf_write. rewrite He, find_skip.
      - cbn [find]. replace ((iv_begin i <=? a) && (a <? iv_end i)) with true by lia. now rewrite Hd.
      - intros x Hx. rewrite Forall_forall in H1. specialize (H1 x Hx). unfold off_range in H1. lia. }
    now rewrite Hw.
  Qed.

  (* ---------------------------------------------------------------- hex images *)

  Lemma byte_at_iff h a v : byte_at h a = Some v <-> has_byte h a v.
  Proof.
    unfold has_byte. induction h as [|[x w] h IH]; cbn.
    - split; [discriminate | intros (h1 & h2 & H & _); now destruct h1].
    - destruct (Z.eqb_spec x a) as [->|Hx].
      + split.
        * intros [= ->]. exists [], h. split; [reflexivity | intros []].
        * intros (h1 & h2 & H & Hn). destruct h1 as [|[y u] h1].
          -- cbn in H. now injection H as -> _.
          -- injection H as -> -> _. exfalso. apply Hn. now left.
      + rewrite IH. split; intros (h1 & h2 & H & Hn).
        * exists ((x, w) :: h1), h2. subst h. split; [reflexivity|]. intros [C|C]; [now apply Hx | now apply Hn].
        * destruct h1 as [|[y u] h1]; [injection H as -> _ _; contradiction|].
          injection H as -> -> ->. exists h1, h2. split; [reflexivity|]. intros C. apply Hn. now right.
  Qed.

  Lemma minaddr_iff h m : minaddr h = Some m <-> least_address h m.
  Proof.
    unfold least_address. destruct h as [|[a v] h].
    - cbn. split; [discriminate | intros [[] _]].
    - cbn [minaddr map fst].
      assert (K : forall (l : ihex) (acc : Z), let r := fold_left (fun (m : Z) (x : Z * Z) => Z.min m (fst x)) l acc in
                  (r = acc \/ In r (map fst l)) /\ r <= acc /\ forall x, In x (map fst l) -> r <= x).
      { clear. induction l as [|[x w] l IH]; intros acc; cbn; [repeat split; [now left | lia | intros ? []]|].
        destruct (IH (Z.min acc x)) as (H1 & H2 & H3). split; [|split].
        - destruct H1 as [H1|H1]; [|auto].
          destruct (Z.min_spec acc x) as [[_ E]|[_ E]]; rewrite E in H1 at 2; auto.
        - lia.
        - intros y [<-|Hy]; [lia | auto]. }
      destruct (K h a) as (H1 & H2 & H3). split.
      + intros [= <-]. split; [destruct H1 as [H1|H1]; [left; symmetry; exact H1 | now right]|].
        intros x [<-|Hx]; auto.
      + intros [Hin Hle]. f_equal. apply Z.le_antisymm.
        * destruct Hin as [<-|Hin]; auto.
        * destruct H1 as [->|H1]; apply Hle; [now left | now right].
  Qed.

  Lemma msp430_iff b : hex_msp430 T b = Ok true <->
    exists h v, parse_hex T b = Some h /\ least_address h 0x4000 /\ reset_vector h v
                /\ memory_size T h <= 270000.
  Proof.
    unfold hex_msp430. split.
    - destruct (parse_hex T b) as [h|] eqn:Eh; [|discriminate]. unfold check_msp430.
      destruct (minaddr h) as [m|] eqn:Em; [|discriminate].
      destruct (Z.eqb_spec m 0x4000) as [->|]; [|discriminate]. cbn [negb].
      destruct (byte_at h 0xFFFE) as [lo|] eqn:El; [|discriminate].
      unfold gets2. rewrite El. change (0xFFFE + 1) with 0xFFFF.
      destruct (byte_at h 0xFFFF) as [hi|] eqn:Ehi; [|discriminate]. cbn [bind].
      destruct (_ && _) eqn:Eimp; [discriminate|]. intros [= H].
      exists h, (lo + 256 * hi). split; [reflexivity|]. split; [now apply minaddr_iff|].
      split; [|lia]. exists lo, hi. rewrite <- !byte_at_iff. auto.
    - intros (h & v & -> & Hm & (lo & hi & Hlo & Hhi & ->) & Hs).
      apply minaddr_iff in Hm. apply byte_at_iff in Hlo, Hhi.
      unfold check_msp430. rewrite Hm. cbn [negb Z.eqb]. rewrite Z.eqb_refl. cbn [negb].
      rewrite Hlo. unfold gets2. rewrite Hlo. change (0xFFFE + 1) with 0xFFFF. rewrite Hhi. cbn [bind].
      set (x := from_bytes true [lo; hi]).
      replace ((0x4000 >? x) && (x >=? 0xFF80)) with false by lia. f_equal. lia.
  Qed.

  (* ---------------------------------------------------------------- architecture *)

  (** What the image behind a file is: itself, or what objcopy makes of it. *)
  Definition image (b : bytes) : res bytes :=
    match parse_hex T b with Some _ => Ok b | None => elf_as_hex T b end.

  Lemma arch_answer d p b s : content d p = Some b -> determine_arch T d p = Ok s ->
    exists h, image b = Ok h
      /\ ((s = "msp430"%string /\ hex_msp430 T h = Ok true)
          \/ (s = "nrf52"%string /\ hex_msp430 T h = Ok false /\ hex_nrf52 T h = true)).
  Proof.
    intros Hc. unfold determine_arch, determine_type, is_hex, image. rewrite Hc.
    cbn [bind]. destruct (parse_hex T b) as [x|] eqn:Ex; cbn [bind].
    - unfold is_hex_msp430, is_hex_nrf52. rewrite Hc.
      destruct (hex_msp430 T b) as [[]|] eqn:Em; [| |discriminate]; cbn [bind].
      + intros [= <-]. exists b. auto.
      + destruct (hex_nrf52 T b) eqn:En; [|discriminate]. intros [= <-]. exists b. auto.
    - unfold is_elf. rewrite Hc. destruct (parse_elf T b) as [e|] eqn:Ee; [|discriminate]. cbn [bind].
      unfold is_elf_msp430, is_elf_nrf52, open_elf. rewrite Hc, Ee.
      destruct (elf_as_hex T b) as [h|]; [|discriminate]. cbn [bind].
      destruct (hex_msp430 T h) as [[]|] eqn:Em; [| |discriminate]; cbn [bind].
      + intros [= <-]. exists h. auto.
      + destruct (hex_nrf52 T h) eqn:En; [|discriminate]. intros [= <-]. exists h. auto.
  Qed.

  Lemma arch_empty d p b : content d p = Some b -> parse_hex T b = Some [] ->
    0 < memory_size T [] -> determine_arch T d p = Ok "nrf52"%string.
  Proof.
    intros Hc Hp Hm. unfold determine_arch, determine_type, is_hex, is_hex_msp430, is_hex_nrf52,
      hex_msp430, hex_nrf52. rewrite Hc, Hp. cbn. replace (0 <? memory_size T []) with true by lia.
    reflexivity.
  Qed.

  (* ---------------------------------------------------------------- embedding *)

  Lemma hash_after d f q b : content d q = Some b ->
    compare_hash T d f (Some q) = Ok (match fw_hash f with Some h => (h =? sha3 T b)%string | None => true end).
  Proof. intros H. unfold compare_hash. destruct (fw_hash f); [|reflexivity]. now rewrite H. Qed.

  (** Destination of an extraction. *)
  Definition destination (d : disk) (f : firmware) (p : path) : path :=
    with_suffix (if is_dir d p then join p (fw_name f) else p) (kind_suffix (fw_type_ f)).

  Lemma extract_embedded d f s b p : embedded f -> fw_data_ f = Text s -> unpack T s = Ok b ->
    extract_firmware T d f p
    = (write_file d (destination d f p) b, Ok (destination d f p)).
  Proof.
    intros He Hd Hu. unfold extract_firmware, tools_extract, destination, kind_suffix. rewrite Hd.
    destruct He as [->| ->]; rewrite Hu; erewrite hash_after by apply content_same; reflexivity.
  Qed.

  Lemma extract_path d f src b p : ~ embedded f -> fw_data_ f = AtPath src -> content d src = Some b ->
    src <> destination d f p ->
    extract_firmware T d f p
    = (write_file d (destination d f p) b, Ok (destination d f p)).
  Proof.
    intros He Hd Hc Hne. unfold extract_firmware, tools_extract. rewrite Hd.
    unfold destination, kind_suffix, embedded in *.
    destruct (fw_type_ f); try (exfalso; apply He; auto; fail); rewrite Hc;
      (destruct (path_eqb _ _) eqn:E; [apply path_eqb_iff in E; contradiction|]);
      erewrite hash_after by apply content_same; reflexivity.
  Qed.

  Lemma validated f f' : validate_firmware T f = Ok f' -> f' = f
    /\ (embedded f -> exists s b, fw_data_ f = Text s /\ unpack T s = Ok b
                      /\ (forall h, fw_hash f = Some h -> sha3 T b = h)).
  Proof.
    unfold validate_firmware, embedded, base64_to_hash.
    destruct (fw_type_ f); try (intros [= <-]; split; [reflexivity | intros [C|C]; discriminate C]).
    - destruct (fw_data_ f) as [s|]; [|discriminate].
      destruct (unpack T s) as [b|x] eqn:E; cbn [bind]; [|destruct x; discriminate].
      destruct (fw_hash f) as [h|].
      + destruct (String.eqb_spec (sha3 T b) h) as [<-|]; [|discriminate]. intros [= <-].
        split; [reflexivity|]. intros _. exists s, b. repeat split; auto. now intros h [= <-].
      + intros [= <-]. split; [reflexivity|]. intros _. exists s, b. repeat split; auto. discriminate.
    - destruct (fw_data_ f) as [s|]; [|discriminate].
      destruct (unpack T s) as [b|x] eqn:E; cbn [bind]; [|destruct x; discriminate].
      destruct (fw_hash f) as [h|].
      + destruct (String.eqb_spec (sha3 T b) h) as [<-|]; [|discriminate]. intros [= <-].
        split; [reflexivity|]. intros _. exists s, b. repeat split; auto. now intros h [= <-].
      + intros [= <-]. split; [reflexivity|]. intros _. exists s, b. repeat split; auto. discriminate.
  Qed.

  Lemma from_firmware_inv d p b embed ty mcu name f : content d p = Some b ->
    from_firmware T d p embed ty mcu name = Ok f ->
    fw_data_ f = (if embed then Text (pack T b) else AtPath p) /\ fw_hash f = Some (sha3 T b)
    /\ (embed = false -> ~ embedded f)
    /\ fw_name f = match name with Some n => n | None => snd p end
    /\ (embed = true -> ty = None -> embedded f)
    /\ (embed = true -> forall t, ty = Some t -> fw_type_ f = t)
    /\ validate_firmware T f = Ok f.
  Proof.
    intros Hc. unfold from_firmware, file_to_hash, file_to_base64. rewrite Hc. cbn [bind].
    destruct (match ty with Some t => Ok t | None => suffix_to_dtype (lower (suffix (snd p))) end)
      as [t|] eqn:Et; [|discriminate]. cbn [bind].
    match goal with |- context [bind ?x _] => destruct x as [m|]; [|discriminate] end. cbn [bind].
    destruct (if embed then Ok t else to_path_dtype t) as [t'|] eqn:Et'; [|discriminate]. cbn [bind].
    destruct m as [m|]; [|discriminate]. cbn [bind]. intros H.
    assert (Hv := H). apply validated in H as [-> _]. cbn [fw_data_ fw_hash fw_name] in *.
    split; [reflexivity|]. split; [reflexivity|]. split; [|split; [reflexivity|split; [|split]]].
    - intros ->. unfold embedded. cbn [fw_type_]. unfold to_path_dtype in Et'.
      destruct t; try discriminate; injection Et' as <-; intros [C|C]; discriminate C.
    - intros -> ->. injection Et' as <-. unfold embedded. cbn [fw_type_]. unfold suffix_to_dtype in Et.
      destruct (existsb _ _); [injection Et as <-; auto|].
      destruct (existsb _ _); [injection Et as <-; auto | discriminate].
    - intros -> u ->. injection Et as <-. now injection Et' as <-.
    - exact Hv.
  Qed.

  (** Type and controller. *)
  Lemma from_firmware_mcu d p b embed ty name f : content d p = Some b ->
    from_firmware T d p embed ty None name = Ok f ->
    match ty with Some t => Ok t | None => suffix_to_dtype (lower (suffix (snd p))) end
      = Ok (match fw_type_ f with PathHex => Base64Hex | PathElf => Base64Elf | t => t end)
    /\ match fw_type_ f with
       | Base64Hex | PathHex =>
         (fw_mcu f = "msp430fr"%string /\ hex_msp430 T b = Ok true)
         \/ (fw_mcu f = "nrf52"%string /\ hex_msp430 T b = Ok false /\ hex_nrf52 T b = true)
       | Base64Elf | PathElf =>
         exists e h, parse_elf T b = Some e /\ e_exec e = true /\ objcopy T b = Some h
           /\ ((fw_mcu f = "msp430fr"%string /\ In (e_arch e) ["em_msp430"; "msp430"]%string
                /\ hex_msp430 T h = Ok true)
              \/ (fw_mcu f = "nrf52"%string /\ In (e_arch e) ["arm"; "nrf52"]%string
                  /\ hex_nrf52 T h = true))
       end.
  Proof.
    intros Hc. unfold from_firmware, file_to_hash, file_to_base64. rewrite Hc. cbn [bind].
    destruct (match ty with Some t => Ok t | None => suffix_to_dtype (lower (suffix (snd p))) end)
      as [t|] eqn:Et; [|discriminate]. cbn [bind].
    destruct t.
    - unfold is_hex_msp430, is_hex_nrf52. rewrite Hc.
      destruct (hex_msp430 T b) as [[]|] eqn:Em; [| |discriminate]; cbn [bind].
      + destruct embed; cbn [bind to_path_dtype arch_to_mcu]; intros H; apply validated in H as [-> _]; cbn; auto.
      + destruct (hex_nrf52 T b) eqn:En; [|discriminate]. cbn [bind].
        destruct embed; cbn [bind to_path_dtype arch_to_mcu]; intros H; apply validated in H as [-> _]; cbn; auto 6.
    - destruct (read_arch T d p) as [arch|] eqn:Ea; [|discriminate].
      unfold read_arch, open_elf in Ea. rewrite Hc in Ea.
      destruct (parse_elf T b) as [e|] eqn:Ee; [|discriminate].
      destruct (e_exec e) eqn:Ex; [|discriminate]. injection Ea as <-.
      unfold is_elf_msp430, is_elf_nrf52, open_elf, elf_as_hex. rewrite Hc, Ee.
      match goal with |- context [bind (bind ?x _) _] => destruct x as [[]|] eqn:E1; [|discriminate] end.
      cbn [bind].
      match goal with |- context [bind (bind ?x _) _] => destruct x as [[]|] eqn:E2; [|discriminate] end.
      cbn [bind].
      destruct (arch_to_mcu (e_arch e)) as [m|] eqn:Em; [|discriminate]. cbn [bind].
      assert (K : exists h, objcopy T b = Some h /\
                 ((m = "msp430fr"%string /\ In (e_arch e) ["em_msp430"; "msp430"]%string
                   /\ hex_msp430 T h = Ok true)
                  \/ (m = "nrf52"%string /\ In (e_arch e) ["arm"; "nrf52"]%string
                      /\ hex_nrf52 T h = true))).
      { unfold arch_to_mcu in Em.
        destruct (String.eqb_spec (e_arch e) "em_msp430") as [A|A];
          [|destruct (String.eqb_spec (e_arch e) "msp430") as [B|B]];
          [| |destruct (String.eqb_spec (e_arch e) "arm") as [C|C];
              [|destruct (String.eqb_spec (e_arch e) "nrf52") as [D|D]]]; cbn [orb] in Em; try discriminate;
          injection Em as <-.
        - rewrite A in *. change (contains "msp430" "em_msp430") with true in E1. cbv iota in E1.
          destruct (objcopy T b) as [h|]; [|discriminate]. cbn [bind] in E1.
          destruct (hex_msp430 T h) as [[]|] eqn:Eh; try discriminate. exists h. split; [reflexivity|].
          left. cbn. auto.
        - rewrite B in *. change (contains "msp430" "msp430") with true in E1. cbv iota in E1.
          destruct (objcopy T b) as [h|]; [|discriminate]. cbn [bind] in E1.
          destruct (hex_msp430 T h) as [[]|] eqn:Eh; try discriminate. exists h. split; [reflexivity|].
          left. cbn. auto.
        - rewrite C in *. change (contains "nrf52" "arm" || contains "arm" "arm") with true in E2. cbv iota in E2.
          destruct (objcopy T b) as [h|]; [|discriminate]. cbn [bind] in E2.
          destruct (hex_nrf52 T h) eqn:Eh; try discriminate. exists h. split; [reflexivity|].
          right. cbn. auto.
        - rewrite D in *. change (contains "nrf52" "nrf52" || contains "arm" "nrf52") with true in E2. cbv iota in E2.
          destruct (objcopy T b) as [h|]; [|discriminate]. cbn [bind] in E2.
          destruct (hex_nrf52 T h) eqn:Eh; try discriminate. exists h. split; [reflexivity|].
          right. cbn. auto. }
      destruct K as (h & Kh & K).
      destruct embed; cbn [bind to_path_dtype]; intros H; apply validated in H as [-> _]; cbn [fw_type_ fw_mcu];
        (split; [reflexivity|]); exists e, h; auto.
    - cbn [bind]. destruct embed; discriminate.
    - cbn [bind]. destruct embed; discriminate.
  Qed.

  Lemma destination_nodot d f p : is_dir d p = true -> no_dot (fw_name f) ->
    destination d f p = ((fst p ++ "/" ++ snd p)%string, (fw_name f ++ kind_suffix (fw_type_ f))%string).
  Proof.
    intros Hd Hn. unfold destination, with_suffix, join. rewrite Hd. cbn [fst snd].
    now rewrite (stem_nodot _ Hn).
  Qed.

  Lemma destination_distinct d f g p : is_dir d p = true -> no_dot (fw_name f) -> no_dot (fw_name g) ->
    fw_name f <> fw_name g -> destination d f p <> destination d g p.
  Proof.
    intros Hd Hf Hg Hne. rewrite !destination_nodot by assumption. intros H.
    apply (f_equal snd) in H. cbn [snd] in H. unfold kind_suffix in H.
    assert (K : forall a b, (a ++ ".hex")%string = (b ++ ".elf")%string -> False).
    { clear. intros a b H.
      assert (L : String.length a = String.length b).
      { apply (f_equal String.length) in H. rewrite !append_length in H. cbn in H. lia. }
      revert b H L. induction a as [|c a IH]; intros [|x b] H L; cbn in *; try lia; try discriminate.
      injection H as _ H. eapply IH; eauto. }
    destruct (fw_type_ f), (fw_type_ g);
      (apply append_inj_r in H; contradiction) || (eapply K; eauto; fail) || (symmetry in H; eapply K; eauto).
  Qed.

  (* ---------------------------------------------------------------- conversion *)

  Lemma to_hex_untouched d p d' r : firmware_to_hex T d p = (d', r) ->
    only_touches d d' (with_suffix p ".hex").
  Proof.
    unfold firmware_to_hex. destruct (content d p) as [b|]; [|intros [= <- _] q _; reflexivity].
    destruct (is_elf T d p).
    - destruct (elf_as_hex T b); intros [= <- _]; [apply content_other | intros q _; reflexivity].
    - destruct (is_hex T d p) as [[]|]; intros [= <- _] q _; reflexivity.
  Qed.

  Lemma to_hex_ok d p d' q b : content d p = Some b -> firmware_to_hex T d p = (d', Ok q) ->
    (parse_elf T b = None /\ q = p /\ d' = d /\ exists h, parse_hex T b = Some h)
    \/ (exists e h, parse_elf T b = Some e /\ objcopy T b = Some h /\ q = with_suffix p ".hex"
        /\ content d' q = Some h).
  Proof.
    intros Hc. unfold firmware_to_hex, is_elf, is_hex, elf_as_hex. rewrite Hc.
    destruct (parse_elf T b) as [e|] eqn:Ee.
    - destruct (objcopy T b) as [h|]; [|discriminate]. intros [= <- <-]. right.
      exists e, h. repeat split; auto. apply content_same.
    - destruct (parse_hex T b) as [h|] eqn:Eh; [|discriminate]. intros [= <- <-]. left. repeat split; eauto.
  Qed.
End Tools.
