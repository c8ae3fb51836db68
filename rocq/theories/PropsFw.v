(** Properties of the firmware tools (C51, C52, C62 - C66).
    Vocabulary: FwSpec.v; code: FwModel.v. *)
From Coq Require Import String Ascii.
From Verif Require Import PyBase FileModel FileSpec FileSysProofs FwModel FwSpec FwProofs.
Open Scope Z_scope.

(** * C51 Patching a firmware symbol changes exactly that symbol *)

Theorem C51_patch_reads_back :
  forall T d p sym v overwrite b e a o,
    content d p = Some b -> parse_elf T b = Some e -> e_symbols e sym = Some a -> placed e a o ->
    0 <= o -> o + 2 <= Z.of_nat (length b) -> 0 <= v < 65536 ->
    exists d' q b',
      modify_symbol_value T d p sym v overwrite = (d', Ok (Some q))
      /\ content d' q = Some b' /\ same_except b b' (Z.to_nat o) 2 /\ only_touches d d' q
      /\ (overwrite = true -> q = p) /\ (overwrite = false -> q <> p)
      /\ (parse_elf T b' = Some e -> read_symbol T d' q sym 2 = Ok (Some v)).
Proof.
  intros T d p sym v ow b e a o Hc Hp Hs Hpl Ho Hl Hv.
  destruct (patch_reads_back T d p sym v ow b e a o Hc Hp Hs Hpl Ho Hl Hv) as (d' & b' & H1 & H2 & H3 & H4 & H5).
  exists d', (target_path p v ow), b'. repeat (split; [assumption|]). split; [|split; [|assumption]].
  - intros ->. reflexivity.
  - intros ->. apply target_new.
Qed.
Print Assumptions C51_patch_reads_back.

(** Without any assumption on the layout: at most two neighbouring bytes of one file change. *)
Theorem C51_change_is_local :
  forall T d p sym v overwrite d' q b,
    content d p = Some b -> modify_symbol_value T d p sym v overwrite = (d', Ok (Some q)) ->
    exists b' o, content d' q = Some b' /\ same_except b b' o 2 /\ only_touches d d' q
      /\ (overwrite = true -> q = p) /\ (overwrite = false -> q <> p) /\ 0 <= v < 65536.
Proof.
  intros T d p sym v ow d' q b Hc H.
  destruct (patch_local T d p sym v ow d' q b Hc H) as (b' & o & H1 & H2 & H3 & -> & Hv).
  exists b', o. repeat (split; [assumption|]). split; [|split; [|assumption]].
  - intros ->. reflexivity.
  - intros ->. apply target_new.
Qed.
Print Assumptions C51_change_is_local.

(** The new file lies next to the old one and is named after the value. *)
Theorem C51_new_name :
  forall T d dir s t sym v d' q,
    s <> EmptyString -> t <> EmptyString -> no_dot t ->
    modify_symbol_value T d (dir, s ++ String "."%char t)%string sym v false = (d', Ok (Some q)) ->
    q = (dir, s ++ "_" ++ dec (Z.to_nat v) ++ String "."%char t)%string.
Proof.
  intros T d dir s t sym v d' q Hs Ht Hd H.
  unfold modify_symbol_value in H. destruct (negb _); [discriminate|].
  destruct (find_symbol _ _ _ _) as [[[b e] a]|]; [|discriminate].
  destruct (elf_read _ _ _ _); [|discriminate].
  destruct (elf_write _ _ _ _) as [b'|x]; [|destruct x; discriminate].
  injection H as _ <-. unfold stem, suffix. cbn [fst snd]. now rewrite split_plain.
Qed.
Print Assumptions C51_new_name.

Theorem C51_too_large_rejected :
  forall T d p sym v overwrite, ~ (0 <= v < 65536) ->
    modify_symbol_value T d p sym v overwrite = (d, Err ValueError).
Proof. exact patch_refused. Qed.
Print Assumptions C51_too_large_rejected.

(** Without a returned path nothing was written. *)
Theorem C51_failure_leaves_files :
  forall T d p sym v overwrite d' r,
    modify_symbol_value T d p sym v overwrite = (d', r) -> (forall q, r <> Ok (Some q)) -> d' = d.
Proof. exact patch_failed. Qed.
Print Assumptions C51_failure_leaves_files.

(** A symbol that has no bytes in the file (.bss) is not patched, and that is reported. *)
Theorem C51_uninitialised_symbol :
  forall T d p sym v overwrite b e a l1 i l2,
    content d p = Some b -> parse_elf T b = Some e -> e_symbols e sym = Some a -> 0 <= v < 65536 ->
    e_memory e = l1 ++ i :: l2 -> Forall (off_range a) l1 ->
    iv_begin i <= a -> a + 2 <= iv_end i -> iv_data i = Zeros ->
    modify_symbol_value T d p sym v overwrite = (d, Ok None).
Proof. exact patch_bss. Qed.
Print Assumptions C51_uninitialised_symbol.

(** A small world: an ELF starts with 127, a hex file with 58; text is the number of bytes. *)
Definition toy_elf (little : bool) : elf :=
  mkElf (fun s => if (s =? "SHEPHERD_NODE_ID")%string then Some 0x2004 else None) little
    [mkIv 0x1000 0x1010 Zeros; mkIv 0x2000 0x2008 (InFile 2)] "msp430" true.
Definition toy (h : ihex) : tools :=
  mkTools (fun b => if hd 0 b =? 127 then Some (toy_elf (nth 1 b 0 =? 1)) else None)
    (fun b => if hd 0 b =? 58 then Some h else None)
    (fun h => 48 + 8 * Z.of_nat (length h)) (fun b => Some (58 :: b))
    (fun b => dec (length b)) (fun _ => Err ValueError) (fun b => dec (length b)).

Example C51_example :
  let d := mkDisk [(("dir", "fw.elf")%string, [127; 0; 10; 11; 12; 13; 14; 15; 16; 17])] [] in
  let '(d', r) := modify_symbol_value (toy []) d ("dir", "fw.elf")%string "SHEPHERD_NODE_ID" 0x1234 false in
  r = Ok (Some ("dir", "fw_4660.elf")%string)
  /\ content d' ("dir", "fw_4660.elf")%string = Some [127; 0; 10; 11; 12; 13; 0x12; 0x34; 16; 17]
  /\ read_uid (toy []) d' ("dir", "fw_4660.elf")%string = Ok (Some 0x1234)
  /\ read_uid (toy []) d' ("dir", "fw.elf")%string = Ok (Some (14 * 256 + 15)).
Proof. vm_compute. repeat split. Qed.

(** * C52 MSP430 hex check validates the start address *)

(** Exactly these images are accepted; missing: any condition on the start address [v]. *)
Theorem C52_accepted_iff_partial :
  forall T b, hex_msp430 T b = Ok true <->
    exists h v, parse_hex T b = Some h /\ least_address h 0x4000 /\ reset_vector h v
      /\ memory_size T h <= 270000.
Proof. exact msp430_iff. Qed.
Print Assumptions C52_accepted_iff_partial.

(** Start address 0: neither in the FRAM nor above. *)
Theorem C52_start_address_refuted :
  exists T b h v, parse_hex T b = Some h /\ reset_vector h v /\ ~ (0x4000 <= v < 0xFF80)
    /\ hex_msp430 T b = Ok true.
Proof.
  pose (h := [(0x4000, 1); (0xFFFE, 0); (0xFFFF, 0)]).
  exists (toy h), [58], h, 0. split; [reflexivity|]. split.
  - exists 0, 0. rewrite <- !byte_at_iff. repeat split.
  - split; [lia | reflexivity].
Qed.
Print Assumptions C52_start_address_refuted.

(** With only one byte of the reset vector present, the check raises. *)
Theorem C52_half_vector_refuted :
  exists T b, hex_msp430 T b = Err RuntimeError.
Proof. exists (toy [(0x4000, 1); (0xFFFE, 0)]), [58]. reflexivity. Qed.
Print Assumptions C52_half_vector_refuted.

(** * C62 The reported architecture fits the file *)

(** The answer agrees with the checks of the image (for ELF files: of what objcopy makes of it). *)
Theorem C62_answer_partial :
  forall T d p b s, content d p = Some b -> determine_arch T d p = Ok s ->
    exists h, (h = b \/ objcopy T b = Some h)
      /\ ((s = "msp430"%string /\ hex_msp430 T h = Ok true)
          \/ (s = "nrf52"%string /\ hex_msp430 T h = Ok false
              /\ exists x, parse_hex T h = Some x /\ 0 < memory_size T x)).
Proof.
  intros T d p b s Hc H. destruct (arch_answer T d p b s Hc H) as (h & Hi & K).
  exists h. split.
  - unfold image, elf_as_hex in Hi. destruct (parse_hex T b); [left; congruence|].
    right. destruct (objcopy T b); congruence.
  - destruct K as [K|(K1 & K2 & K3)]; [left; exact K|]. right. split; [exact K1|]. split; [exact K2|].
    unfold hex_nrf52 in K3. destruct (parse_hex T h) as [x|]; [|discriminate]. exists x.
    split; [reflexivity | now apply Z.ltb_lt].
Qed.
Print Assumptions C62_answer_partial.

(** A hex file without any data is a firmware for the nRF52: the size that is looked at is that of
    the Python object, which is never 0. *)
Theorem C62_empty_refuted :
  forall T d p b, content d p = Some b -> parse_hex T b = Some [] -> 0 < memory_size T [] ->
    determine_arch T d p = Ok "nrf52"%string.
Proof. exact arch_empty. Qed.
Print Assumptions C62_empty_refuted.

Example C62_example :
  let d := mkDisk [(("", "a.elf")%string, [127; 0]); (("", "b.hex")%string, [58; 1]);
                   (("", "c.txt")%string, [1])] [] in
  determine_arch (toy [(0x4000, 1); (0xFFFE, 0); (0xFFFF, 0x44)]) d ("", "a.elf")%string = Ok "msp430"%string
  /\ determine_arch (toy [(0, 1)]) d ("", "b.hex")%string = Ok "nrf52"%string
  /\ determine_arch (toy []) d ("", "b.hex")%string = Ok "nrf52"%string
  /\ determine_arch (toy []) d ("", "c.txt")%string = Err ValueError.
Proof. repeat split. Qed.

(** * C63 An embedded firmware is extracted unchanged *)

Theorem C63_embedded_roundtrip :
  forall T d p b ty mcu name f,
    lossless T -> content d p = Some b ->
    from_firmware T d p true ty mcu name = Ok f -> embedded f ->
    compare_hash T d f None = Ok true
    /\ forall d2 dst, exists d2' q,
         extract_firmware T d2 f dst = (d2', Ok q) /\ content d2' q = Some b /\ only_touches d2 d2' q.
Proof.
  intros T d p b ty mcu name f Hl Hc Hf He.
  destruct (from_firmware_inv T d p b true ty mcu name f Hc Hf) as (H1 & H2 & _).
  split.
  - unfold compare_hash, base64_to_hash. rewrite H2, H1, Hl. cbn [bind]. now rewrite String.eqb_refl.
  - intros d2 dst. do 2 eexists. split; [exact (extract_embedded T d2 f _ b dst He H1 (Hl b))|].
    split; [apply content_same | apply content_other].
Qed.
Print Assumptions C63_embedded_roundtrip.

(** The type is an embedded one unless the caller asked for another. *)
Theorem C63_embedded_by_default :
  forall T d p b mcu name f, content d p = Some b ->
    from_firmware T d p true None mcu name = Ok f -> embedded f.
Proof. intros T d p b mcu name f Hc H. apply (from_firmware_inv T d p b true None mcu name f Hc H); reflexivity. Qed.
Print Assumptions C63_embedded_by_default.

(** Embedded data that cannot be unpacked, is a path or has another hash is refused as a wrong value. *)
Theorem C63_refused : forall T f s h b, fw_type_ f = Base64Hex \/ fw_type_ f = Base64Elf ->
  (fw_data_ f = AtPath s -> validate_firmware T f = Err ValueError) /\
  (forall t, fw_data_ f = Text t -> unpack T t = Err ValueError -> validate_firmware T f = Err ValueError) /\
  (forall t, fw_data_ f = Text t -> unpack T t = Ok b -> fw_hash f = Some h -> h <> sha3 T b -> validate_firmware T f = Err ValueError).
Proof.
  intros T f s h b Y. unfold validate_firmware, base64_to_hash. destruct Y as [-> | ->]; (split; [intros ->; reflexivity|]; split; [intros t -> ->; reflexivity|];
    intros t -> -> -> N; cbn [bind]; destruct (String.eqb_spec (sha3 T b) h); [congruence|reflexivity]).
Qed.
Print Assumptions C63_refused.

(** Of every accepted embedded firmware with a hash: what is extracted has that hash. *)
Theorem C63_hash_kept :
  forall T f f' h, validate_firmware T f = Ok f' -> embedded f' -> fw_hash f' = Some h ->
    forall d dst, exists d' q b,
      extract_firmware T d f' dst = (d', Ok q) /\ content d' q = Some b /\ sha3 T b = h.
Proof.
  intros T f f' h Hv He Hh d dst. destruct (validated T f f' Hv) as [-> K].
  destruct (K He) as (s & b & Hd & Hu & Hk).
  do 3 eexists. split; [exact (extract_embedded T d f s b dst He Hd Hu)|].
  split; [apply content_same | now apply Hk].
Qed.
Print Assumptions C63_hash_kept.

(** A firmware given by path is copied as it is then. *)
Theorem C63_path_copied :
  forall T d p ty mcu name f, from_firmware T d p false ty mcu name = Ok f ->
    forall d2 b2 dst, content d2 p = Some b2 ->
      match extract_firmware T d2 f dst with
      | (d2', Ok q) => content d2' q = Some b2 /\ only_touches d2 d2' q
      | (d2', Err e) => e = OSError /\ d2' = d2
      end.
Proof.
  intros T d p ty mcu name f Hf d2 b2 dst Hc2.
  destruct (content d p) as [b|] eqn:Hc.
  2:{ unfold from_firmware, file_to_hash in Hf. rewrite Hc in Hf. discriminate Hf. }
  destruct (from_firmware_inv T d p b false ty mcu name f Hc Hf) as (H1 & H2 & H3 & _).
  destruct (path_eqb p (destination d2 f dst)) eqn:E.
  - unfold extract_firmware, tools_extract. rewrite H1. unfold destination, kind_suffix in E.
    specialize (H3 eq_refl). unfold embedded in H3.
    destruct (fw_type_ f); try (exfalso; apply H3; auto; fail); rewrite Hc2, E; auto.
  - rewrite (extract_path T d2 f p b2 dst (H3 eq_refl) H1 Hc2).
    + split; [apply content_same | apply content_other].
    + intros C. apply path_eqb_iff in C. congruence.
Qed.
Print Assumptions C63_path_copied.

(** If the file was replaced in the meantime, the extraction still succeeds. *)
Theorem C63_stale_path_refuted :
  exists T d p f d2 dst d2' q b h,
    from_firmware T d p false None None None = Ok f /\ fw_hash f = Some h
    /\ extract_firmware T d2 f dst = (d2', Ok q) /\ content d2' q = Some b /\ sha3 T b <> h.
Proof.
  pose (h := [(0x4000, 1); (0xFFFE, 0); (0xFFFF, 0x44)]).
  pose (d := mkDisk [(("", "a.elf")%string, [127; 0])] []).
  pose (d2 := mkDisk [(("", "a.elf")%string, [127; 0; 5])] []).
  exists (toy h), d, ("", "a.elf")%string. do 1 eexists. exists d2, ("", "x")%string.
  do 4 eexists. split; [vm_compute; reflexivity|]. split; [reflexivity|]. split; [vm_compute; reflexivity|].
  split; [vm_compute; reflexivity|]. vm_compute. discriminate.
Qed.
Print Assumptions C63_stale_path_refuted.

(** * C64 Firmwares extracted into one directory do not overwrite each other *)

Theorem C64_plain_names_partial :
  forall T d f g dir b1 b2 s1 s2,
    is_dir d dir = true -> no_dot (fw_name f) -> no_dot (fw_name g) -> fw_name f <> fw_name g ->
    embedded f -> fw_data_ f = Text s1 -> unpack T s1 = Ok b1 ->
    embedded g -> fw_data_ g = Text s2 -> unpack T s2 = Ok b2 ->
    exists d1 d2 q1 q2,
      extract_firmware T d f dir = (d1, Ok q1) /\ extract_firmware T d1 g dir = (d2, Ok q2)
      /\ content d2 q1 = Some b1 /\ content d2 q2 = Some b2.
Proof.
  intros T d f g dir b1 b2 s1 s2 Hd Nf Ng Hne Ef Df Uf Eg Dg Ug.
  pose proof (extract_embedded T d f s1 b1 dir Ef Df Uf) as H1.
  pose proof (extract_embedded T (write_file d (destination d f dir) b1) g s2 b2 dir Eg Dg Ug) as H2.
  do 4 eexists. split; [exact H1|]. split; [exact H2|]. split; [|apply content_same].
  rewrite content_other; [apply content_same|].
  exact (destination_distinct d f g dir Hd Nf Ng Hne).
Qed.
Print Assumptions C64_plain_names_partial.

(** The part of a name behind its last dot is lost. *)
Theorem C64_dotted_names_refuted :
  exists T d dir f g d1 d2 q,
    is_dir d dir = true /\ fw_name f <> fw_name g
    /\ validate_firmware T f = Ok f /\ validate_firmware T g = Ok g
    /\ extract_firmware T d f dir = (d1, Ok q) /\ extract_firmware T d1 g dir = (d2, Ok q)
    /\ content d1 q <> content d2 q.
Proof.
  pose (T := mkTools (fun _ => None) (fun _ => None) (fun _ => 0) (fun _ => None) (fun _ => ""%string)
               (fun s => Ok [Z.of_nat (String.length s)]) (fun _ => ""%string)).
  exists T, (mkDisk [] [("", "out")%string]), ("", "out")%string.
  exists (mkFirmware "blink-1.0" "nrf52" (Text "AAA") Base64Elf None false).
  exists (mkFirmware "blink-1.1" "nrf52" (Text "AAAA") Base64Elf None false).
  do 3 eexists. split; [reflexivity|]. split; [discriminate|]. split; [reflexivity|]. split; [reflexivity|].
  split; [vm_compute; reflexivity|]. split; [vm_compute; reflexivity|]. vm_compute. discriminate.
Qed.
Print Assumptions C64_dotted_names_refuted.

(** * C65 Converting a firmware to hex leaves the original alone *)

(** Only the file with the suffix .hex is written; missing: sources that have that name. *)
Theorem C65_source_kept_partial :
  forall T d p d' r, snd p <> (stem (snd p) ++ ".hex")%string ->
    firmware_to_hex T d p = (d', r) -> content d' p = content d p.
Proof.
  intros T d p d' r Hs H. apply (to_hex_untouched T d p d' r H).
  destruct p as [dir name]. unfold with_suffix. cbn [fst snd] in *. congruence.
Qed.
Print Assumptions C65_source_kept_partial.

Theorem C65_result :
  forall T d p d' q b, content d p = Some b -> firmware_to_hex T d p = (d', Ok q) ->
    (parse_elf T b = None /\ q = p /\ d' = d /\ exists h, parse_hex T b = Some h)
    \/ (exists e h, parse_elf T b = Some e /\ objcopy T b = Some h
        /\ q = (fst p, stem (snd p) ++ ".hex")%string /\ content d' q = Some h /\ only_touches d d' q).
Proof.
  intros T d p d' q b Hc H. destruct (to_hex_ok T d p d' q b Hc H) as [K|(e & h & K1 & K2 & K3 & K4)].
  - left. exact K.
  - right. exists e, h. subst q. repeat (split; [assumption || reflexivity|]).
    exact (to_hex_untouched T d p d' _ H).
Qed.
Print Assumptions C65_result.

(** An ELF file named *.hex is overwritten by its conversion. *)
Theorem C65_elf_named_hex_refuted :
  exists T d p d' q, firmware_to_hex T d p = (d', Ok q) /\ content d' p <> content d p
    /\ content d p <> None.
Proof.
  exists (toy []), (mkDisk [(("", "fw.hex")%string, [127; 0])] []), ("", "fw.hex")%string.
  do 2 eexists. split; [vm_compute; reflexivity|]. split; vm_compute; discriminate.
Qed.
Print Assumptions C65_elf_named_hex_refuted.

(** * C66 Type and controller of a firmware are those of the file *)

Theorem C66_type_and_controller :
  forall T d p b embed name f, content d p = Some b ->
    from_firmware T d p embed None None name = Ok f ->
    match fw_type_ f with
    | Base64Hex | PathHex =>
      In (lower (suffix (snd p))) [".hex"; ".ihex"; ".ihx"]%string
      /\ ((fw_mcu f = "msp430fr"%string /\ hex_msp430 T b = Ok true)
          \/ (fw_mcu f = "nrf52"%string /\ hex_msp430 T b = Ok false /\ hex_nrf52 T b = true))
    | Base64Elf | PathElf =>
      In (lower (suffix (snd p))) [".elf"; ".bin"; ".o"; ".out"; ".so"]%string
      /\ exists e h, parse_elf T b = Some e /\ e_exec e = true /\ objcopy T b = Some h
        /\ ((fw_mcu f = "msp430fr"%string /\ In (e_arch e) ["em_msp430"; "msp430"]%string
             /\ hex_msp430 T h = Ok true)
           \/ (fw_mcu f = "nrf52"%string /\ In (e_arch e) ["arm"; "nrf52"]%string
               /\ hex_nrf52 T h = true))
    end.
Proof.
  intros T d p b embed name f Hc H.
  destruct (from_firmware_mcu T d p b embed None name f Hc H) as [Ht K].
  set (s := lower (suffix (snd p))) in *. clearbody s. unfold suffix_to_dtype in Ht.
  assert (M : forall l, existsb (String.eqb s) l = true -> In s l).
  { intros l Hl. apply existsb_exists in Hl as (x & Hx & E). apply String.eqb_eq in E. now subst. }
  destruct (existsb (String.eqb s) [".hex"; ".ihex"; ".ihx"]%string) eqn:E1.
  - apply M in E1. destruct (fw_type_ f); try discriminate Ht; auto.
  - destruct (existsb (String.eqb s) [".elf"; ".bin"; ".o"; ".out"; ".so"]%string) eqn:E2; [|discriminate].
    apply M in E2. destruct (fw_type_ f); try discriminate Ht; auto.
Qed.
Print Assumptions C66_type_and_controller.

Example C66_example :
  let d := mkDisk [(("", "a.ELF")%string, [127; 0])] [] in
  from_firmware (toy [(0x4000, 1); (0xFFFE, 0); (0xFFFF, 0x44)]) d ("", "a.ELF")%string false None None None
  = Ok (mkFirmware "a.ELF" "msp430fr" (AtPath ("", "a.ELF")%string) PathElf (Some "2"%string) true).
Proof. vm_compute. reflexivity. Qed.
