(** More about the firmware tools (C51, C62, C66). Vocabulary: FwSpec.v, FwMoreSpec.v; code: FwModel.v. *)
From Coq Require Import String.
From Verif Require Import PyBase FileModel FileSpec FileSysProofs FwModel FwSpec FwProofs FwMoreSpec FwMoreProofs.
Open Scope Z_scope.
Open Scope list_scope.

(** * C51 Reading symbols *)

(** A symbol of any size is read from the place of the file behind its address, in the byte
    order of the file. *)
Theorem C51_read_value :
  forall T d p sym n b e a i o, (0 < n)%nat ->
    content d p = Some b -> parse_elf T b = Some e -> e_symbols e sym = Some a ->
    only_in e a (Z.of_nat n) i -> iv_data i = InFile o -> 0 <= o + (a - iv_begin i) ->
    o + (a - iv_begin i) + Z.of_nat n <= Z.of_nat (length b) ->
    read_symbol T d p sym n = Ok (Some (value_at b (Z.to_nat (o + (a - iv_begin i))) n (e_little e))).
Proof. exact read_initialised. Qed.
Print Assumptions C51_read_value.

(** A symbol without bytes in the file is read as zero. *)
Theorem C51_read_uninitialised :
  forall T d p sym n b e a i, (0 < n)%nat ->
    content d p = Some b -> parse_elf T b = Some e -> e_symbols e sym = Some a ->
    only_in e a (Z.of_nat n) i -> iv_data i = Zeros -> read_symbol T d p sym n = Ok (Some 0).
Proof. exact read_uninitialised. Qed.
Print Assumptions C51_read_uninitialised.

(** A symbol whose first or last byte is in no interval of the memory cannot be read. *)
Theorem C51_read_uncovered :
  forall T d p sym n b e a, (0 < n)%nat ->
    content d p = Some b -> parse_elf T b = Some e -> e_symbols e sym = Some a ->
    Forall (fun i => ~ iv_begin i <= a < iv_end i) (e_memory e)
    \/ Forall (fun i => ~ iv_begin i < a + Z.of_nat n <= iv_end i) (e_memory e) ->
    read_symbol T d p sym n = Err RuntimeError.
Proof. exact read_uncovered. Qed.
Print Assumptions C51_read_uncovered.

(** What is no program or has no such symbol has no value. *)
Theorem C51_read_unknown :
  forall T d p sym n,
    (forall b e, content d p = Some b -> parse_elf T b = Some e -> e_symbols e sym = None) ->
    read_symbol T d p sym n = Ok None.
Proof.
  intros T d p sym n H. unfold read_symbol, find_symbol, open_elf. destruct (content d p) as [b|]; [|reflexivity].
  destruct (parse_elf T b) as [e|] eqn:E; [|reflexivity]. rewrite (H b e eq_refl E). reflexivity.
Qed.
Print Assumptions C51_read_unknown.

(** The node id is patched in the file itself, under its well-known name. *)
Theorem C51_uid_in_place :
  forall T d p v b e a o,
    content d p = Some b -> parse_elf T b = Some e -> e_symbols e "SHEPHERD_NODE_ID" = Some a -> placed e a o ->
    0 <= o -> o + 2 <= Z.of_nat (length b) -> 0 <= v < 65536 ->
    exists d' b',
      modify_uid T d p v = (d', Ok (Some p)) /\ content d' p = Some b' /\ same_except b b' (Z.to_nat o) 2
      /\ only_touches d d' p /\ (parse_elf T b' = Some e -> read_uid T d' p = Ok (Some v)).
Proof.
  intros T d p v b e a o H1 H2 H3 H4 H5 H6 H7.
  destruct (patch_reads_back T d p "SHEPHERD_NODE_ID" v true b e a o H1 H2 H3 H4 H5 H6 H7) as (d' & b' & K1 & K2 & K3 & K4 & K5).
  exists d', b'. repeat split; try assumption; try apply K3.
Qed.
Print Assumptions C51_uid_in_place.

(** * C62 Missing files *)

(** A missing file has neither type nor architecture, and is reported. *)
Theorem C62_missing :
  forall T d p, content d p = None ->
    determine_type T d p = Err ValueError /\ determine_arch T d p = Err ValueError
    /\ is_hex T d p = Err FileNotFoundError /\ is_elf T d p = false
    /\ is_hex_msp430 T d p = Err FileNotFoundError /\ is_hex_nrf52 T d p = Err FileNotFoundError
    /\ firmware_to_hex T d p = (d, Err FileNotFoundError).
Proof.
  intros T d p H. unfold is_hex_msp430, is_hex_nrf52, determine_arch, determine_type, is_hex, is_elf, firmware_to_hex. rewrite H. repeat split.
Qed.
Print Assumptions C62_missing.

Definition mixed_elf : elf :=
  mkElf (fun s => if (s =? "stack")%string then Some 0x1004 else if (s =? "id")%string then Some 0x2004
                  else if (s =? "edge")%string then Some 0x2006 else None) true
    [mkIv 0x1000 0x1010 Zeros; mkIv 0x2000 0x2008 (InFile 2)] "msp430" true.
Definition mixed : tools :=
  mkTools (fun b => if hd 0 b =? 127 then Some mixed_elf else None) (fun _ => None) (fun _ => 0)
    (fun b => Some b) (fun b => dec (length b)) (fun _ => Err ValueError) (fun b => dec (length b)).

Example C51_read_example :
  let d := mkDisk [(("dir", "fw.elf")%string, [127; 0; 10; 11; 12; 13; 14; 15; 16; 17])] [] in
  let p := ("dir", "fw.elf")%string in
  read_symbol mixed d p "id" 4 = Ok (Some (14 + 256 * 15 + 65536 * 16 + 16777216 * 17))
  /\ read_symbol mixed d p "stack" 4 = Ok (Some 0)
  /\ read_symbol mixed d p "edge" 4 = Err RuntimeError
  /\ read_symbol mixed d p "edge" 2 = Ok (Some (16 + 256 * 17))
  /\ read_symbol mixed d p "none" 4 = Ok None
  /\ value_at [127; 0; 10; 11; 12; 13; 14; 15; 16; 17] 6 4 false = 16777216 * 14 + 65536 * 15 + 256 * 16 + 17.
Proof. vm_compute. repeat split. Qed.

(** * C66 A given controller *)

(** A program with a given controller gets this one; its image has passed the check of its own architecture. *)
Theorem C66_given :
  forall T d p b embed m name f e,
    content d p = Some b -> parse_elf T b = Some e ->
    from_firmware T d p embed (Some Base64Elf) (Some m) name = Ok f ->
    fw_mcu f = m /\ e_exec e = true /\
    (mentions "msp430" (e_arch e) -> exists h, objcopy T b = Some h /\ hex_msp430 T h = Ok true) /\
    (mentions "nrf52" (e_arch e) \/ mentions "arm" (e_arch e) -> exists h, objcopy T b = Some h /\ hex_nrf52 T h = true).
Proof. exact given_mcu. Qed.
Print Assumptions C66_given.

Definition tiny (h : ihex) : tools :=
  mkTools (fun b => Some (mkElf (fun _ => None) true [] "em_msp430" true)) (fun b => if hd 0 b =? 58 then Some h else None)
    (fun h => 48 + 8 * Z.of_nat (length h)) (fun b => Some (58 :: b)) (fun _ => "text"%string) (fun _ => Err ValueError) (fun _ => "hash"%string).

(** The given controller is not compared with the architecture. *)
Example C66_given_example :
  let d := mkDisk [(("", "a.elf")%string, [127; 0])] [] in
  from_firmware (tiny [(0x4000, 1); (0xFFFE, 0); (0xFFFF, 0x44)]) d ("", "a.elf")%string false (Some Base64Elf) (Some "nrf52"%string) None
  = Ok (mkFirmware "a.elf" "nrf52" (AtPath ("", "a.elf")%string) PathElf (Some "hash"%string) true).
Proof. vm_compute. reflexivity. Qed.
