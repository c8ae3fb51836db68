(** Model of the firmware tools.

    Code (below shepherd_core/shepherd_core): fw_tools/patcher.py (PT), fw_tools/validation.py
    (VA), fw_tools/converter.py (CV), fw_tools/converter_elf.py (CE),
    data_models/content/firmware.py (FW), commons.py.

    Simplifications: the libraries behind the tools (pwntools' ELF, IntelHex, objcopy, zstd with
    base64, sha3) are functions on file contents, gathered in the record [tools]; no assumption
    about them is made here.  An opened ELF is its file content, its symbols, its byte order and
    its memory map.  A path is a pair (directory, name).  Parent directories exist.  The limits on
    the length of FirmwareStr, the database behind [Firmware(..)] and logging are left out.  The
    packages are installed (no RuntimeError at import). *)
From Coq Require Import String Ascii.
From Verif Require Import PyBase FileModel.
Open Scope Z_scope.

Definition bytes : Type := list Z.

(* ------------------------------------------------------------------ files *)

(** File contents and directories. *)
Record disk := mkDisk { d_files : list (path * bytes); d_dirs : list path }.

Fixpoint find_file (l : list (path * bytes)) (p : path) : option bytes :=
  match l with
  | [] => None
  | (q, b) :: l' => if path_eqb q p then Some b else find_file l' p
  end.
Definition content (d : disk) (p : path) : option bytes := find_file (d_files d) p.
Definition write_file (d : disk) (p : path) (b : bytes) : disk :=
  mkDisk ((p, b) :: d_files d) (d_dirs d).
Definition is_dir (d : disk) (p : path) : bool := existsb (path_eqb p) (d_dirs d).

(** [dir / name] *)
Definition join (p : path) (name : string) : path := ((fst p ++ "/" ++ snd p)%string, name).

(** PurePath.with_suffix *)
Definition with_suffix (p : path) (s : string) : path := (fst p, (stem (snd p) ++ s)%string).

(* ------------------------------------------------------------------ libraries *)

(** Part of the memory of a program: bytes of the file from an offset on, or zeros. *)
Inductive backing := InFile (offset : Z) | Zeros.
Record interval := mkIv { iv_begin : Z; iv_end : Z; iv_data : backing }.

(** pwnlib.elf.ELF, opened. *)
Record elf := mkElf {
  e_symbols : string -> option Z;
  e_little : bool;
  e_memory : list interval;
  e_arch : string;
  e_exec : bool
}.

(** intelhex.IntelHex, loaded: the bytes by address. *)
Definition ihex : Type := list (Z * Z).

Record tools := mkTools {
  parse_elf : bytes -> option elf;       (* None: ELFError *)
  parse_hex : bytes -> option ihex;      (* None: ValueError, IntelHexError *)
  memory_size : ihex -> Z;               (* IntelHex.get_memory_size *)
  objcopy : bytes -> option bytes;       (* None: CalledProcessError *)
  pack : bytes -> string;                (* CV:43-44, zstd and base64 *)
  unpack : string -> res bytes;          (* CV:54-55 *)
  sha3 : bytes -> string                 (* hashlib.sha3_224(..).hexdigest() *)
}.

(** int.from_bytes and int.to_bytes, unsigned. *)
Fixpoint le_value (l : list Z) : Z :=
  match l with [] => 0 | b :: l' => b + 256 * le_value l' end.
Definition from_bytes (little : bool) (l : list Z) : Z := le_value (if little then l else rev l).
Fixpoint le_digits (n : nat) (v : Z) : list Z :=
  match n with O => [] | S n' => v mod 256 :: le_digits n' (v / 256) end.
Definition to_bytes (little : bool) (n : nat) (v : Z) : list Z :=
  if little then le_digits n v else rev (le_digits n v).

(** Bytes [from, to) of the file. *)
Definition part (b : bytes) (from to : Z) : bytes :=
  firstn (Z.to_nat (to - from)) (skipn (Z.to_nat from) b).

(** pwnlib ELF.read: everything that is mapped at the addresses, one interval after the other;
    an error if the range is not covered at its ends. *)
Definition clip (lo hi : Z) (i : interval) : list (Z * Z * backing) :=
  let b := Z.max lo (iv_begin i) in
  let e := Z.min hi (iv_end i) in
  if b <? e then
    [(b, e, match iv_data i with InFile o => InFile (o + (b - iv_begin i)) | Zeros => Zeros end)]
  else [].
Definition elf_read (e : elf) (b : bytes) (address count : Z) : res bytes :=
  if count <=? 0 then Ok []
  else
    let hi := address + count in
    let parts := flat_map (clip address hi) (e_memory e) in
    if existsb (fun x => fst (fst x) =? address) parts && existsb (fun x => snd (fst x) =? hi) parts
    then Ok (flat_map (fun x => match snd x with
                                | InFile o => part b o (o + (snd (fst x) - fst (fst x)))
                                | Zeros => repeat 0 (Z.to_nat (snd (fst x) - fst (fst x)))
                                end) parts)
    else Err RuntimeError.

(** pwnlib ELF.write: into the file behind the interval that contains the address;
    AttributeError if there is none behind it. *)
Definition splice (b : bytes) (o : Z) (new : bytes) : bytes :=
  firstn (Z.to_nat o) b ++ new ++ skipn (Z.to_nat o + length new) b.
Definition elf_write (e : elf) (b : bytes) (address : Z) (new : bytes) : res bytes :=
  match find (fun i => (iv_begin i <=? address) && (address <? iv_end i)) (e_memory e) with
  | None => Ok b
  | Some i =>
    match iv_data i with
    | Zeros => Err AttributeError
    | InFile o =>
      let off := o + (address - iv_begin i) in
      if (0 <=? off) && (off + Z.of_nat (length new) <=? Z.of_nat (length b))
      then Ok (splice b off new) else Err IndexError
    end
  end.

(** commons.py:5-6 *)
Definition uid_str_default : string := "SHEPHERD_NODE_ID".
Definition uid_len_default : nat := 2.

Section Tools.
  Context (T : tools).

  (* ---------------------------------------------------------------- patcher.py *)

  (** VA:83-94, is_elf *)
  Definition is_elf (d : disk) (p : path) : bool :=
    match content d p with
    | None => false
    | Some b => match parse_elf T b with Some _ => true | None => false end
    end.

  (** An ELF that is known to exist: content and view. *)
  Definition open_elf (d : disk) (p : path) : option (bytes * elf) :=
    match content d p with
    | Some b => match parse_elf T b with Some e => Some (b, e) | None => None end
    | None => None
    end.

  (** PT:25-48, find_symbol; here with the opened file and the address instead of True. *)
  Definition find_symbol (d : disk) (p : path) (symbol : string) : option (bytes * elf * Z) :=
    match open_elf d p with
    | Some (b, e) => match e_symbols e symbol with Some a => Some (b, e, a) | None => None end
    | None => None
    end.

  (** [l[-n:]] *)
  Definition last_n (n : nat) (l : bytes) : bytes := skipn (length l - n) l.

  (** PT:51-65, read_symbol for a positive length *)
  Definition read_symbol (d : disk) (p : path) (symbol : string) (len : nat) : res (option Z) :=
    match find_symbol d p symbol with
    | None => Ok None
    | Some (b, e, a) =>
      let* raw := elf_read e b a (Z.of_nat len) in
      Ok (Some (from_bytes (e_little e) (last_n len raw)))
    end.

  (** PT:68-70 *)
  Definition read_uid (d : disk) (p : path) : res (option Z) :=
    read_symbol d p uid_str_default uid_len_default.

  (** PT:73-83, read_arch; str.lower is left out: the names are lower case already *)
  Definition read_arch (d : disk) (p : path) : option string :=
    match open_elf d p with
    | Some (_, e) => if e_exec e then Some (e_arch e) else None
    | None => None
    end.

  (** PT:86-128, modify_symbol_value.  The result also has the disk afterwards. *)
  Definition modify_symbol_value (d : disk) (p : path) (symbol : string) (value : Z)
      (overwrite : bool) : disk * res (option path) :=
    if negb ((0 <=? value) && (value <? 2 ^ (8 * Z.of_nat uid_len_default)))
    then (d, Err ValueError)
    else
      match find_symbol d p symbol with
      | None => (d, Ok None)
      | Some (b, e, a) =>
        match elf_read e b a (Z.of_nat uid_len_default) with
        | Err x => (d, Err x)
        | Ok _ =>
          match elf_write e b a (to_bytes (e_little e) uid_len_default value) with
          | Err AttributeError => (d, Ok None)
          | Err x => (d, Err x)
          | Ok b' =>
            let q := if overwrite then p
                     else (fst p, (stem (snd p) ++ "_" ++ dec (Z.to_nat value) ++ suffix (snd p))%string) in
            (write_file d q b', Ok (Some q))
          end
        end
      end.

  (** PT:131-133 *)
  Definition modify_uid (d : disk) (p : path) (value : Z) : disk * res (option path) :=
    modify_symbol_value d p uid_str_default value true.

  (* ---------------------------------------------------------------- validation.py *)

  (** VA:30-39, is_hex *)
  Definition is_hex (d : disk) (p : path) : res bool :=
    match content d p with
    | None => Err FileNotFoundError
    | Some b => Ok (match parse_hex T b with Some _ => true | None => false end)
    end.

  (** IntelHex.minaddr (None: no data), IntelHex.gets for two bytes (NotEnoughDataError). *)
  Definition minaddr (h : ihex) : option Z :=
    match h with
    | [] => None
    | (a, _) :: h' => Some (fold_left (fun m x => Z.min m (fst x)) h' a)
    end.
  Fixpoint byte_at (h : ihex) (a : Z) : option Z :=
    match h with
    | [] => None
    | (x, v) :: h' => if x =? a then Some v else byte_at h' a
    end.
  Definition gets2 (h : ihex) (a : Z) : res bytes :=
    match byte_at h a, byte_at h (a + 1) with
    | Some x, Some y => Ok [x; y]
    | _, _ => Err RuntimeError
    end.

  (** VA:42-61, is_hex_msp430 for a parsed file *)
  Definition check_msp430 (h : ihex) : res bool :=
    match minaddr h with
    | None => Ok false
    | Some m =>
      if negb (m =? 0x4000) then Ok false
      else
        match byte_at h 0xFFFE with
        | None => Ok false
        | Some _ =>
          let* raw := gets2 h 0xFFFE in
          let value := from_bytes true raw in
          if (0x4000 >? value) && (value >=? 0xFF80) then Ok false
          else Ok (memory_size T h <=? 270000)
        end
    end.
  Definition hex_msp430 (b : bytes) : res bool :=
    match parse_hex T b with None => Ok false | Some h => check_msp430 h end.
  Definition is_hex_msp430 (d : disk) (p : path) : res bool :=
    match content d p with None => Err FileNotFoundError | Some b => hex_msp430 b end.

  (** VA:64-76, is_hex_nrf52 *)
  Definition hex_nrf52 (b : bytes) : bool :=
    match parse_hex T b with None => false | Some h => 0 <? memory_size T h end.
  Definition is_hex_nrf52 (d : disk) (p : path) : res bool :=
    match content d p with None => Err FileNotFoundError | Some b => Ok (hex_nrf52 b) end.

  (** VA:97-110 and 113-126, is_elf_msp430, is_elf_nrf52, with the conversion of CE:14-33 into a
      temporary file *)
  Definition elf_as_hex (b : bytes) : res bytes :=
    match objcopy T b with Some h => Ok h | None => Err RuntimeError end.
  Definition is_elf_msp430 (d : disk) (p : path) : res bool :=
    match open_elf d p with
    | None => Ok false
    | Some (b, _) => let* h := elf_as_hex b in hex_msp430 h
    end.
  Definition is_elf_nrf52 (d : disk) (p : path) : res bool :=
    match open_elf d p with
    | None => Ok false
    | Some (b, _) => let* h := elf_as_hex b in Ok (hex_nrf52 h)
    end.

  (** FirmwareDType *)
  Inductive fw_type := Base64Hex | Base64Elf | PathHex | PathElf.

  (** VA:129-137, determine_type *)
  Definition determine_type (d : disk) (p : path) : res fw_type :=
    match content d p with
    | None => Err ValueError
    | Some _ =>
      let* hex := is_hex d p in
      if hex then Ok PathHex else if is_elf d p then Ok PathElf else Err ValueError
    end.

  (** VA:140-155, determine_arch *)
  Definition determine_arch (d : disk) (p : path) : res string :=
    let* t := determine_type d p in
    match t with
    | PathElf =>
      let* msp := is_elf_msp430 d p in
      if msp then Ok "msp430"%string
      else let* nrf := is_elf_nrf52 d p in
           if nrf then Ok "nrf52"%string else Err ValueError
    | PathHex =>
      let* msp := is_hex_msp430 d p in
      if msp then Ok "msp430"%string
      else let* nrf := is_hex_nrf52 d p in
           if nrf then Ok "nrf52"%string else Err ValueError
    | _ => Err ValueError
    end.

  (* ---------------------------------------------------------------- converter.py *)

  (** CV:17-30 with CE:14-33, firmware_to_hex *)
  Definition firmware_to_hex (d : disk) (p : path) : disk * res path :=
    match content d p with
    | None => (d, Err FileNotFoundError)
    | Some b =>
      if is_elf d p then
        match elf_as_hex b with
        | Ok h => let q := with_suffix p ".hex" in (write_file d q h, Ok q)
        | Err e => (d, Err e)
        end
      else match is_hex d p with
           | Ok true => (d, Ok p)
           | Ok false => (d, Err FileNotFoundError)
           | Err e => (d, Err e)
           end
    end.

  (** CV:33-44, file_to_base64; CV:62-69, file_to_hash; CV:72-77, base64_to_hash *)
  Definition file_to_base64 (d : disk) (p : path) : res string :=
    match content d p with Some b => Ok (pack T b) | None => Err ValueError end.
  Definition file_to_hash (d : disk) (p : path) : res string :=
    match content d p with Some b => Ok (sha3 T b) | None => Err ValueError end.
  Definition base64_to_hash (s : string) : res string :=
    let* b := unpack T s in Ok (sha3 T b).

  (** The field [data]: text or path. *)
  Inductive fw_data := Text (s : string) | AtPath (p : path).

  (** CV:80-107, extract_firmware; base64 data that is a path is refused by validate_call.  Text
      in a firmware of path type would be the path as text; here it is [AtPath]. *)
  Definition tools_extract (d : disk) (data : fw_data) (t : fw_type) (p : path)
    : disk * res path :=
    let q := match t with Base64Elf | PathElf => with_suffix p ".elf"
                        | Base64Hex | PathHex => with_suffix p ".hex" end in
    match t, data with
    | Base64Elf, Text s | Base64Hex, Text s =>
      match unpack T s with
      | Ok b => (write_file d q b, Ok q)
      | Err e => (d, Err e)
      end
    | PathElf, AtPath src | PathHex, AtPath src =>
      match content d src with
      | Some b => if path_eqb src q then (d, Err OSError) else (write_file d q b, Ok q)
      | None => (d, Err FileNotFoundError)
      end
    | Base64Elf, AtPath _ | Base64Hex, AtPath _ => (d, Err ValueError)
    | PathElf, Text _ | PathHex, Text _ => (d, Err FileNotFoundError)
    end.

  (* ---------------------------------------------------------------- firmware.py *)

  (** FW:52-63 *)
  Record firmware := mkFirmware {
    fw_name : string; fw_mcu : string; fw_data_ : fw_data; fw_type_ : fw_type;
    fw_hash : option string; fw_local : bool }.

  (** FW:65-89, query_database: the cross-check of data and hash *)
  Definition validate_firmware (f : firmware) : res firmware :=
    match fw_type_ f with
    | Base64Hex | Base64Elf =>
      match fw_data_ f with
      | AtPath _ => Err ValueError
      | Text s =>
        match base64_to_hash s with
        | Err ValueError => Err ValueError
        | Err e => Err e
        | Ok h =>
          match fw_hash f with
          | Some h' => if (h =? h')%string then Ok f else Err ValueError
          | None => Ok f
          end
        end
      end
    | PathHex | PathElf => Ok f
    end.

  (** FW:25-48, the tables *)
  Definition suffix_to_dtype (s : string) : res fw_type :=
    if existsb (String.eqb s) [".hex"; ".ihex"; ".ihx"]%string then Ok Base64Hex
    else if existsb (String.eqb s) [".elf"; ".bin"; ".o"; ".out"; ".so"]%string then Ok Base64Elf
    else Err KeyError.
  Definition to_path_dtype (t : fw_type) : res fw_type :=
    match t with Base64Hex => Ok PathHex | Base64Elf => Ok PathElf | _ => Err KeyError end.
  Definition arch_to_mcu (a : string) : res string :=
    if (a =? "em_msp430")%string || (a =? "msp430")%string then Ok "msp430fr"%string
    else if (a =? "arm")%string || (a =? "nrf52")%string then Ok "nrf52"%string
    else Err KeyError.

  (** str.lower *)
  Definition lower_char (c : ascii) : ascii :=
    let n := nat_of_ascii c in
    if (Nat.leb 65 n && Nat.leb n 90)%bool then ascii_of_nat (n + 32) else c.
  Fixpoint lower (s : string) : string :=
    match s with EmptyString => EmptyString | String c s' => String (lower_char c) (lower s') end.

  (** [needle in s] *)
  Fixpoint contains (needle s : string) : bool :=
    prefix needle s || match s with EmptyString => false | String _ s' => contains needle s' end.

  (** FW:91-141, from_firmware: [given_type], [given_mcu], [given_name] are the keyword arguments *)
  Definition from_firmware (d : disk) (p : path) (embed : bool)
      (given_type : option fw_type) (given_mcu given_name : option string) : res firmware :=
    let* h := file_to_hash d p in
    let* text := file_to_base64 d p in
    let data := if embed then Text text else AtPath p in
    let* t := match given_type with
              | Some t => Ok t
              | None => suffix_to_dtype (lower (suffix (snd p)))
              end in
    let* mcu :=
      match t with
      | Base64Hex =>
        let* msp := is_hex_msp430 d p in
        let* arch := if msp then Ok "msp430"%string
                     else let* nrf := is_hex_nrf52 d p in
                          if nrf then Ok "nrf52"%string else Err ValueError in
        match given_mcu with Some m => Ok (Some m) | None => let* m := arch_to_mcu arch in Ok (Some m) end
      | Base64Elf =>
        match read_arch d p with
        | None => Err TypeError
        | Some arch =>
          let* _ := (if contains "msp430" arch
                     then let* ok := is_elf_msp430 d p in if ok then Ok tt else Err ValueError
                     else Ok tt) in
          let* _ := (if contains "nrf52" arch || contains "arm" arch
                     then let* ok := is_elf_nrf52 d p in if ok then Ok tt else Err ValueError
                     else Ok tt) in
          match given_mcu with Some m => Ok (Some m) | None => let* m := arch_to_mcu arch in Ok (Some m) end
        end
      | _ => Ok given_mcu
      end in
    let* t := if embed then Ok t else to_path_dtype t in
    let* mcu := match mcu with Some m => Ok m | None => Err ValueError end in
    validate_firmware
      (mkFirmware (match given_name with Some n => n | None => snd p end) mcu data t (Some h)
         (negb embed)).

  (** FW:143-157, compare_hash *)
  Definition compare_hash (d : disk) (f : firmware) (p : option path) : res bool :=
    match fw_hash f with
    | None => Ok true
    | Some h =>
      let* h' := match match p with Some p => content d p | None => None end with
                 | Some b => Ok (sha3 T b)
                 | None => match fw_data_ f with
                           | Text s => base64_to_hash s
                           | AtPath _ => Err ValueError
                           end
                 end in
      Ok (h =? h')%string
    end.

  (** FW:159-170, extract_firmware *)
  Definition extract_firmware (d : disk) (f : firmware) (p : path) : disk * res path :=
    let p := if is_dir d p then join p (fw_name f) else p in
    match tools_extract d (fw_data_ f) (fw_type_ f) p with
    | (d', Ok q) => match compare_hash d' f (Some q) with
                    | Ok _ => (d', Ok q)
                    | Err e => (d', Err e)
                    end
    | (d', Err e) => (d', Err e)
    end.
End Tools.
