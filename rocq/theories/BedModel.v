(** Components of the testbed made from the shipped fixtures: the step between the dictionaries of FixModel and the
    objects of TbModel, i.e. the validators [query_database] of testbed/mcu.py:46-50 (MC), testbed/target.py:46-61
    (TG), testbed/cape.py:44-48 (CP), testbed/observer.py:57-70 (OB) and testbed/testbed.py:42-92 (TB), and the types
    and defaults of their fields.

    A value that is not text carries its str(), from which numbers, truth values and references are read back; texts
    that pydantic would turn into numbers or truth values are refused here.  Fields
    without meaning for experiments (room, protocol, core, ...) are checked and dropped: the opaque rest of the objects
    is 0.  A MAC address is the number it writes.  Not modelled: dates, url, latitude and longitude. *)
From Coq Require Import String Ascii ZArith QArith Bool List.
From Verif Require Import PyBase FixModel IterModel TbModel ShipModel BedData.
From Verif Require StoModel.
Import ListNotations.
Open Scope Z_scope.
Open Scope list_scope.

(** * Fields *)

(** base/content.py:22-27: IdInt, NameStr, SafeStr; texts are stripped and have 1 to 512 characters (base/shepherd.py:69-74). *)
Definition id_of (v : value) : res Z :=
  let* z := int_of v in guard (0 <=? z) && (z <? 2 ^ 128) or ValueError;; Ok z.
Definition name_of (v : value) : res string :=
  match v with
  | VStr s =>
      let s := StoModel.strip s in
      guard negb (String.eqb s "") && (String.length s <=? 32)%nat && forallb StoModel.name_char (list_ascii_of_string s)
        or ValueError;; Ok s
  | _ => Err ValueError
  end.
Definition text_of (v : value) : res string :=
  match v with
  | VStr s => let s := StoModel.strip s in guard StoModel.safe_str s && (String.length s <=? 512)%nat or ValueError;; Ok s
  | _ => Err ValueError
  end.
Definition any_text (v : value) : res string :=
  match v with
  | VStr s => let s := StoModel.strip s in guard negb (String.eqb s "") && (String.length s <=? 512)%nat or ValueError;; Ok s
  | _ => Err ValueError
  end.
(** A float as fraction. *)
Definition number_of (v : value) : res Q :=
  match v with
  | VInt z => Ok (inject_Z z)
  | VOther s => match s, decimal s 0 None with
                | EmptyString, _ | _, None => Err ValueError
                | _, Some (m, k) => Ok (Qred (m # Z.to_pos (10 ^ k)))
                end
  | VStr _ => Err ValueError
  end.

(** A field without default, and one that may be None. *)
Definition needed {A} (f : value -> res A) (k : string) (d : dict) : res A :=
  match dget k d with None => Err ValueError | Some v => f v end.
Definition nullable {A} (f : value -> res A) (k : string) (d : dict) : res (option A) :=
  match dget k d with
  | None => Ok None
  | Some v => if value_eqb v none_ then Ok None else let* x := f v in Ok (Some x)
  end.

(** IPvAnyAddress, dotted notation: four numbers below 256 without leading zero. *)
Definition octet (s : string) : option Z :=
  match int_of_key s with
  | Some z => if (z <? 256) && String.eqb (str (VInt z)) s then Some z else None
  | None => None
  end.
Fixpoint dotted (s part : string) (acc : Z) (n : nat) : option (Z * nat) :=
  match s with
  | EmptyString => match octet part with Some z => Some (256 * acc + z, S n) | None => None end
  | String c s' =>
      if Ascii.eqb c "." then
        match octet part with Some z => dotted s' "" (256 * acc + z) (S n) | None => None end
      else dotted s' (part ++ String c "")%string acc n
  end.
Definition ip_of (v : value) : res Z :=
  match v with
  | VStr s => match dotted s "" 0 0 with Some (z, 4%nat) => Ok z | _ => Err ValueError end
  | _ => Err ValueError
  end.

(** MACStr, OB:21-24: six pairs of hexadecimal digits with colons or dashes between. *)
Definition nibble (c : ascii) : option Z :=
  let n := Z.of_nat (nat_of_ascii c) in
  if (48 <=? n) && (n <=? 57) then Some (n - 48)
  else if (65 <=? n) && (n <=? 70) then Some (n - 55)
  else if (97 <=? n) && (n <=? 102) then Some (n - 87)
  else None.
Fixpoint pairs (n : nat) (s : string) (acc : Z) : option Z :=
  match s with
  | String a (String b s') =>
      match nibble a, nibble b, n, s' with
      | Some x, Some y, O, EmptyString => Some (256 * acc + 16 * x + y)
      | Some x, Some y, S n, String c s'' =>
          if Ascii.eqb c ":" || Ascii.eqb c "-" then pairs n s'' (256 * acc + 16 * x + y) else None
      | _, _, _, _ => None
      end
  | _ => None
  end.
Definition mac_of (v : value) : res Z :=
  match v with
  | VStr s => match pairs 5 s 0 with Some z => Ok z | None => Err ValueError end
  | _ => Err ValueError
  end.

(** A list of references: [{'name': 'a'}, {'name': 'b'}]. *)
Fixpoint names_in (s : string) (quoted : bool) (word : string) (out : list string) : list string :=
  match s with
  | EmptyString => rev out
  | String c s' =>
      if Ascii.eqb c "'" then
        if quoted then names_in s' false "" (if String.eqb word "name" then out else word :: out)
        else names_in s' true "" out
      else names_in s' quoted (if quoted then word ++ String c "" else "")%string out
  end.
Definition references_of (v : value) : res (list dict) :=
  match v with
  | VOther s => Ok (map (fun n => [("name"%string, VStr n)]) (names_in s false "" []))
  | _ => Err ValueError
  end.

(** Components of a path. *)
Fixpoint parts (s : string) (word : string) (out : list string) : list string :=
  match s with
  | EmptyString => rev (if String.eqb word "" then out else word :: out)
  | String c s' =>
      if Ascii.eqb c "/" then parts s' "" (if String.eqb word "" then out else word :: out)
      else parts s' (word ++ String c "")%string out
  end.
Definition path_of (v : value) : res (list string) :=
  match v with VStr s => Ok (parts s "" []) | _ => Err ValueError end.

(** MC:15-21 *)
Definition protocol_of (v : value) : res unit :=
  match v with
  | VStr s => guard existsb (String.eqb s) ["SWD"; "SBW"; "JTAG"; "UART"]%string or ValueError;; Ok tt
  | _ => Err ValueError
  end.

(** * Objects *)

(** The fields of the classes; others are refused (base/shepherd.py:66). *)
Definition mcu_fields : list string :=
  ["id"; "name"; "description"; "comment"; "platform"; "core"; "prog_protocol"; "prog_voltage"; "prog_datarate"; "fw_name_default"]%string.
Definition target_fields : list string :=
  ["id"; "name"; "version"; "description"; "comment"; "active"; "created"; "testbed_id"; "mcu1"; "mcu2"]%string.
Definition cape_fields : list string := ["id"; "name"; "version"; "description"; "comment"; "active"; "created"; "calibrated"]%string.
Definition observer_fields : list string :=
  ["id"; "name"; "description"; "comment"; "ip"; "mac"; "room"; "eth_port"; "latitude"; "longitude"; "active"; "cape"; "target_a"; "target_b";
   "created"; "alive_last"]%string.
Definition testbed_fields : list string :=
  ["id"; "name"; "description"; "comment"; "url"; "observers"; "shared_storage"; "data_on_server"; "data_on_observer"; "prep_duration"]%string.

(** MCU(values), MC:24-50. *)
Definition make_mcu (depth : nat) (x : fixtures) (values : dict) : res mcu :=
  let* (d, _) := try_completing_model depth x "MCU" values in
  guard only mcu_fields d or ValueError;;
  let* id := needed id_of "id" d in
  let* name := needed name_of "name" d in
  let* _ := needed text_of "description" d in
  let* _ := nullable text_of "comment" d in
  let* _ := needed name_of "platform" d in
  let* _ := needed name_of "core" d in
  let* _ := needed protocol_of "prog_protocol" d in
  let* voltage := field number_of "prog_voltage" (3 # 1)%Q d in
  guard Qle_bool 1 voltage && Qle_bool voltage (5 # 1) or ValueError;;
  let* datarate := field int_of "prog_datarate" 500000 d in
  guard (0 <? datarate) && (datarate <=? 1000000) or ValueError;;
  let* fw := needed any_text "fw_name_default" d in
  Ok (mkMcu id name voltage datarate fw 0).

(** A controller given by name or by dictionary, TG:52-57. *)
Definition controller (depth : nat) (x : fixtures) (v : value) : res mcu :=
  match v with
  | VStr n => make_mcu depth x [("name"%string, VStr n)]
  | _ => let* r := reference_of v in make_mcu depth x r
  end.

(** Target(values), TG:23-61. *)
Definition make_target (depth : nat) (x : fixtures) (values : dict) : res target :=
  let* (d, _) := try_completing_model depth x "Target" values in
  guard only target_fields d or ValueError;;
  let* mcu1 := needed (controller depth x) "mcu1" d in
  let* mcu2 := nullable (controller depth x) "mcu2" d in
  let* id := needed id_of "id" d in
  let* _ := needed name_of "name" d in
  let* _ := needed name_of "version" d in
  let* _ := needed text_of "description" d in
  let* _ := nullable text_of "comment" d in
  let* active := field bool_of "active" true d in
  let* given := nullable int_of "testbed_id" d in
  let tid := testbed_id given id in
  guard (0 <=? tid) && (tid <? 2 ^ 16) or ValueError;;
  Ok (mkTarget id tid active mcu1 mcu2 0).

(** Cape(values), CP:26-48. *)
Definition make_cape (depth : nat) (x : fixtures) (values : dict) : res cape :=
  let* (d, _) := try_completing_model depth x "Cape" values in
  guard only cape_fields d or ValueError;;
  let* id := needed id_of "id" d in
  let* _ := needed name_of "name" d in
  let* _ := needed name_of "version" d in
  let* _ := needed text_of "description" d in
  let* _ := nullable text_of "comment" d in
  let* active := field bool_of "active" true d in
  Ok (mkCape id active 0).

(** Observer(values), OB:28-70. *)
Definition make_observer (depth : nat) (x : fixtures) (values : dict) : res observer :=
  let* (d, _) := try_completing_model depth x "Observer" values in
  guard only observer_fields d or ValueError;;
  let* id := needed id_of "id" d in
  let* name := needed name_of "name" d in
  let* _ := needed text_of "description" d in
  let* _ := nullable text_of "comment" d in
  let* ip := needed ip_of "ip" d in
  let* mac := needed mac_of "mac" d in
  let* _ := needed name_of "room" d in
  let* eth := needed name_of "eth_port" d in
  let* active := field bool_of "active" true d in
  let* c := nullable (fun v => let* r := reference_of v in make_cape depth x r) "cape" d in
  let* a := nullable (fun v => let* r := reference_of v in make_target depth x r) "target_a" d in
  let* b := nullable (fun v => let* r := reference_of v in make_target depth x r) "target_b" d in
  let o := mkObs id name ip mac eth active c a b in
  let* _ := validate_observer o in
  Ok o.

(** Testbed(values), TB:23-92. *)
Definition make_testbed (depth : nat) (x : fixtures) (values : dict) : res testbed :=
  let* (d, _) := testbed_values depth x values in
  guard only testbed_fields d or ValueError;;
  let* _ := needed id_of "id" d in
  let* _ := needed name_of "name" d in
  let* _ := needed text_of "description" d in
  let* _ := nullable text_of "comment" d in
  let* rs := needed references_of "observers" d in
  let* obs := each (make_observer depth x) rs in
  guard (1 <=? List.length obs)%nat && (List.length obs <=? 128)%nat or ValueError;;
  let* shared := field bool_of "shared_storage" true d in
  let* _ := needed path_of "data_on_server" d in
  let* data := needed path_of "data_on_observer" d in
  let* prep := field int_of "prep_duration" 300 d in
  let tb := mkTb obs shared data prep in
  let* _ := validate_testbed tb in
  Ok tb.

(** * Database *)

(** What the client knows about the testbed after start; the other files hold content. *)
Definition components : list FixModel.wrapper := BedData.mcus ++ BedData.targets ++ BedData.capes ++ BedData.observers ++ BedData.testbeds.
Definition stocked : res fixtures := insert_all [] components.

(** content/firmware.py:52-63: a shipped firmware of that name (in any spelling); its controller is made anew.
    Data and type of the firmware are the position in the list. *)
Fixpoint firmware_at (depth : nat) (x : fixtures) (n : string) (l : list (string * dict)) (k : Z) : option firmware :=
  match l with
  | [] => None
  | (m, d) :: l =>
      if String.eqb (lower n) (lower m) then
        match make_mcu depth x d with Ok c => Some (mkFw c k k) | Err _ => None end
      else firmware_at depth x n l (k + 1)
  end.

(** The constructors Target(id=..) and Firmware(name=..) as TbModel uses them. *)
Definition served (depth : nat) (x : fixtures) : database :=
  mkDb (fun id => match make_target depth x [("id"%string, VInt id)] with Ok t => Some t | Err _ => None end)
       (fun n => firmware_at depth x n BedData.firmwares 0).
