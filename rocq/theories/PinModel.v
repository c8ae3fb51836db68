(** Model of the pins of an observer and of the features that use them.

    Code: shepherd_core/shepherd_core/data_models/testbed/gpio.py (G), gpio_fixture.yaml (GF) and
    data_models/experiment/observer_features.py (OF).

    Simplifications: those of FixModel and NameModel, texts are ASCII; a number given as text is
    refused (pydantic reads texts of digits); times are microseconds; the floating-point numbers of
    events are exact.  pydantic turns a ValueError of a validator into a ValidationError, which is a
    ValueError; other exceptions pass. *)
From Coq Require Import String Ascii QArith.
From Verif Require Import PyBase FixModel.
From Verif Require NameModel.
Open Scope Z_scope.
Open Scope list_scope.

Definition text := NameModel.text.
Definition codes (s : string) : text := map (fun c => Z.of_nat (nat_of_ascii c)) (list_ascii_of_string s).

(** G:19-24, Direction. *)
Inductive direction : Set := DIn | DOut | DIO.

(** G:27-41 *)
Record gpio := mkGpio {
  g_id : Z; g_name : text; g_description : option text; g_comment : option text;
  g_direction : direction; g_switch : option text;
  g_reg_pru : option text; g_pin_pru : option text; g_reg_sys : option Z; g_pin_sys : option text }.

Definition fields : list string :=
  ["id"; "name"; "description"; "comment"; "direction"; "dir_switch"; "reg_pru"; "pin_pru"; "reg_sys";
   "pin_sys"]%string.

(** Optional[text] with a constraint. *)
Definition opt_text (f : text -> res text) (v : option value) : res (option text) :=
  match v with
  | None => Ok None
  | Some (VStr s) => let* t := f (codes s) in Ok (Some t)
  | Some v => if value_eqb v none_ then Ok None else Err ValueError
  end.
(** StringConstraints(max_length=n); base/shepherd.py:69 asks for one character. *)
Definition upto (n : nat) : text -> res text := NameModel.constrained 1 n (fun _ => true).

Definition need_name (v : option value) : res text :=
  match v with Some (VStr s) => NameModel.name_str (codes s) | _ => Err ValueError end.

(** content.py:22, IdInt. *)
Definition need_id (v : option value) : res Z :=
  match v with
  | Some (VInt z) => guard (0 <=? z) && (z <? 2 ^ 128) or ValueError;; Ok z
  | _ => Err ValueError
  end.

(** Optional[int >= 0] *)
Definition opt_nat (v : option value) : res (option Z) :=
  match v with
  | None => Ok None
  | Some (VInt z) => guard 0 <=? z or ValueError;; Ok (Some z)
  | Some v => if value_eqb v none_ then Ok None else Err ValueError
  end.

Definition dir_of (v : option value) : res direction :=
  match v with
  | None => Ok DIn
  | Some (VStr s) =>
    if String.eqb s "IN" then Ok DIn else if String.eqb s "OUT" then Ok DOut
    else if String.eqb s "IO" then Ok DIO else Err ValueError
  | Some _ => Err ValueError
  end.

Definition missing {A} (v : option A) : bool := match v with None => true | _ => false end.

(** G:30-63: the fields, extra="forbid" (base/shepherd.py:66), and post_validation. *)
Definition gpio_of (d : dict) : res gpio :=
  guard forallb (fun kv => existsb (String.eqb (fst kv)) fields) d or ValueError;;
  let* i := need_id (dget "id" d) in
  let* n := need_name (dget "name" d) in
  let* ds := opt_text NameModel.safe_str (dget "description" d) in
  let* cm := opt_text NameModel.safe_str (dget "comment" d) in
  let* dr := dir_of (dget "direction" d) in
  let* sw := opt_text (upto 32) (dget "dir_switch" d) in
  let* rp := opt_text (upto 10) (dget "reg_pru" d) in
  let* pp := opt_text (upto 10) (dget "pin_pru" d) in
  let* rs := opt_nat (dget "reg_sys" d) in
  let* ps := opt_text (upto 10) (dget "pin_sys" d) in
  let no_pru := missing rp || missing pp in
  let no_sys := missing rs || missing ps in
  guard negb (no_pru && no_sys) or ValueError;;
  Ok (mkGpio i n ds cm dr sw rp pp rs ps).

(** G:46-50: completed by the data base first. *)
Definition gpio_make (depth : nat) (x : fixtures) (values : dict) : res gpio :=
  let* (v, _) := try_completing_model depth x "GPIO" values in gpio_of v.

(** str.lower() and "in" for texts. *)
Definition lower_code (c : Z) : Z := if (65 <=? c) && (c <=? 90) then c + 32 else c.
Fixpoint starts (p s : text) : bool :=
  match p, s with
  | [], _ => true
  | a :: p', b :: s' => (a =? b) && starts p' s'
  | _, [] => false
  end.
Fixpoint occurs (p s : text) : bool :=
  starts p s || match s with [] => false | _ :: s' => occurs p s' end.

(** G:65-66, user_controllable. *)
Definition user_controllable (g : gpio) : bool :=
  occurs [103; 112; 105; 111] (map lower_code (g_name g)) &&
  match g_direction g with DIn => false | _ => true end.

(** OF:90-108 *)
Inductive level : Set := LLow | LHigh | LToggle.
Record event := mkEvent { e_delay : Q; e_gpio : gpio; e_level : level; e_period : Q; e_count : Z }.

(** OF:98-115, a GpioEvent with its post_validation. *)
Definition event_of (e : event) : res event :=
  guard negb (Qle_bool (e_delay e) 0) or ValueError;;
  guard Qle_bool (1 # 100000) (e_period e) or ValueError;;
  guard (1 <=? e_count e) && (e_count e <=? 4096) or ValueError;;
  guard user_controllable (e_gpio e) or ValueError;;
  Ok e.

(** OF:122-128, GpioActuation. *)
Definition actuation_of (es : list event) : res (list event) :=
  guard Nat.leb 1 (List.length es) && Nat.leb (List.length es) 1024 or ValueError;;
  Ok es.

(** Equality of pins: of all fields (pydantic's __eq__ and __hash__ of frozen models). *)
Definition opt_eqb {A} (eqb : A -> A -> bool) (a b : option A) : bool :=
  match a, b with None, None => true | Some x, Some y => eqb x y | _, _ => false end.
Fixpoint text_eqb (a b : text) : bool :=
  match a, b with
  | [], [] => true
  | x :: a', y :: b' => (x =? y) && text_eqb a' b'
  | _, _ => false
  end.
Definition dir_eqb (a b : direction) : bool :=
  match a, b with DIn, DIn | DOut, DOut | DIO, DIO => true | _, _ => false end.
Definition gpio_eqb (a b : gpio) : bool :=
  (g_id a =? g_id b) && text_eqb (g_name a) (g_name b)
  && opt_eqb text_eqb (g_description a) (g_description b) && opt_eqb text_eqb (g_comment a) (g_comment b)
  && dir_eqb (g_direction a) (g_direction b) && opt_eqb text_eqb (g_switch a) (g_switch b)
  && opt_eqb text_eqb (g_reg_pru a) (g_reg_pru b) && opt_eqb text_eqb (g_pin_pru a) (g_pin_pru b)
  && opt_eqb Z.eqb (g_reg_sys a) (g_reg_sys b) && opt_eqb text_eqb (g_pin_sys a) (g_pin_sys b).

(** OF:130-131, get_gpios; a set is a list without repetitions. *)
Fixpoint get_gpios (es : list event) : list gpio :=
  match es with
  | [] => []
  | e :: es' => if existsb (gpio_eqb (e_gpio e)) (get_gpios es') then get_gpios es'
                else e_gpio e :: get_gpios es'
  end.

(** OF:55-76, GpioTracing; times in microseconds. *)
Record tracing := mkTracing {
  t_mask : Z; t_gpios : option (list gpio); t_delay : Z; t_duration : option Z;
  t_decode : bool; t_uart : gpio; t_baud : Z }.
Definition given_negative (d : option Z) : bool := match d with Some z => z <? 0 | None => false end.
(** OF:55-87 with post_validation. *)
Definition tracing_of (t : tracing) : res tracing :=
  guard (0 <=? t_mask t) && (t_mask t <? 2 ^ 10) or ValueError;;
  guard match t_gpios t with
        | Some l => Nat.leb 1 (List.length l) && Nat.leb (List.length l) 10
        | None => true
        end or ValueError;;
  guard (2400 <=? t_baud t) && (t_baud t <=? 921600) or ValueError;;
  guard negb (t_mask t =? 0) or ValueError;;
  guard negb (given_negative (Some (t_delay t))) or ValueError;;
  guard negb (given_negative (t_duration t)) or ValueError;;
  Ok t.

(** OF:19-38, PowerTracing. *)
Record power := mkPower {
  p_intermediate : bool; p_delay : Z; p_duration : option Z; p_calculate : bool; p_rate : Z;
  p_discard_current : bool; p_discard_voltage : bool }.
(** OF:19-52 with post_validation. *)
Definition power_of (p : power) : res power :=
  guard (10 <=? p_rate p) && (p_rate p <=? 100000) or ValueError;;
  guard negb (given_negative (Some (p_delay p))) or ValueError;;
  guard negb (given_negative (p_duration p)) or ValueError;;
  guard negb (negb (p_calculate p) && (p_discard_current p && p_discard_voltage p)) or ValueError;;
  guard negb (p_calculate p) or NotImplementedError;;
  Ok p.

(** GF:1-168, the pins of cape v2.4. *)
Definition pin (i : Z) (name dir : string) (rest : dict) : wrapper :=
  mkWrap "gpio" (("id", VInt i) :: ("name", VStr name) :: ("direction", VStr dir) :: rest)%string.
Definition pru (r p : string) : dict := [("reg_pru", VStr r); ("pin_pru", VStr p)]%string.
Definition sys (r : Z) (p : string) : dict := [("reg_sys", VInt r); ("pin_sys", VStr p)]%string.
Definition switch (d : string) : dict := [("dir_switch", VStr d)]%string.
Definition about (s : string) : dict := [("description", VStr s)]%string.
Definition cape24 : list wrapper :=
  [pin 1000 "GPIO0" "IO" (switch "DIR1" ++ pru "r31_00" "P8_45" ++ sys 26 "P8_14");
   pin 1001 "GPIO1" "IO" (switch "DIR1" ++ pru "r31_01" "P8_46" ++ sys 27 "P8_17");
   pin 1002 "GPIO2" "IO" (switch "DIR1" ++ pru "r31_02" "P8_43" ++ sys 46 "P8_16");
   pin 1003 "GPIO3" "IO" (switch "DIR1" ++ pru "r31_03" "P8_44" ++ sys 47 "P8_15");
   pin 1004 "GPIO4" "IN" (pru "r31_04" "P8_41" ++ sys 61 "P8_26");
   pin 1005 "GPIO5" "IN" (pru "r31_05" "P8_42" ++ sys 80 "P8_36");
   pin 1006 "GPIO6" "IN" (pru "r31_06" "P8_39" ++ sys 81 "P8_34");
   pin 1007 "GPIO7" "IN" (about "alias UART_RX" ++ pru "r31_07" "P8_40" ++ sys 14 "P9_26");
   pin 1008 "GPIO8" "IO" (about "alias UART_TX" ++ switch "DIR2" ++ pru "r31_08" "P8_27" ++ sys 15 "P9_24");
   pin 1009 "BAT_OK" "OUT" (about "signal from vSource (PRU) to target" ++ pru "r30_09" "P8_29");
   pin 2000 "PRG1_CLK" "OUT" (about "alias JTAG_TCK" ++ sys 5 "P9_17");
   pin 2001 "PRG1_IO" "IO" (about "alias JTAG_TDI" ++ switch "PDIR1" ++ sys 4 "P9_18");
   pin 2010 "PRG2_CLK" "OUT" (about "alias JTAG_TDO" ++ sys 8 "P8_35");
   pin 2011 "PRG2_IO" "IO" (about "alias JTAG_TMS" ++ switch "PDIR2" ++ sys 9 "P8_33");
   pin 3000 "DIR1" "OUT" (about "changes direction of GPIO[0:3]" ++ sys 78 "P8_37");
   pin 3001 "DIR2" "OUT" (about "changes direction of GPIO8" ++ sys 79 "P8_38");
   pin 3002 "PDIR1" "OUT" (about "changes direction PRG1_IO" ++ sys 10 "P8_31");
   pin 3003 "PDIR2" "OUT" (about "changes direction PRG2_IO" ++ sys 11 "P8_32")].
