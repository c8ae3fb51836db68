(** Model of the calibration classes and of the hardware conversion functions
    ([shepherd_core/data_models/base/calibration.py], [shepherd_core/calibration_hw_def.py]).

    Python floats are binary64 numbers with every rounding ([F64.v]).  The scalar code paths are modelled;
    for numpy arrays the same operations are applied to every element (not modelled). *)
From Coq Require Import ZArith Bool String Ascii List.
From Flocq Require Import IEEE754.BinarySingleNaN IEEE754.Binary IEEE754.Bits.
From Verif Require Import PyBase F64.
Import ListNotations.
Open Scope Z_scope.

(** * calibration_hw_def.py *)

(** lines 13-29: constants.  [2**M_ADC] and [2**M_DAC] are integers, converted exactly. *)
Definition R_SHT : f64 := fz 2.
Definition G_INST_AMP : Z := 48.
Definition V_REF_ADC : f64 := fdec 4096 3.
Definition G_ADC_I : f64 := fdec 125 2.
Definition G_ADC_V : f64 := fdec 125 2.
Definition M_ADC : Z := 18.
Definition V_REF_DAC : f64 := fdec 25 1.
Definition G_DAC : Z := 2.
Definition M_DAC : Z := 16.

(** [min(max(val, 0), 2**bits - 1) if limited else val] *)
Definition limit_code (limited : bool) (bits val : Z) : Z :=
  if limited then Z.min (Z.max val 0) (2 ^ bits - 1) else val.

(** lines 36-42: [adc_current_to_raw] *)
Definition adc_current_to_raw (current : f64) (limited : bool) : res Z :=
  let val_adc := fmul (fmul (fz G_INST_AMP) R_SHT) current in
  let* q := fdiv (fmul val_adc (fz (2 ^ M_ADC))) (fmul G_ADC_I V_REF_ADC) in
  let* val_raw := fint q in
  Ok (limit_code limited M_ADC val_raw).

(** lines 45-52: [adc_raw_to_current] *)
Definition adc_raw_to_current (value : Z) (limited : bool) : res f64 :=
  let value := limit_code limited M_ADC value in
  let* val_adc := fdiv (fmul (fz value) (fmul G_ADC_I V_REF_ADC)) (fz (2 ^ M_ADC)) in
  fdiv val_adc (fmul R_SHT (fz G_INST_AMP)).

(** lines 55-59: [adc_voltage_to_raw] *)
Definition adc_voltage_to_raw (voltage : f64) (limited : bool) : res Z :=
  let* q := fdiv (fmul voltage (fz (2 ^ M_ADC))) (fmul G_ADC_V V_REF_ADC) in
  let* val_raw := fint q in
  Ok (limit_code limited M_ADC val_raw).

(** lines 62-67: [adc_raw_to_voltage] *)
Definition adc_raw_to_voltage (value : Z) (limited : bool) : res f64 :=
  let value := limit_code limited M_ADC value in
  fdiv (fmul (fz value) (fmul G_ADC_V V_REF_ADC)) (fz (2 ^ M_ADC)).

(** lines 70-74: [dac_raw_to_voltage] *)
Definition dac_raw_to_voltage (value : Z) (limited : bool) : res f64 :=
  let value := limit_code limited M_DAC value in
  fdiv (fmul (fz value) (fmul V_REF_DAC (fz G_DAC))) (fz (2 ^ M_DAC)).

(** lines 77-80: [dac_voltage_to_raw] *)
Definition dac_voltage_to_raw (voltage : f64) (limited : bool) : res Z :=
  let* q := fdiv (fmul voltage (fz (2 ^ M_DAC))) (fmul V_REF_DAC (fz G_DAC)) in
  let* val_raw := fint q in
  Ok (limit_code limited M_DAC val_raw).

(** * calibration.py *)

(** lines 51-56: [CalibrationPair].  The unit is an optional string. *)
Record cpair : Type := mkPair { cp_gain : f64; cp_off : f64; cp_unit : option string }.

(** Validation of a pair: [gain: PositiveFloat], [offset: float]; [ShpModel] sets [allow_inf_nan=False]
    (base/shepherd.py lines 63-82), so both are finite.  pydantic's ValidationError is a ValueError. *)
Definition new_pair (gain offset : f64) (unit : option string) : res cpair :=
  if fin gain && fin offset && flt (fz 0) gain then Ok (mkPair gain offset unit) else Err ValueError.

(** lines 58-69: [raw_to_si]; [allow_negative] is the keyword argument. *)
Definition raw_to_si (p : cpair) (raw : f64) (allow_negative : bool) : f64 :=
  let si := fadd (fmul raw (cp_gain p)) (cp_off p) in
  if allow_negative then si else fmax si (fz 0).

(** lines 71-80: [si_to_raw]. *)
Definition si_to_raw (p : cpair) (si : f64) : res Z :=
  let* raw := fdiv (fsub si (cp_off p)) (cp_gain p) in
  fround (fmax raw (fz 0)).

(** lines 82-87: [from_fn].  [fn] is one of the hardware functions, [fn(0, limited=False)] gets the integer
    0, which is converted in the first product. *)
Definition from_fn (fn : f64 -> bool -> res Z) (unit : option string) : res cpair :=
  let* offset := fn (fz 0) false in
  let* v1 := fn (fz 1) false in
  let gain_inv := v1 - offset in
  let* gain := fdiv (fz 1) (fz gain_inv) in
  let* off := fdiv (fneg (fz offset)) (fz gain_inv) in
  new_pair gain off unit.

(** lines 98-104: [CalibrationHarvester] and lines 139-148: [CalibrationEmulator] *)
Record cal_hrv : Type := mkHrv { dac_V_Hrv : cpair; dac_V_Sim : cpair; adc_V_Sense : cpair; adc_C_Hrv : cpair }.
Record cal_emu : Type := mkEmu { dac_V_A : cpair; dac_V_B : cpair; adc_C_A : cpair; adc_C_B : cpair }.

(** The default values of both classes. *)
Definition default_hrv : res cal_hrv :=
  let* d := from_fn dac_voltage_to_raw (Some "V"%string) in
  let* v := from_fn adc_voltage_to_raw (Some "V"%string) in
  let* c := from_fn adc_current_to_raw (Some "A"%string) in
  Ok (mkHrv d d v c).
Definition default_emu : res cal_emu :=
  let* d := from_fn dac_voltage_to_raw (Some "V"%string) in
  let* c := from_fn adc_current_to_raw (Some "A"%string) in
  Ok (mkEmu d d c c).

(** The dictionary returned by [export_for_sysfs]: six named integers in order of insertion. *)
Definition sysfs : Type := list (string * Z).

(** [for key, value in cal_set.items(): if ... raise ValueError] (lines 121-127, 165-171).
    [gain] in the key selects the first test, [offset] the second. *)
Fixpoint has_sub (sub s : string) : bool :=
  prefix sub s || match s with EmptyString => false | String _ s' => has_sub sub s' end.

Definition sysfs_bad (kv : string * Z) : bool :=
  (has_sub "gain" (fst kv) && negb ((0 <=? snd kv) && (snd kv <? 2 ^ 32)))
  || (has_sub "offset" (fst kv) && negb ((- 2 ^ 31 <=? snd kv) && (snd kv <? 2 ^ 31))).

Fixpoint sysfs_check (l : sysfs) (k : sysfs) : res sysfs :=
  match l with
  | [] => Ok k
  | kv :: l' => if sysfs_bad kv then Err ValueError else sysfs_check l' k
  end.

(** [round(1e9 * (2**8) * gain)], [round(1e6 * (2**0) * offset)] *)
Definition scaled (base : Z) (shift : Z) (x : f64) : res Z :=
  fround (fmul (fmul (fz base) (fz (2 ^ shift))) x).

(** [round((2**20) / (1e6 * gain))] *)
Definition inv_gain (gain : f64) : res Z :=
  let* q := fdiv (fz (2 ^ 20)) (fmul (fz (10 ^ 6)) gain) in fround q.

(** lines 106-128: [CalibrationHarvester.export_for_sysfs] *)
Definition export_hrv (c : cal_hrv) : res sysfs :=
  let* acg := scaled (10 ^ 9) 8 (cp_gain (adc_C_Hrv c)) in
  let* aco := scaled (10 ^ 9) 0 (cp_off (adc_C_Hrv c)) in
  let* avg := scaled (10 ^ 6) 8 (cp_gain (adc_V_Sense c)) in
  let* avo := scaled (10 ^ 6) 0 (cp_off (adc_V_Sense c)) in
  let* dvg := inv_gain (cp_gain (dac_V_Hrv c)) in
  let* dvo := scaled (10 ^ 6) 0 (cp_off (dac_V_Hrv c)) in
  let cal_set := [("adc_current_gain", acg); ("adc_current_offset", aco); ("adc_voltage_gain", avg);
                  ("adc_voltage_offset", avo); ("dac_voltage_gain", dvg); ("dac_voltage_offset", dvo)]%string in
  sysfs_check cal_set cal_set.

(** lines 150-172: [CalibrationEmulator.export_for_sysfs] *)
Definition export_emu (c : cal_emu) : res sysfs :=
  let* acg := scaled (10 ^ 9) 8 (cp_gain (adc_C_A c)) in
  let* aco := scaled (10 ^ 9) 0 (cp_off (adc_C_A c)) in
  let* avg := scaled (10 ^ 6) 8 (fz 1) in
  let* avo := scaled (10 ^ 6) 0 (fz 0) in
  let* dvg := inv_gain (cp_gain (dac_V_A c)) in
  let* dvo := scaled (10 ^ 6) 0 (cp_off (dac_V_A c)) in
  let cal_set := [("adc_current_gain", acg); ("adc_current_offset", aco); ("adc_voltage_gain", avg);
                  ("adc_voltage_offset", avo); ("dac_voltage_gain", dvg); ("dac_voltage_offset", dvo)]%string in
  sysfs_check cal_set cal_set.

(** ** Serialisation of a cape calibration (lines 30-48 and 205-256) *)

(** What [model_dump] produces: nested dictionaries with floats, strings and None as leaves.
    [CalibrationCape.cape] and [.host] are excluded by [include={"harvester", "emulator"}]. *)
Inductive tree : Type :=
| TMap (kvs : list (string * tree))
| TF (f : f64)
| TStr (s : string)
| TNone.

(** The last element of a generated list: a float, None, or one character of a string
    (a string is a [Sequence], so its characters are generated one by one). *)
Inductive leaf : Type := LF (f : f64) | LChar (c : ascii) | LNone.

Definition walk : Type := (list string * leaf)%type.

(** lines 30-48: [dict_generator] with the prefix as first argument. *)
Fixpoint dict_generator (pre : list string) (t : tree) {struct t} : list walk :=
  match t with
  | TMap kvs =>
      (fix items (l : list (string * tree)) : list walk :=
         match l with
         | [] => []
         | (key, value) :: l' => dict_generator (pre ++ [key]) value ++ items l'
         end) kvs
  | TStr s => map (fun c => (pre, LChar c)) (list_ascii_of_string s)
  | TF f => [(pre, LF f)]
  | TNone => [(pre, LNone)]
  end.

(** [cal.model_dump()] of the classes involved, in field order. *)
Definition dump_pair (p : cpair) : tree :=
  TMap [("gain", TF (cp_gain p)); ("offset", TF (cp_off p));
        ("unit", match cp_unit p with Some u => TStr u | None => TNone end)]%string.
Definition dump_hrv (c : cal_hrv) : tree :=
  TMap [("dac_V_Hrv", dump_pair (dac_V_Hrv c)); ("dac_V_Sim", dump_pair (dac_V_Sim c));
        ("adc_V_Sense", dump_pair (adc_V_Sense c)); ("adc_C_Hrv", dump_pair (adc_C_Hrv c))]%string.
Definition dump_emu (c : cal_emu) : tree :=
  TMap [("dac_V_A", dump_pair (dac_V_A c)); ("dac_V_B", dump_pair (dac_V_B c));
        ("adc_C_A", dump_pair (adc_C_A c)); ("adc_C_B", dump_pair (adc_C_B c))]%string.

(** lines 205-220: [CalibrationCape] without the descriptive fields [cape] and [host]. *)
Record cal_cape : Type := mkCape { harvester : cal_hrv; emulator : cal_emu }.

Definition dump_cape (c : cal_cape) : tree :=
  TMap [("harvester", dump_hrv (harvester c)); ("emulator", dump_emu (emulator c))]%string.

(** [struct.pack(">d", x)] and [struct.unpack(">d", b)]: the IEEE encoding, most significant byte first.
    A NaN is packed with a fixed payload (calibrations never contain one). *)
Definition word_of (x : f64) : Z := bits_of_b64 (BSN2B _ _ default_nan_pl64 x).
Definition of_word (w : Z) : f64 := B2BSN 53 1024 (b64_of_bits w).

Fixpoint be_bytes (n : nat) (w : Z) : list Z :=
  match n with
  | O => []
  | S n' => be_bytes n' (w / 256) ++ [w mod 256]
  end.
Definition be_word (bs : list Z) : Z := fold_left (fun acc b => acc * 256 + b) bs 0.

Definition pack_d (x : f64) : list Z := be_bytes 8 (word_of x).

Fixpoint unpack_d (n : nat) (data : list Z) : list f64 :=
  match n with
  | O => []
  | S n' => of_word (be_word (firstn 8 data)) :: unpack_d n' (skipn 8 data)
  end.

(** [struct.unpack(">" + n * "d", data)] *)
Definition struct_unpack (n : nat) (data : list Z) : res (list f64) :=
  if Nat.eqb (List.length data) (8 * n) then Ok (unpack_d n data) else Err StructError.

(** [isinstance(walk[-1], float)] *)
Definition float_of (w : walk) : option f64 := match snd w with LF f => Some f | _ => None end.
Definition is_float (w : walk) : bool := match snd w with LF _ => true | _ => false end.
Fixpoint floats (l : list walk) : list f64 :=
  match l with
  | [] => []
  | w :: l' => match float_of w with Some f => f :: floats l' | None => floats l' end
  end.

(** lines 245-256: [to_bytestr] *)
Definition to_bytestr (c : cal_cape) : list Z :=
  flat_map pack_d (floats (dict_generator [] (dump_cape c))).

(** [dv[walk[0]][walk[1]][walk[2]] = x]: replace the entry under a key, KeyError if an outer key is missing;
    the innermost assignment would add a missing key. *)
Fixpoint put (key : string) (v : tree) (kvs : list (string * tree)) : list (string * tree) :=
  match kvs with
  | [] => [(key, v)]
  | (k, x) :: l => if String.eqb k key then (k, v) :: l else (k, x) :: put key v l
  end.
Fixpoint get (key : string) (kvs : list (string * tree)) : res tree :=
  match kvs with
  | [] => Err KeyError
  | (k, x) :: l => if String.eqb k key then Ok x else get key l
  end.
Fixpoint set_path (path : list string) (v : tree) (t : tree) : res tree :=
  match path with
  | [] => Ok v
  | key :: path' =>
      match t with
      | TMap kvs =>
          match path' with
          | [] => Ok (TMap (put key v kvs))
          | _ => let* sub := get key kvs in
                 let* sub' := set_path path' v sub in
                 Ok (TMap (put key sub' kvs))
          end
      | _ => Err TypeError
      end
  end.

(** [walk[0], walk[1], walk[2]] of a generated list; the value is the last element, so a list with fewer than
    three keys would index the value itself (does not occur, IndexError or TypeError). *)
Fixpoint assign (ws : list walk) (vs : list f64) (t : tree) : res tree :=
  match ws with
  | [] => Ok t
  | w :: ws' =>
      match vs with
      | [] => Err IndexError
      | v :: vs' =>
          if Nat.ltb (List.length (fst w)) 3 then Err TypeError else
          let* t' := set_path (firstn 3 (fst w)) (TF v) t in
          assign ws' vs' t'
      end
  end.

(** Calling the class with the dictionary as keywords: validation of the nested dictionaries. *)
Definition parse_float (t : tree) : res f64 := match t with TF f => Ok f | _ => Err ValueError end.
Definition parse_unit (t : tree) : res (option string) :=
  match t with TStr s => Ok (Some s) | TNone => Ok None | _ => Err ValueError end.
Definition parse_pair (t : tree) : res cpair :=
  match t with
  | TMap kvs =>
      let* g := get "gain"%string kvs in let* g := parse_float g in
      let* o := get "offset"%string kvs in let* o := parse_float o in
      let* u := get "unit"%string kvs in let* u := parse_unit u in
      new_pair g o u
  | _ => Err ValueError
  end.
Definition parse_field (key : string) (t : tree) : res cpair :=
  match t with TMap kvs => let* p := get key kvs in parse_pair p | _ => Err ValueError end.
Definition parse_hrv (t : tree) : res cal_hrv :=
  let* a := parse_field "dac_V_Hrv" t in let* b := parse_field "dac_V_Sim" t in
  let* c := parse_field "adc_V_Sense" t in let* d := parse_field "adc_C_Hrv" t in
  Ok (mkHrv a b c d).
Definition parse_emu (t : tree) : res cal_emu :=
  let* a := parse_field "dac_V_A" t in let* b := parse_field "dac_V_B" t in
  let* c := parse_field "adc_C_A" t in let* d := parse_field "adc_C_B" t in
  Ok (mkEmu a b c d).
Definition parse_cape (t : tree) : res cal_cape :=
  match t with
  | TMap kvs =>
      let* h := get "harvester"%string kvs in let* h := parse_hrv h in
      let* e := get "emulator"%string kvs in let* e := parse_emu e in
      Ok (mkCape h e)
  | _ => Err ValueError
  end.

(** lines 221-243: [from_bytestr] (the argument [cape] is only stored). *)
Definition from_bytestr (data : list Z) : res cal_cape :=
  let* h := default_hrv in
  let* e := default_emu in
  let dv := dump_cape (mkCape h e) in
  let lw2 := filter is_float (dict_generator [] dv) in
  let* values := struct_unpack (List.length lw2) data in
  let* dv' := assign lw2 values dv in
  parse_cape dv'.

(** lines 259-281: [CalibrationSeries] and its [from_cal]. *)
Record cal_series : Type := mkSeries { s_voltage : cpair; s_current : cpair; s_time : cpair }.
Definition default_time : res cpair := new_pair (fdec 1 9) (fz 0) (Some "s"%string).
Definition series_of (c : cal_hrv + cal_emu) (emu_port_a : bool) : res cal_series :=
  let* t := default_time in
  match c with
  | inl h => Ok (mkSeries (adc_V_Sense h) (adc_C_Hrv h) t)
  | inr e => if emu_port_a then Ok (mkSeries (dac_V_A e) (adc_C_A e) t)
             else Ok (mkSeries (dac_V_B e) (adc_C_B e) t)
  end.
