(** Model of the base class of all data models: shepherd_core/shepherd_core/data_models/base/shepherd.py
    (class ShpModel): access as dictionary, the printed form and the hash.

    Simplifications: texts are ASCII; a float is its shortest decimal form (what [repr] prints), there is
    neither infinity nor NaN (allow_inf_nan=False, line 76); a moment in time is without time zone or in UTC;
    the value of an enumeration is a text or number (use_enum_values=True, line 75); SHA3 is a parameter. *)
From Coq Require Import ZArith QArith String Ascii List Bool DecimalString Decimal.
From Verif Require Import PyBase.
Import ListNotations.
Open Scope Z_scope.

Definition text : Type := list ascii.
Definition tx (s : string) : text := list_ascii_of_string s.
Fixpoint text_eqb (a b : text) : bool :=
  match a, b with
  | [], [] => true
  | x :: a', y :: b' => Ascii.eqb x y && text_eqb a' b'
  | _, _ => false
  end.

(* ------------------------------------------------------------------ values *)

(** The shortest decimal form of a float: sign, whole part, then the digits after the point and / or the
    exponent (whether it is negative, and its digits; Python writes at least two). *)
Inductive ending := Point (frac : uint) | Expo (neg : bool) (e : uint) | PointExpo (frac : uint) (neg : bool) (e : uint).
Record lit := mkLit { l_neg : bool; l_int : N; l_end : ending }.

(** datetime.datetime and datetime.timedelta *)
Record moment := mkMoment { d_year : Z; d_month : Z; d_day : Z; d_hour : Z; d_minute : Z; d_second : Z; d_micro : Z; d_utc : bool }.
Record delta := mkDelta { t_days : Z; t_seconds : Z; t_micros : Z }.

Inductive atom :=
| ANone | ABool (b : bool) | AInt (z : Z) | AFloat (f : lit) | AStr (s : text)
| APath (p : text) | AUuid (u : text) | AMoment (d : moment) | ADelta (t : delta).

(** What model_dump returns: nested lists and dictionaries. *)
Inductive value := VAtom (a : atom) | VList (l : list value) | VDict (d : list (text * value)).

(** A field of a model: its value, whether it was given to the constructor, its default if that is
    a constant (None: no default, or one from a default_factory). *)
Record field (A : Type) := mkField { f_name : text; f_val : A; f_set : bool; f_default : option A }.
Arguments mkField {A}. Arguments f_name {A}. Arguments f_val {A}. Arguments f_set {A}. Arguments f_default {A}.

(** What the attributes of a model hold. *)
Inductive obj := OAtom (a : atom) | OList (l : list obj) | ODict (d : list (text * obj)) | OModel (cls : text) (fs : list (field obj)).

(* ------------------------------------------------------------------ pydantic *)

(** BaseModel.model_dump() *)
Fixpoint dump (o : obj) : value :=
  match o with
  | OAtom a => VAtom a
  | OList l => VList (map dump l)
  | ODict d => VDict (map (fun e => (fst e, dump (snd e))) d)
  | OModel _ fs => VDict (map (fun f => (f_name f, dump (f_val f))) fs)
  end.

(** Equality of Python on atoms of the same type: floats by value, so that -0.0 == 0.0. *)
Definition signed (neg : bool) (n : Z) : Z := if neg then - n else n.
Definition end_frac (e : ending) : uint := match e with Point u | PointExpo u _ _ => u | Expo _ _ => Nil end.
Definition end_exp (e : ending) : Z :=
  match e with Point _ => 0 | Expo n u | PointExpo _ n u => signed n (Z.of_uint u) end.
Definition lit_value (f : lit) : Q :=
  let u := end_frac (l_end f) in
  let digits := Z.of_nat (nb_digits u) in
  (inject_Z (signed (l_neg f) (Z.of_N (l_int f) * 10 ^ digits + Z.of_uint u)) * Qpower (inject_Z 10) (end_exp (l_end f) - digits))%Q.
Definition moment_eqb (a b : moment) : bool :=
  (d_year a =? d_year b) && (d_month a =? d_month b) && (d_day a =? d_day b) && (d_hour a =? d_hour b)
  && (d_minute a =? d_minute b) && (d_second a =? d_second b) && (d_micro a =? d_micro b) && Bool.eqb (d_utc a) (d_utc b).
Definition delta_eqb (a b : delta) : bool :=
  (t_days a =? t_days b) && (t_seconds a =? t_seconds b) && (t_micros a =? t_micros b).
Definition atom_eqb (a b : atom) : bool :=
  match a, b with
  | ANone, ANone => true
  | ABool x, ABool y => Bool.eqb x y
  | AInt x, AInt y => x =? y
  | AFloat x, AFloat y => Qeq_bool (lit_value x) (lit_value y)
  | AStr x, AStr y | APath x, APath y | AUuid x, AUuid y => text_eqb x y
  | AMoment x, AMoment y => moment_eqb x y
  | ADelta x, ADelta y => delta_eqb x y
  | _, _ => false
  end.

(** BaseModel.__eq__ and the equality of lists and dictionaries (here with the keys in the same order). *)
Fixpoint obj_eqb (a b : obj) : bool :=
  match a, b with
  | OAtom x, OAtom y => atom_eqb x y
  | OList l, OList m =>
    (fix go (l m : list obj) : bool :=
       match l, m with [], [] => true | x :: l', y :: m' => obj_eqb x y && go l' m' | _, _ => false end) l m
  | ODict l, ODict m =>
    (fix go (l m : list (text * obj)) : bool :=
       match l, m with
       | [], [] => true
       | x :: l', y :: m' => text_eqb (fst x) (fst y) && obj_eqb (snd x) (snd y) && go l' m'
       | _, _ => false
       end) l m
  | OModel c l, OModel d m =>
    text_eqb c d &&
    (fix go (l m : list (field obj)) : bool :=
       match l, m with
       | [], [] => true
       | x :: l', y :: m' => text_eqb (f_name x) (f_name y) && obj_eqb (f_val x) (f_val y) && go l' m'
       | _, _ => false
       end) l m
  | _, _ => false
  end.

(** BaseModel.model_dump(exclude_unset=True, exclude_defaults=True) *)
Definition kept {A} (eqb : A -> A -> bool) (f : field A) : bool :=
  f_set f && negb (match f_default f with Some d => eqb (f_val f) d | None => false end).
Fixpoint brief (o : obj) : value :=
  match o with
  | OAtom a => VAtom a
  | OList l => VList (map brief l)
  | ODict d => VDict (map (fun e => (fst e, brief (snd e))) d)
  | OModel _ fs =>
    VDict ((fix go (fs : list (field obj)) : list (text * value) :=
      match fs with
      | [] => []
      | f :: fs' => if kept obj_eqb f then (f_name f, brief (f_val f)) :: go fs' else go fs'
      end) fs)
  end.

(* ------------------------------------------------------------------ str() of nested dictionaries *)

Definition has (c : ascii) (s : text) : bool := existsb (Ascii.eqb c) s.
Definition squote : ascii := "'"%char.
Definition dquote : ascii := """"%char.
Definition backslash : ascii := "\"%char.

(** repr() of a str: the quotes, and what is escaped. *)
Definition quote_of (s : text) : ascii := if has squote s && negb (has dquote s) then dquote else squote.
Definition hex_digit (n : N) : ascii := nth (N.to_nat n) (tx "0123456789abcdef") "0"%char.
Definition esc (q c : ascii) : text :=
  if Ascii.eqb c backslash then [backslash; backslash]
  else if Ascii.eqb c q then [backslash; q]
  else if Ascii.eqb c "009" then [backslash; "t"%char]
  else if Ascii.eqb c "010" then [backslash; "n"%char]
  else if Ascii.eqb c "013" then [backslash; "r"%char]
  else if (N_of_ascii c <? 32)%N || (N_of_ascii c =? 127)%N
  then [backslash; "x"%char; hex_digit (N_of_ascii c / 16); hex_digit (N_of_ascii c mod 16)]
  else [c].
Definition repr_str (s : text) : text := let q := quote_of s in q :: flat_map (esc q) s ++ [q].

(** repr() of numbers *)
Definition show_uint (u : uint) : text := tx (NilEmpty.string_of_uint u).
Definition show_int (z : Z) : text := tx (NilZero.string_of_int (Z.to_int z)).
Definition show_exp (neg : bool) (e : uint) : text := tx (if neg then "e-" else "e+") ++ show_uint e.
Definition show_end (e : ending) : text :=
  match e with
  | Point u => tx "." ++ show_uint u
  | Expo n e => show_exp n e
  | PointExpo u n e => tx "." ++ show_uint u ++ show_exp n e
  end.
Definition show_lit (f : lit) : text :=
  (if l_neg f then tx "-" else []) ++ show_int (Z.of_N (l_int f)) ++ show_end (l_end f).

(** Elements one after the other, up to the closing bracket. *)
Fixpoint rest (close : text) (l : list text) : text :=
  match l with [] => close | x :: l' => tx ", " ++ x ++ rest close l' end.
Definition seq_ (close : text) (l : list text) : text :=
  match l with [] => close | x :: l' => x ++ rest close l' end.

(** repr() of datetime: seconds and microseconds only if needed; of timedelta: only what is not 0. *)
Definition moment_args (d : moment) : list text :=
  map show_int ([d_year d; d_month d; d_day d; d_hour d; d_minute d]
    ++ (if (d_second d =? 0) && (d_micro d =? 0) then [] else [d_second d])
    ++ (if d_micro d =? 0 then [] else [d_micro d]))
  ++ (if d_utc d then [tx "tzinfo=datetime.timezone.utc"] else []).
Definition delta_args (t : delta) : list text :=
  match (if t_days t =? 0 then [] else [tx "days=" ++ show_int (t_days t)])
    ++ (if t_seconds t =? 0 then [] else [tx "seconds=" ++ show_int (t_seconds t)])
    ++ (if t_micros t =? 0 then [] else [tx "microseconds=" ++ show_int (t_micros t)]) with
  | [] => [tx "0"]
  | l => l
  end.

Definition repr_atom (a : atom) : text :=
  match a with
  | ANone => tx "None"
  | ABool b => tx (if b then "True" else "False")
  | AInt z => show_int z
  | AFloat f => show_lit f
  | AStr s => repr_str s
  | APath p => tx "PosixPath(" ++ repr_str p ++ tx ")"
  | AUuid u => tx "UUID(" ++ repr_str u ++ tx ")"
  | AMoment d => tx "datetime.datetime(" ++ seq_ (tx ")") (moment_args d)
  | ADelta t => tx "datetime.timedelta(" ++ seq_ (tx ")") (delta_args t)
  end.
Fixpoint repr (v : value) : text :=
  match v with
  | VAtom a => repr_atom a
  | VList l => tx "[" ++ seq_ (tx "]") (map repr l)
  | VDict d => tx "{" ++ seq_ (tx "}") (map (fun e => repr_str (fst e) ++ tx ": " ++ repr (snd e)) d)
  end.

(* ------------------------------------------------------------------ ShpModel *)

(** A model: its class with the names that are reachable besides the fields (methods, class variables,
    properties), and its fields. *)
Record model := mkModel { m_cls : text; m_attrs : list text; m_fields : list (field obj) }.

(** The result of an access: a field, or something of the class. *)
Inductive access := Field (o : obj) | Of_class (name : text).

Fixpoint find_field (k : text) (fs : list (field obj)) : option obj :=
  match fs with [] => None | f :: fs' => if text_eqb (f_name f) k then Some (f_val f) else find_field k fs' end.

(** shepherd.py:95-100, __getitem__ by __getattribute__ (fields of a model are in its __dict__). *)
Definition getitem (m : model) (k : text) : res access :=
  match find_field k (m_fields m) with
  | Some o => Ok (Field o)
  | None => if existsb (text_eqb k) (m_attrs m) then Ok (Of_class k) else Err AttributeError
  end.

(** shepherd.py:102-109, __contains__ and keys *)
Definition dumped (m : model) : value := dump (OModel (m_cls m) (m_fields m)).
Definition keys (m : model) : list text := match dumped m with VDict d => map fst d | _ => [] end.
Definition contains (m : model) (k : text) : bool := existsb (text_eqb k) (keys m).

(** shepherd.py:111-114, items *)
Fixpoint mapM {A B} (f : A -> res B) (l : list A) : res (list B) :=
  match l with [] => Ok [] | x :: l' => let* y := f x in let* r := mapM f l' in Ok (y :: r) end.
Definition items (m : model) : res (list (text * access)) :=
  mapM (fun k => let* o := getitem m k in Ok (k, o)) (keys m).

(** Iteration: BaseModel.__iter__ goes through pairs (name, value), not through the keys. *)
Inductive iterated := Pair (k : text) (o : obj) | Key (k : text).
Definition iterate (m : model) : list iterated := map (fun f => Pair (f_name f) (f_val f)) (m_fields m).

(** shepherd.py:80-84, __repr__ *)
Definition repr_model (m : model) : text :=
  m_cls m ++ tx "(" ++ repr (brief (OModel (m_cls m) (m_fields m))) ++ tx ")".

(** shepherd.py:166-167, get_hash *)
Definition get_hash (sha3 : text -> text) (m : model) : text := sha3 (repr (dumped m)).
