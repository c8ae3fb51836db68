(** Model of the file-based fixture database.

    Code: shepherd_core/shepherd_core/testbed_client/fixtures.py (F) and
    client_abc_fix.py (A).

    Simplifications: strings are byte strings, lower() and isdigit() are the ASCII versions;
    a value of a dictionary is a string, an integer or an opaque object, which carries its
    str(); an opaque object used as a key is found only if it was inserted as an id (Python
    would also raise TypeError for unhashable objects); reading yaml files, the cache and
    logging are left out. *)
From Verif Require Import PyBase.
From Coq Require Import String Ascii DecimalString.
Open Scope nat_scope.
Open Scope list_scope.

(** * Python values and dictionaries *)

(** A value of a fixture dictionary; [VOther] is any value that is neither str nor int. *)
Inductive value : Set :=
| VStr (s : string)
| VInt (z : Z)
| VOther (repr : string).

Definition value_eqb (a b : value) : bool :=
  match a, b with
  | VStr x, VStr y => String.eqb x y
  | VInt x, VInt y => Z.eqb x y
  | VOther x, VOther y => String.eqb x y
  | _, _ => false
  end.

(** The object None. *)
Definition none_ : value := VOther "None".

(** Python dictionaries keep their insertion order; keys are unique. *)
Definition assoc (K A : Set) : Set := list (K * A).

Section Dict.
  Context {K A : Set} (eqb : K -> K -> bool).

  (** d.get(k) *)
  Fixpoint get (k : K) (d : assoc K A) : option A :=
    match d with
    | [] => None
    | (k', v) :: d' => if eqb k k' then Some v else get k d'
    end.

  (** d[k] = v: replaces in place or appends. *)
  Fixpoint put (k : K) (v : A) (d : assoc K A) : assoc K A :=
    match d with
    | [] => [(k, v)]
    | (k', v') :: d' => if eqb k k' then (k', v) :: d' else (k', v') :: put k v d'
    end.

  (** del d[k] *)
  Fixpoint del (k : K) (d : assoc K A) : assoc K A :=
    match d with
    | [] => []
    | (k', v) :: d' => if eqb k k' then del k d' else (k', v) :: del k d'
    end.
End Dict.

(** Parameters of a fixture. *)
Definition dict := assoc string value.
Definition dget : string -> dict -> option value := get String.eqb.
Definition dput : string -> value -> dict -> dict := put String.eqb.
Definition ddel : string -> dict -> dict := del String.eqb.

(** Loop "for key, value in values.items(): base[key] = value" (F:115-117, 133-135) and
    Fixture.fill_model (F:145-151). *)
Definition fill (base values : dict) : dict :=
  fold_left (fun b kv => dput (fst kv) (snd kv) b) values base.

(** * Strings *)

(** str.lower() for ASCII. *)
Definition lower_ascii (c : ascii) : ascii :=
  let n := nat_of_ascii c in
  if (65 <=? n) && (n <=? 90) then ascii_of_nat (n + 32) else c.

Fixpoint lower (s : string) : string :=
  match s with
  | EmptyString => EmptyString
  | String c s' => String (lower_ascii c) (lower s')
  end.

(** str(value) *)
Definition str (v : value) : string :=
  match v with
  | VStr s => s
  | VInt z => NilZero.string_of_int (Z.to_int z)
  | VOther r => r
  end.

(** int(key) if key.isdigit() else None (F:64). *)
Definition digit (c : ascii) : option Z :=
  let n := nat_of_ascii c in
  if (48 <=? n) && (n <=? 57) then Some (Z.of_nat (n - 48)) else None.

Fixpoint digits (s : string) (acc : Z) : option Z :=
  match s with
  | EmptyString => Some acc
  | String c s' =>
    match digit c with
    | Some d => digits s' (10 * acc + d)%Z
    | None => None
    end
  end.

Definition int_of_key (s : string) : option Z :=
  match s with EmptyString => None | _ => digits s 0%Z end.

(** * Fixture *)

(** F:35-41; the iterator state is left out. *)
Record fixture : Set := mkFix {
  x_type : string;                       (* model_type *)
  x_names : assoc string dict;           (* elements_by_name *)
  x_ids : assoc value dict               (* elements_by_id *)
}.

Definition new_fixture (model_type : string) : fixture := mkFix (lower model_type) [] [].

(** wrapper.py:16-27: the two fields that matter. *)
Record wrapper : Set := mkWrap { w_type : string; w_params : dict }.

(** F:43-57, insert. *)
Definition insert (f : fixture) (w : wrapper) : res fixture :=
  if negb (String.eqb (lower (w_type w)) (lower (x_type f))) then Ok f
  else
    match dget "name" (w_params w) with
    | None => Ok f
    | Some n =>
      match dget "id" (w_params w) with
      | None => Err KeyError
      | Some i =>
        Ok (mkFix (x_type f)
                  (put String.eqb (lower (str n)) (w_params w) (x_names f))
                  (put value_eqb i (w_params w) (x_ids f)))
      end
    end.

(** F:65-68, the second half of __getitem__: "if key in elements_by_id: return
    elements_by_id[int(key)]".  int() of an opaque object is taken to raise. *)
Definition getitem_id (f : fixture) (key : value) : res dict :=
  match get value_eqb key (x_ids f) with
  | Some d => match key with VInt _ => Ok d | _ => Err TypeError end
  | None => Err ValueError
  end.

(** F:59-68, __getitem__. *)
Definition getitem (f : fixture) (key : value) : res dict :=
  match key with
  | VStr s =>
    match get String.eqb (lower s) (x_names f) with
    | Some d => Ok d
    | None =>
      match int_of_key (lower s) with
      | Some z => getitem_id f (VInt z)
      | None => getitem_id f none_
      end
    end
  | _ => getitem_id f key
  end.

(** F:153-157, query_id. *)
Definition query_id (f : fixture) (key : value) : res dict :=
  match key with
  | VInt _ => match get value_eqb key (x_ids f) with Some d => Ok d | None => Err ValueError end
  | _ => Err ValueError
  end.

(** F:159-163, query_name. *)
Definition query_name (f : fixture) (key : value) : res dict :=
  match key with
  | VStr s =>
    match get String.eqb (lower s) (x_names f) with Some d => Ok d | None => Err ValueError end
  | _ => Err ValueError
  end.

(** F:82-86, keys and refs.  Every stored element has the keys "id" and "name". *)
Definition keys (f : fixture) : list string := map fst (x_names f).

(** F:97-109: the circle check and the start of the chain. *)
Definition start_chain (values : dict) (fixture_name : value) (chain : list value)
  : res (list value) :=
  match dget "name" values with
  | Some base_name =>
    if Nat.ltb (List.length chain) 1 then
      if existsb (value_eqb base_name) chain then Err ValueError
      else if value_eqb base_name fixture_name then Err ValueError
      else Ok (chain ++ [base_name])
    else Ok chain
  | None => Ok chain
  end.

(** F:121-129: the element that values without "inherit_from" refer to.
    [Err]: values["name"] is not a string. *)
Definition self_base (f : fixture) (values : dict) : res (option dict) :=
  let by_id :=
    get value_eqb (match dget "id" values with Some i => i | None => none_ end) (x_ids f) in
  match dget "name" values with
  | Some (VStr n) =>
    match get String.eqb (lower n) (x_names f) with
    | Some d => Ok (Some d)
    | None => Ok by_id
    end
  | Some _ => Err AttributeError
  | None => Ok by_id
  end.

(** F:88-143, inheritance.  [depth] is the number of nested calls the interpreter allows. *)
Fixpoint inheritance (depth : nat) (f : fixture) (values : dict) (chain : list value)
  : res (dict * list value) :=
  match depth with
  | O => Err RecursionError
  | S depth' =>
    match dget "inherit_from" values with
    | Some fixture_name =>
      let values := ddel "inherit_from" values in
      let* chain := start_chain values fixture_name chain in
      let* fixture_base := getitem f fixture_name in
      let fixture_base := dput "name" fixture_name fixture_base in
      let* r := inheritance depth' f fixture_base (chain ++ [fixture_name]) in
      Ok (fill (fst r) values, snd r)
    | None =>
      let* b := self_base f values in
      match b with
      | None => Ok (values, chain)
      | Some base =>
        let fixture_base := fill base values in
        match dget "inherit_from" fixture_base with
        | None => Ok (fixture_base, chain)
        | Some _ =>
          match dget "name" fixture_base with
          | None => Err KeyError
          | Some n => inheritance depth' f fixture_base (chain ++ [n])
          end
        end
      end
    end
  end.

(** * Fixtures and client *)

(** F:173-241: the components by lower-case type name. *)
Definition fixtures := assoc string fixture.

(** F:230-234, insert_model. *)
Definition insert_model (x : fixtures) (w : wrapper) : res fixtures :=
  let fix_type := lower (w_type w) in
  let f := match get String.eqb fix_type x with Some f => f | None => new_fixture fix_type end in
  match insert f w with
  | Ok f' => Ok (put String.eqb fix_type f' x)
  | Err e => Err e
  end.

(** F:236-241, Fixtures.__getitem__. *)
Definition component (x : fixtures) (key : string) : res fixture :=
  match get String.eqb (lower key) x with Some f => Ok f | None => Err ValueError end.

(** All inserts, stopping at the first exception. *)
Fixpoint insert_all (x : fixtures) (ws : list wrapper) : res fixtures :=
  match ws with
  | [] => Ok x
  | w :: ws' => let* x' := insert_model x w in insert_all x' ws'
  end.

(** A:102-109, query_item; None stands for an absent argument. *)
Definition query_item (x : fixtures) (model_type : string) (uid name : option value)
  : res dict :=
  let given v := match v with
                 | Some v => negb (value_eqb v none_)
                 | None => false
                 end in
  if given uid then
    let* f := component x model_type in
    query_id f (match uid with Some v => v | None => none_ end)
  else if given name then
    let* f := component x model_type in
    query_name f (match name with Some v => v | None => none_ end)
  else Err ValueError.

(** A:61-73 and 111-112, try_completing_model. *)
Definition try_completing_model (depth : nat) (x : fixtures) (model_type : string) (values : dict)
  : res (dict * list value) :=
  let query := match values with
               | [(k, _)] => String.eqb k "id" || String.eqb k "name"
               | _ => false
               end in
  let* values :=
    (if query then query_item x model_type (dget "id" values) (dget "name" values)
     else Ok values) in
  let* f := component x model_type in
  inheritance depth f values [].

(** A:114-123, fill_in_user_data. *)
Definition fill_in_user_data (values : dict) : dict :=
  let missing k d := match dget k d with
                     | None => true
                     | Some v => value_eqb v none_
                     end in
  let values := if missing "owner"%string values then dput "owner" (VStr "unknown") values
                else values in
  if missing "group"%string values then dput "group" (VStr "unknown") values else values.
