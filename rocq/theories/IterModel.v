(** Model of going through the elements of a fixture.

    Code: shepherd_core/shepherd_core/testbed_client/fixtures.py (F), client_abc_fix.py (A) and
    shepherd_core/shepherd_core/data_models/testbed/testbed.py (T).

    Simplifications: those of FixModel.  A loop "for x in fixture: body" is [for_each]; its body
    is a function on the state of the fixture that may end in an exception or not end at all;
    a loop is given a number of rounds, [None] means that it has not ended by then.  The warning
    about a second testbed (T:50-51) is left out. *)
From Coq Require Import String.
From Verif Require Import PyBase FixModel.
Open Scope nat_scope.
Open Scope list_scope.

(** F:35-41, a fixture with the state of its iterator. *)
Record fx : Set := mkFx {
  fx_fix : fixture;
  fx_index : nat;                        (* _iter_index *)
  fx_list : list dict                    (* _iter_list *)
}.

(** list(self.elements_by_name.values()) *)
Definition by_name (f : fixture) : list dict := map snd (x_names f).

(** F:35-41, __init__. *)
Definition fx_new (model_type : string) : fx :=
  let f := new_fixture model_type in mkFx f 0 (by_name f).

(** F:43-57, insert: the list of the iterator is only renewed by inserts that store something. *)
Definition fx_insert (s : fx) (w : wrapper) : res fx :=
  if negb (String.eqb (lower (w_type w)) (lower (x_type (fx_fix s)))) then Ok s
  else
    match dget "name" (w_params w) with
    | None => Ok s
    | Some _ => let* f := insert (fx_fix s) w in Ok (mkFx f (fx_index s) (by_name f))
    end.

(** F:70-73, __iter__: the fixture is its own iterator. *)
Definition fx_iter (s : fx) : fx := mkFx (fx_fix s) 0 (by_name (fx_fix s)).

(** F:75-80, __next__; [None] is StopIteration. *)
Definition fx_next (s : fx) : option dict * fx :=
  match nth_error (fx_list s) (fx_index s) with
  | Some member => (Some member, mkFx (fx_fix s) (fx_index s + 1) (fx_list s))
  | None => (None, s)
  end.

(** Python's for statement: __next__ until StopIteration; [seen] are the elements shown so far. *)
Fixpoint rounds (n : nat) (body : dict -> fx -> option (res fx)) (s : fx) (seen : list dict)
  : option (res (fx * list dict)) :=
  match n with
  | O => None
  | S n' =>
    match fx_next s with
    | (None, s') => Some (Ok (s', seen))
    | (Some x, s') =>
      match body x s' with
      | None => None
      | Some (Err e) => Some (Err e)
      | Some (Ok s'') => rounds n' body s'' (seen ++ [x])
      end
    end
  end.

Definition for_each (n : nat) (body : dict -> fx -> option (res fx)) (s : fx)
  : option (res (fx * list dict)) :=
  rounds n body (fx_iter s) [].

(** A body that only reads. *)
Definition skip (_ : dict) (s : fx) : option (res fx) := Some (Ok s).

(** A body that goes through the same fixture again. *)
Definition again (n : nat) (_ : dict) (s : fx) : option (res fx) :=
  match for_each n skip s with
  | None => None
  | Some (Err e) => Some (Err e)
  | Some (Ok (s', _)) => Some (Ok s')
  end.

(** A body that inserts something made from the element. *)
Definition inserts (mk : dict -> wrapper) (x : dict) (s : fx) : option (res fx) :=
  Some (fx_insert s (mk x)).

(** What can be asked for with "in": a string, a number, another object or a dictionary. *)
Inductive obj : Set := OVal (v : value) | ODict (d : dict).

(** Python's == between such an object and an element. *)
Definition equals (o : obj) (d : dict) : bool :=
  match o with
  | OVal _ => false
  | ODict e =>
    Nat.eqb (List.length e) (List.length d) &&
    forallb (fun kv => match dget (fst kv) d with
                       | Some v => value_eqb (snd kv) v
                       | None => false
                       end) e
  end.

(** "o in fixture": there is no __contains__ (F:32-163), so Python goes through the elements with
    __iter__ and __next__ and compares. *)
Fixpoint search (n : nat) (o : obj) (s : fx) : option (bool * fx) :=
  match n with
  | O => None
  | S n' =>
    match fx_next s with
    | (None, s') => Some (false, s')
    | (Some x, s') => if equals o x then Some (true, s') else search n' o s'
    end
  end.

Definition contains (n : nat) (o : obj) (s : fx) : option (bool * fx) := search n o (fx_iter s).

(** F:85-86, refs. *)
Fixpoint refs_of (ds : list dict) (r : assoc value value) : res (assoc value value) :=
  match ds with
  | [] => Ok r
  | d :: ds' =>
    match dget "id" d, dget "name" d with
    | Some i, Some n => refs_of ds' (put value_eqb i n r)
    | _, _ => Err KeyError
    end
  end.

Definition refs (f : fixture) : res (assoc value value) := refs_of (map snd (x_ids f)) [].

(** A:96-97, query_ids. *)
Definition query_ids (x : fixtures) (model_type : string) : res (list value) :=
  let* f := component x model_type in Ok (map fst (x_ids f)).

(** A:99-100, query_names. *)
Definition query_names (x : fixtures) (model_type : string) : res (list string) :=
  let* f := component x model_type in Ok (map fst (x_names f)).

(** T:43-55, query_database of Testbed: without values the first id is taken. *)
Definition testbed_values (depth : nat) (x : fixtures) (values : dict)
  : res (dict * list value) :=
  let* values :=
    (match values with
     | [] =>
       let* ids := query_ids x "Testbed" in
       match ids with [] => Err IndexError | i :: _ => Ok [("id"%string, i)] end
     | _ => Ok values
     end) in
  try_completing_model depth x "Testbed" values.

(** What a user may do with a fixture; an insert that raises leaves it as it is (F:52 comes
    before anything is stored). *)
Inductive op : Set := OInsert (w : wrapper) | OIter | ONext | OIn (n : nat) (o : obj).

Definition step (s : fx) (o : op) : fx :=
  match o with
  | OInsert w => match fx_insert s w with Ok s' => s' | Err _ => s end
  | OIter => fx_iter s
  | ONext => snd (fx_next s)
  | OIn n o => match contains n o s with Some (_, s') => s' | None => s end
  end.

Definition run (s : fx) (ops : list op) : fx := fold_left step ops s.
