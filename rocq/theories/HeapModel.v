(** Model of the fixtures with dictionaries as objects:
    shepherd_core/shepherd_core/testbed_client/fixtures.py (F) and client_abc_fix.py (A).
    FixModel.v treats dictionaries as values; here they live at addresses, so that one can tell
    which of them are changed in place.

    Simplifications: as in FixModel.v; objects inside of dictionaries are opaque values, and lists
    (the chain) are values: the chain is created by the outermost call. *)
From Coq Require Import String Ascii.
From Verif Require Import PyBase FixModel.

Definition addr := nat.
Definition heap := list dict.

(** The dictionary at an address; addresses are valid in everything below. *)
Definition load (h : heap) (a : addr) : dict := nth a h [].
(** A change in place. *)
Fixpoint update (h : heap) (a : addr) (g : dict -> dict) : heap :=
  match h, a with
  | [], _ => []
  | d :: h', O => g d :: h'
  | d :: h', S a' => d :: update h' a' g
  end.
(** A new dictionary; copy.copy(). *)
Definition alloc (h : heap) (d : dict) : heap * addr := (h ++ [d], List.length h).
Definition copy (h : heap) (a : addr) : heap * addr := alloc h (load h a).

(** F:35-41. *)
Record hfixture := mkHFix { o_type : string; o_names : assoc string addr; o_ids : assoc value addr }.
Definition new_hfixture (model_type : string) : hfixture := mkHFix (lower model_type) [] [].

(** F:43-57, insert; the parameters of the wrapper are stored themselves, twice. *)
Definition hinsert (h : heap) (f : hfixture) (w_type : string) (params : addr) : res hfixture :=
  if negb (String.eqb (lower w_type) (lower (o_type f))) then Ok f
  else
    match dget "name" (load h params) with
    | None => Ok f
    | Some n =>
      match dget "id" (load h params) with
      | None => Err KeyError
      | Some i =>
        Ok (mkHFix (o_type f)
                   (put String.eqb (lower (str n)) params (o_names f))
                   (put value_eqb i params (o_ids f)))
      end
    end.

(** F:59-68, __getitem__. *)
Definition hgetitem_id (f : hfixture) (key : value) : res addr :=
  match get value_eqb key (o_ids f) with
  | Some a => match key with VInt _ => Ok a | _ => Err TypeError end
  | None => Err ValueError
  end.
Definition hgetitem (f : hfixture) (key : value) : res addr :=
  match key with
  | VStr s =>
    match get String.eqb (lower s) (o_names f) with
    | Some a => Ok a
    | None =>
      match int_of_key (lower s) with
      | Some z => hgetitem_id f (VInt z)
      | None => hgetitem_id f none_
      end
    end
  | _ => hgetitem_id f key
  end.

(** F:153-163, query_id and query_name. *)
Definition hquery_id (f : hfixture) (key : value) : res addr :=
  match key with
  | VInt _ => match get value_eqb key (o_ids f) with Some a => Ok a | None => Err ValueError end
  | _ => Err ValueError
  end.
Definition hquery_name (f : hfixture) (key : value) : res addr :=
  match key with
  | VStr s =>
    match get String.eqb (lower s) (o_names f) with Some a => Ok a | None => Err ValueError end
  | _ => Err ValueError
  end.

(** F:121-129. *)
Definition hself_base (f : hfixture) (values : dict) : res (option addr) :=
  let by_id :=
    get value_eqb (match dget "id" values with Some i => i | None => none_ end) (o_ids f) in
  match dget "name" values with
  | Some (VStr n) =>
    match get String.eqb (lower n) (o_names f) with
    | Some a => Ok (Some a)
    | None => Ok by_id
    end
  | Some _ => Err AttributeError
  | None => Ok by_id
  end.

(** F:88-143, inheritance, statement by statement.  [start_chain] only reads. *)
Fixpoint hinheritance (depth : nat) (f : hfixture) (h : heap) (values : addr) (chain : list value)
  : heap * res (addr * list value) :=
  match depth with
  | O => (h, Err RecursionError)
  | S depth' =>
    let '(h, values) := copy h values in                                             (* F:91 *)
    match dget "inherit_from" (load h values) with
    | Some fixture_name =>
      let h := update h values (ddel "inherit_from") in                              (* F:95 *)
      match start_chain (load h values) fixture_name chain with
      | Err e => (h, Err e)
      | Ok chain =>
        match hgetitem f fixture_name with
        | Err e => (h, Err e)
        | Ok a =>
          let '(h, fixture_base) := copy h a in                                      (* F:110 *)
          let h := update h fixture_base (dput "name" fixture_name) in               (* F:112 *)
          let '(h, r) := hinheritance depth' f h fixture_base (chain ++ [fixture_name]) in
          match r with
          | Err e => (h, Err e)
          | Ok (base_dict, chain) =>
            let h := update h base_dict (fun d => fill d (load h values)) in         (* F:115-117 *)
            (h, Ok (base_dict, chain))
          end
        end
      end
    | None =>
      match hself_base f (load h values) with
      | Err e => (h, Err e)
      | Ok None => (h, Ok (values, chain))
      | Ok (Some a) =>
        let '(h, fixture_base) := copy h a in                                        (* F:123, 128 *)
        let h := update h fixture_base (fun d => fill d (load h values)) in          (* F:133-135 *)
        match dget "inherit_from" (load h fixture_base) with
        | None => (h, Ok (fixture_base, chain))
        | Some _ =>
          match dget "name" (load h fixture_base) with
          | None => (h, Err KeyError)
          | Some n => hinheritance depth' f h fixture_base (chain ++ [n])
          end
        end
      end
    end
  end.

(** A:61-73 and 102-112, try_completing_model with query_item, for the fixture of the model type. *)
Definition hquery_item (f : hfixture) (uid name : option value) : res addr :=
  let given v := match v with
                 | Some v => negb (value_eqb v none_)
                 | None => false
                 end in
  if given uid then hquery_id f (match uid with Some v => v | None => none_ end)
  else if given name then hquery_name f (match name with Some v => v | None => none_ end)
  else Err ValueError.
Definition htry_completing_model (depth : nat) (f : hfixture) (h : heap) (values : addr)
  : heap * res (addr * list value) :=
  let query := match load h values with
               | [(k, _)] => String.eqb k "id" || String.eqb k "name"
               | _ => false
               end in
  match (if query then hquery_item f (dget "id" (load h values)) (dget "name" (load h values))
         else Ok values) with
  | Err e => (h, Err e)
  | Ok values => hinheritance depth f h values []
  end.

(** A:114-123, fill_in_user_data, which works in place. *)
Definition hfill_in_user_data (h : heap) (values : addr) : heap * addr :=
  (update h values fill_in_user_data, values).
