(** Model of the targets of the testbed and their controllers:
    shepherd_core/shepherd_core/data_models/testbed/target.py (T) and mcu.py (M).

    Simplifications: dictionaries as in FixModel.v; what opaque values are is told by parameters:
    the dictionary or the controller object behind a value, and the integer pydantic makes of a
    value.  The remaining fields of target and controller (texts, numbers and dates with their
    limits) are checked by parameters.  Values of type bytes, which pydantic takes for texts, are
    left out. *)
From Coq Require Import String Ascii.
From Verif Require Import PyBase FixModel.
Open Scope Z_scope.
Open Scope list_scope.

Section Targets.
  (** [isinstance(value, dict)], [isinstance(value, MCU)] with the content of the object *)
  Context (as_dict as_mcu : string -> option dict).
  (** the integer accepted by pydantic for a value, [str % int] and [object % int] *)
  Context (lax_int : value -> option Z).
  Context (str_mod : string -> res value) (other_mod : string -> res value).
  (** the checks of the fields of MCU, and of Target except id, testbed_id, mcu1 and mcu2 *)
  Context (mcu_ok rest_ok : dict -> bool).
  (** the recursion limit and the client with its fixtures *)
  Context (depth : nat) (x : fixtures).

  (** M:43-47: MCU( **values ): completed, then the fields are checked; a ValidationError is a
      ValueError. *)
  Definition new_mcu (values : dict) : res dict :=
    let* vc := try_completing_model depth x "MCU" values in
    if mcu_ok (fst vc) then Ok (fst vc) else Err ValueError.

  (** What stands in the field afterwards. *)
  Inductive field := Absent | Controller (content : dict) | Rest (v : value).

  (** T:52-58 for one of the two keys *)
  Definition correct_mcu (v : option value) : res field :=
    match v with
    | None => Ok Absent
    | Some (VStr s) => let* m := new_mcu [("name"%string, VStr s)] in Ok (Controller m)
    | Some (VInt z) => Ok (Rest (VInt z))
    | Some (VOther r) =>
      match as_dict r with
      | Some d => let* m := new_mcu d in Ok (Controller m)
      | None => match as_mcu r with Some m => Ok (Controller m) | None => Ok (Rest (VOther r)) end
      end
    end.

  (** [values.get("id") % 2**16] *)
  Definition id_mod (v : option value) : res value :=
    match v with
    | None => Err TypeError
    | Some (VInt z) => Ok (VInt (z mod 2 ^ 16))
    | Some (VStr s) => str_mod s
    | Some (VOther r) => if value_eqb (VOther r) none_ then Err TypeError else other_mod r
    end.

  (** T:59-60 *)
  Definition testbed_id_of (v : dict) : res value :=
    match dget "testbed_id" v with
    | None => id_mod (dget "id" v)
    | Some t => if value_eqb t none_ then id_mod (dget "id" v) else Ok t
    end.

  Record target := mkTarget { t_id : Z; t_testbed_id : Z; t_mcu1 : dict; t_mcu2 : option dict }.

  (** The fields T:27, 37, 39, 40. *)
  Definition int_field (v : option value) (limit : Z) : res Z :=
    match v with
    | None => Err ValueError
    | Some v => match lax_int v with
                | Some z => if (0 <=? z) && (z <? limit) then Ok z else Err ValueError
                | None => Err ValueError
                end
    end.
  Definition mcu1_field (f : field) : res dict :=
    match f with Controller m => Ok m | _ => Err ValueError end.
  Definition mcu2_field (f : field) : res (option dict) :=
    match f with
    | Absent => Ok None
    | Controller m => Ok (Some m)
    | Rest v => if value_eqb v none_ then Ok None else Err ValueError
    end.

  (** T:46-62: Target( **values ) *)
  Definition new_target (values : dict) : res target :=
    let* vc := try_completing_model depth x "Target" values in
    let v := fst vc in
    let* m1 := correct_mcu (dget "mcu1" v) in
    let* m2 := correct_mcu (dget "mcu2" v) in
    let* tb := testbed_id_of v in
    let* i := int_field (dget "id" v) (2 ^ 128) in
    let* t := int_field (Some tb) (2 ^ 16) in
    let* m1 := mcu1_field m1 in
    let* m2 := mcu2_field m2 in
    if rest_ok v then Ok (mkTarget i t m1 m2) else Err ValueError.
End Targets.
