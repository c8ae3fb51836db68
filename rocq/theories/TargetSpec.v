(** What a target of the testbed should be. *)
From Coq Require Import String Ascii.
From Verif Require Import PyBase FixModel FixSpec TargetModel.
Open Scope Z_scope.
Open Scope list_scope.

(** [r] is the element [w] of the database with its ancestors [anc]. *)
Definition complete (w : dict) (anc : list (value * dict)) (r : dict) : Prop :=
  entry "inherit_from" r = None /\
  forall key, key <> "inherit_from"%string -> entry key r = nearest key (w :: map renamed anc).

(** The element of type [ty] called [s], with its ancestors, can be found after the inserts [ws]. *)
Definition findable (ws : list wrapper) (x : fixtures) (ty s : string) (w : dict) (anc : list (value * dict))
    (depth : nat) : Prop :=
  exists v n f, last_with (named ty s) ws v /\ w = w_params v /\ entry "name" w = Some (VStr n) /\
    component x ty = Ok f /\ ancestry f (entry "inherit_from" w) anc /\ last_by_name anc /\
    entry "inherit_from" w <> Some (VStr n) /\ (List.length anc + 1 < depth)%nat.

(** No number is given for the target. *)
Definition unnumbered (v : dict) : Prop :=
  entry "testbed_id" v = None \/ entry "testbed_id" v = Some (VOther "None").

(** [m] is the controller that a field [v] stands for: the one of that name, the one completed from
    a dictionary, or the object itself. *)
Definition made (x : fixtures) (depth : nat) (mcu_ok : dict -> bool) (d m : dict) : Prop :=
  mcu_ok m = true /\ exists c, try_completing_model depth x "MCU" d = Ok (m, c).
Definition stands_for (as_dict as_mcu : string -> option dict) (x : fixtures) (depth : nat) (mcu_ok : dict -> bool)
    (v : value) (m : dict) : Prop :=
  (exists s, v = VStr s /\ made x depth mcu_ok [("name"%string, VStr s)] m) \/
  (exists r d, v = VOther r /\ as_dict r = Some d /\ made x depth mcu_ok d m) \/
  (exists r, v = VOther r /\ as_dict r = None /\ as_mcu r = Some m).
