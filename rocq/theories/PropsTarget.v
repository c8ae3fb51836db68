(** Targets of the testbed (C126). Vocabulary: FixSpec.v, TargetSpec.v; code: TargetModel.v, FixModel.v. *)
From Coq Require Import String Ascii.
From Verif Require Import PyBase FixModel FixSpec FixProofs TargetModel TargetSpec TargetProofs.
Open Scope Z_scope.
Open Scope list_scope.
Open Scope string_scope.

(** * C126 A target knows its number and its controllers *)

(** Asked for by its name: the target of the database, its controller completed from the
    database as well, and its number derived from its id. *)
Theorem C126_from_database :
  forall as_dict as_mcu lax_int str_mod other_mod mcu_ok rest_ok depth x ws s w anc i m wm ancm,
    (forall z, lax_int (VInt z) = Some z) ->
    insert_all [] ws = Ok x -> Forall (fun w => python_dict (w_params w)) ws ->
    findable ws x "Target" s w anc depth ->
    nearest "id" (w :: map renamed anc) = Some (VInt i) -> 0 <= i < 2 ^ 128 ->
    nearest "testbed_id" (w :: map renamed anc) = None ->
    nearest "mcu1" (w :: map renamed anc) = Some (VStr m) -> nearest "mcu2" (w :: map renamed anc) = None ->
    findable ws x "MCU" m wm ancm depth -> (forall r, complete wm ancm r -> mcu_ok r = true) ->
    (forall r, complete w anc r -> rest_ok r = true) ->
    exists t,
      new_target as_dict as_mcu lax_int str_mod other_mod mcu_ok rest_ok depth x [("name", VStr s)] = Ok t /\
      t_id t = i /\ t_testbed_id t = i mod 65536 /\ complete wm ancm (t_mcu1 t) /\ t_mcu2 t = None.
Proof. exact from_database. Qed.
Print Assumptions C126_from_database.

(** Every accepted target has id and number within their limits, and a controller. *)
Theorem C126_accepted :
  forall as_dict as_mcu lax_int str_mod other_mod mcu_ok rest_ok depth x values t,
    new_target as_dict as_mcu lax_int str_mod other_mod mcu_ok rest_ok depth x values = Ok t ->
    0 <= t_id t < 2 ^ 128 /\ 0 <= t_testbed_id t < 65536 /\
    exists v c, try_completing_model depth x "Target" values = Ok (v, c) /\ rest_ok v = true /\
      exists i, entry "id" v = Some i /\ lax_int i = Some (t_id t).
Proof.
  intros as_dict as_mcu lax_int str_mod other_mod mcu_ok rest_ok depth x values t H.
  destruct (accepted _ _ _ _ _ _ _ _ _ _ _ H) as (v & c & H1 & H2 & H3 & (i & H4) & _ & H5 & _).
  split; [exact H2|]. split; [exact H3|]. exists v, c. split; [exact H1|]. split; [exact H5|]. exists i. exact H4.
Qed.
Print Assumptions C126_accepted.

(** The number is the given one, otherwise the lower 16 bits of the id. *)
Theorem C126_number :
  forall as_dict as_mcu lax_int str_mod other_mod mcu_ok rest_ok depth x values t v c i,
    (forall z, lax_int (VInt z) = Some z) ->
    new_target as_dict as_mcu lax_int str_mod other_mod mcu_ok rest_ok depth x values = Ok t ->
    try_completing_model depth x "Target" values = Ok (v, c) -> entry "id" v = Some (VInt i) ->
    t_id t = i /\ (unnumbered v -> t_testbed_id t = i mod 65536) /\
    (forall k, entry "testbed_id" v = Some (VInt k) -> t_testbed_id t = k).
Proof. exact numbers. Qed.
Print Assumptions C126_number.

(** The controllers are the ones the fields stand for; only the second may be missing. *)
Theorem C126_controllers :
  forall as_dict as_mcu lax_int str_mod other_mod mcu_ok rest_ok depth x values t v c,
    new_target as_dict as_mcu lax_int str_mod other_mod mcu_ok rest_ok depth x values = Ok t ->
    try_completing_model depth x "Target" values = Ok (v, c) ->
    (exists u, entry "mcu1" v = Some u /\ stands_for as_dict as_mcu x depth mcu_ok u (t_mcu1 t)) /\
    (forall m, t_mcu2 t = Some m ->
       exists u, entry "mcu2" v = Some u /\ stands_for as_dict as_mcu x depth mcu_ok u m) /\
    (t_mcu2 t = None -> entry "mcu2" v = None \/ entry "mcu2" v = Some (VOther "None")).
Proof. exact controllers. Qed.
Print Assumptions C126_controllers.

(** Targets with small ids have different numbers, unless these are given. *)
Theorem C126_distinct :
  forall as_dict as_mcu lax_int str_mod other_mod mcu_ok rest_ok depth x values values' t t' v v' c c' i j,
    (forall z, lax_int (VInt z) = Some z) ->
    new_target as_dict as_mcu lax_int str_mod other_mod mcu_ok rest_ok depth x values = Ok t ->
    new_target as_dict as_mcu lax_int str_mod other_mod mcu_ok rest_ok depth x values' = Ok t' ->
    try_completing_model depth x "Target" values = Ok (v, c) -> entry "id" v = Some (VInt i) -> unnumbered v ->
    try_completing_model depth x "Target" values' = Ok (v', c') -> entry "id" v' = Some (VInt j) -> unnumbered v' ->
    i < 65536 -> j < 65536 -> i <> j -> t_testbed_id t <> t_testbed_id t'.
Proof.
  intros as_dict as_mcu lax_int str_mod other_mod mcu_ok rest_ok depth x values values' t t' v v' c c' i j HL A A' C I U C' I' U' Hi Hj Ne.
  destruct (numbers _ _ _ _ _ _ _ _ _ _ _ _ _ _ HL A C I) as (K1 & K2 & _).
  destruct (numbers _ _ _ _ _ _ _ _ _ _ _ _ _ _ HL A' C' I') as (K1' & K2' & _).
  destruct (accepted _ _ _ _ _ _ _ _ _ _ _ A) as (_ & _ & _ & B & _). destruct (accepted _ _ _ _ _ _ _ _ _ _ _ A') as (_ & _ & _ & B' & _).
  rewrite (K2 U), (K2' U'), !Z.mod_small by lia. exact Ne.
Qed.
Print Assumptions C126_distinct.

(** A controller that is not in the database is refused as such. *)
Theorem C126_unknown_controller :
  forall as_dict as_mcu lax_int str_mod other_mod mcu_ok rest_ok depth x ws f values v c s,
    insert_all [] ws = Ok x -> component x "MCU" = Ok f ->
    try_completing_model depth x "Target" values = Ok (v, c) -> entry "mcu1" v = Some (VStr s) ->
    Forall (fun w => ~ named "MCU" s w) ws ->
    new_target as_dict as_mcu lax_int str_mod other_mod mcu_ok rest_ok depth x values = Err ValueError.
Proof. exact mcu_unknown. Qed.
Print Assumptions C126_unknown_controller.

(** A new target without id is not refused with the ValidationError all other mistakes lead to:
    the number is derived before the fields are checked. *)
Theorem C126_no_id_refuted :
  forall as_dict as_mcu lax_int str_mod other_mod mcu_ok rest_ok depth x values v c m,
    try_completing_model depth x "Target" values = Ok (v, c) ->
    entry "id" v = None \/ entry "id" v = Some (VOther "None") ->
    unnumbered v -> entry "mcu1" v = Some (VStr m) -> entry "mcu2" v = None ->
    (exists mc, new_mcu mcu_ok depth x [("name", VStr m)] = Ok mc) ->
    new_target as_dict as_mcu lax_int str_mod other_mod mcu_ok rest_ok depth x values = Err TypeError.
Proof. exact no_id. Qed.
Print Assumptions C126_no_id_refuted.

(** An id given as text, which the field would accept, is formatted with the number: TypeError
    unless it has a place to put it. *)
Theorem C126_text_id_refuted :
  forall as_dict as_mcu lax_int str_mod other_mod mcu_ok rest_ok depth x values v c m s,
    try_completing_model depth x "Target" values = Ok (v, c) ->
    entry "id" v = Some (VStr s) -> str_mod s = Err TypeError -> unnumbered v ->
    entry "mcu1" v = Some (VStr m) -> entry "mcu2" v = None ->
    (exists mc, new_mcu mcu_ok depth x [("name", VStr m)] = Ok mc) ->
    new_target as_dict as_mcu lax_int str_mod other_mod mcu_ok rest_ok depth x values = Err TypeError.
Proof. exact text_id. Qed.
Print Assumptions C126_text_id_refuted.

(** A small testbed. *)
Definition board : list wrapper :=
  [ mkWrap "MCU" [("id", VInt 1001); ("name", VStr "nRF52"); ("platform", VStr "nRF52")];
    mkWrap "mcu" [("id", VInt 1002); ("name", VStr "nRF52840"); ("core", VStr "M4"); ("inherit_from", VStr "nrf52")];
    mkWrap "Target" [("id", VInt 6); ("name", VStr "node6"); ("mcu1", VStr "nrf52840")];
    mkWrap "Target" [("id", VInt 65542); ("name", VStr "node6b"); ("mcu1", VStr "nRF52")] ].
Definition plain_int (v : value) : option Z :=
  match v with VInt z => Some z | VStr "5" => Some 5 | _ => None end.
Definition board_target (x : fixtures) (values : dict) : res target :=
  new_target (fun r => if r =? "{name: nRF52}" then Some [("name", VStr "nRF52")] else None) (fun _ => None)
    plain_int (fun _ => Err TypeError) (fun _ => Err TypeError) (fun _ => true) (fun _ => true) 9 x values.

(** Two targets with different ids and the same number. *)
Theorem C126_collision_refuted :
  exists x t t', insert_all [] board = Ok x /\
    board_target x [("name", VStr "node6")] = Ok t /\ board_target x [("id", VInt 65542)] = Ok t' /\
    t_id t <> t_id t' /\ t_testbed_id t = t_testbed_id t'.
Proof. do 3 eexists. split; [reflexivity|]. split; [reflexivity|]. split; [reflexivity|]. split; [discriminate|reflexivity]. Qed.
Print Assumptions C126_collision_refuted.

Example C126_example :
  exists x, insert_all [] board = Ok x /\
    board_target x [("name", VStr "NODE6")] =
      Ok (mkTarget 6 6 [("id", VInt 1002); ("name", VStr "nRF52840"); ("platform", VStr "nRF52"); ("core", VStr "M4")] None) /\
    board_target x [("id", VInt 70000); ("name", VStr "new"); ("mcu1", VOther "{name: nRF52}")] =
      Ok (mkTarget 70000 4464 [("id", VInt 1001); ("name", VStr "nRF52"); ("platform", VStr "nRF52")] None) /\
    board_target x [("name", VStr "node6"); ("testbed_id", VInt 9); ("mcu2", VStr "nrf52")] =
      Ok (mkTarget 6 9 [("id", VInt 1002); ("name", VStr "nRF52840"); ("platform", VStr "nRF52"); ("core", VStr "M4")]
            (Some [("id", VInt 1001); ("name", VStr "nRF52"); ("platform", VStr "nRF52")])) /\
    board_target x [("name", VStr "node6"); ("mcu1", VStr "msp430")] = Err ValueError /\
    board_target x [("name", VStr "node6"); ("testbed_id", VInt 65536)] = Err ValueError /\
    board_target x [("name", VStr "new"); ("mcu1", VStr "nRF52")] = Err TypeError /\
    board_target x [("id", VStr "5"); ("name", VStr "new"); ("mcu1", VStr "nRF52")] = Err TypeError /\
    board_target x [("id", VStr "5"); ("testbed_id", VInt 5); ("name", VStr "new"); ("mcu1", VStr "nRF52")] =
      Ok (mkTarget 5 5 [("id", VInt 1001); ("name", VStr "nRF52"); ("platform", VStr "nRF52")] None).
Proof. eexists. split; [reflexivity|]. repeat split; reflexivity. Qed.

(** Whatever is wrong: a ValueError, unless the id is missing or no number, or the search in the database failed. *)
Theorem C126_refused :
  forall as_dict as_mcu lax_int str_mod other_mod mcu_ok rest_ok depth x values e,
    new_target as_dict as_mcu lax_int str_mod other_mod mcu_ok rest_ok depth x values = Err e ->
    e = ValueError \/ e = TypeError \/ (exists s, str_mod s = Err e) \/ (exists r, other_mod r = Err e) \/
    exists ty d, try_completing_model depth x ty d = Err e.
Proof. exact refused_kinds. Qed.
Print Assumptions C126_refused.
