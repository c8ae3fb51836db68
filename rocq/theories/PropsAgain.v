(** Completing what is complete (C125). Vocabulary: FixSpec.v; code: FixModel.v. *)
From Coq Require Import String Ascii Relations.
From Verif Require Import PyBase FixModel FixSpec FixProofs AgainProofs.
Open Scope list_scope.
Open Scope string_scope.

(** * C125 Completing what is complete changes nothing *)

(** A model asked for by its name is complete: completing it again returns the same values. *)
Theorem C125_by_name :
  forall ws ty x s w n anc depth,
    insert_all [] ws = Ok x -> Forall (fun w => python_dict (w_params w)) ws ->
    last_with (named ty s) ws w -> entry "name" (w_params w) = Some (VStr n) ->
    (exists f, component x ty = Ok f /\ ancestry f (entry "inherit_from" (w_params w)) anc) ->
    last_by_name anc -> entry "inherit_from" (w_params w) <> Some (VStr n) ->
    (List.length anc + 1 < depth)%nat ->
    exists r c r' c',
      try_completing_model depth x ty [("name", VStr s)] = Ok (r, c) /\
      try_completing_model depth x ty r = Ok (r', c') /\
      forall key, entry key r' = entry key r.
Proof. exact name_again. Qed.
Print Assumptions C125_by_name.

(** The same for values that change some entries of a known element ... *)
Theorem C125_overrides :
  forall ws ty f values n d anc depth,
    filled ws ty f -> Forall (fun w => python_dict (w_params w)) ws ->
    python_dict values -> entry "inherit_from" values = None ->
    entry "name" values = Some (VStr n) -> query_name f (VStr n) = Ok d ->
    ancestry f (entry "inherit_from" d) anc -> last_by_name anc ->
    (List.length anc + 1 < depth)%nat ->
    exists r c r' c',
      inheritance depth f values [] = Ok (r, c) /\
      inheritance depth f r [] = Ok (r', c') /\
      forall key, entry key r' = entry key r.
Proof. intros ws ty f values n d anc depth HF HP. apply known_again. exact (filled_well _ _ _ HF HP). Qed.
Print Assumptions C125_overrides.

(** ... and in general when the element the result stands for took part in making it. *)
Theorem C125_unchanged :
  forall ws ty f values own anc r own' depth,
    filled ws ty f -> Forall (fun w => python_dict (w_params w)) ws ->
    python_dict values -> own_element f values own ->
    ancestry f (nearest "inherit_from" (values :: own)) anc -> last_by_name anc ->
    (forall k, entry "inherit_from" values = Some k -> entry "name" values <> Some k) ->
    (List.length anc + 1 < depth)%nat ->
    (exists c, inheritance depth f values [] = Ok (r, c)) ->
    own_element f r own' -> (forall d, In d own' -> In d (values :: own ++ map snd anc)) ->
    exists r' c, inheritance depth f r [] = Ok (r', c) /\ forall key, entry key r' = entry key r.
Proof.
  intros ws ty f values own anc r own' depth HF HP HV HO HA HL HS HD [c HR] HO' HC.
  pose proof (filled_well _ _ _ HF HP) as W.
  destruct (resolve f values own anc depth W HV HO HA HL HS HD) as (r0 & H1 & H2 & H3 & H4).
  rewrite HR in H1. injection H1 as -> _.
  destruct (resolve_again f values own anc own' r0 depth W HO HA HL H2 H3 H4 HO' HC HD) as (r' & c' & G1 & _ & G2).
  exists r', c'. auto.
Qed.
Print Assumptions C125_unchanged.

(** A new element derived from one of the database, but with the name of another element of it,
    takes entries of that other element when completed again. *)
Theorem C125_other_name_refuted :
  exists ws ty x values r c r' c',
    insert_all [] ws = Ok x /\ Forall (fun w => python_dict (w_params w)) ws /\ python_dict values /\
    try_completing_model 9 x ty values = Ok (r, c) /\
    try_completing_model 9 x ty r = Ok (r', c') /\
    entry "late" r = None /\ entry "late" r' = Some (VInt 3).
Proof.
  exists [mkWrap "Cape" [("id", VInt 1); ("name", VStr "base"); ("size", VInt 2)];
          mkWrap "Cape" [("id", VInt 2); ("name", VStr "other"); ("late", VInt 3)]], "Cape".
  eexists. exists [("name", VStr "other"); ("inherit_from", VStr "base")]. do 4 eexists.
  split; [reflexivity|]. split; [repeat constructor; cbn; intuition discriminate|].
  split; [repeat constructor; cbn; intuition discriminate|].
  split; [reflexivity|]. split; [reflexivity|]. split; reflexivity.
Qed.
Print Assumptions C125_other_name_refuted.

(** Asked for by id, a derived element whose name was used again does the same. *)
Theorem C125_by_id_refuted :
  exists ws ty x r c r' c',
    insert_all [] ws = Ok x /\ Forall (fun w => python_dict (w_params w)) ws /\
    try_completing_model 9 x ty [("id", VInt 2)] = Ok (r, c) /\
    try_completing_model 9 x ty r = Ok (r', c') /\
    entry "id" r' = entry "id" r /\ entry "late" r = None /\ entry "late" r' = Some (VInt 3).
Proof.
  exists [mkWrap "Cape" [("id", VInt 1); ("name", VStr "base"); ("size", VInt 2)];
          mkWrap "Cape" [("id", VInt 2); ("name", VStr "used"); ("inherit_from", VStr "base")];
          mkWrap "Cape" [("id", VInt 3); ("name", VStr "Used"); ("late", VInt 3)]], "Cape".
  do 5 eexists.
  split; [reflexivity|]. split; [repeat constructor; cbn; intuition discriminate|].
  split; [reflexivity|]. split; [reflexivity|]. repeat split; reflexivity.
Qed.
Print Assumptions C125_by_id_refuted.

Definition chain_demo : list wrapper :=
  [ mkWrap "VirtualSourceConfig" [("id", VInt 10); ("name", VStr "neutral"); ("c_uF", VInt 0)];
    mkWrap "virtualsourceconfig" [("id", VInt 11); ("name", VStr "Direct");
                                  ("inherit_from", VStr "Neutral"); ("v_mV", VInt 3)];
    mkWrap "VirtualSourceConfig" [("id", VInt 12); ("name", VStr "BQ"); ("c_uF", VInt 7);
                                  ("inherit_from", VStr "11")] ].

(** The second run finds the ancestors of "BQ" again, through the element of that name. *)
Example C125_example :
  exists x r c c', insert_all [] chain_demo = Ok x /\
    try_completing_model 9 x "virtualSourceConfig" [("name", VStr "bq")] = Ok (r, c) /\
    try_completing_model 9 x "virtualSourceConfig" r = Ok (r, c') /\
    r = [("id", VInt 12); ("name", VStr "BQ"); ("c_uF", VInt 7); ("v_mV", VInt 3)] /\
    c = [VStr "BQ"; VStr "11"; VStr "Neutral"] /\ c' = c.
Proof. do 4 eexists. split; [reflexivity|]. repeat split; reflexivity. Qed.
