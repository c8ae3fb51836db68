(** Properties of the fixtures as objects: C104.  Vocabulary: HeapSpec.v; code: HeapModel.v. *)
From Coq Require Import String Ascii Lia.
From Verif Require Import PyBase FixModel HeapModel HeapSpec HeapProofs.
From Coq Require Import List.
Import ListNotations.

(** ** C104: using fixtures does not change them *)

(** Completing a model changes no dictionary that existed before, neither those of the fixtures
    nor the one that was passed.  The result is a new one ... *)
Theorem C104_complete depth f h values : valid h f -> values < length h ->
  let r := htry_completing_model depth f h values in
  (forall a, a < length h -> load (fst r) a = load h a) /\ length h <= length (fst r) /\
  (forall a c, snd r = Ok (a, c) -> length h <= a < length (fst r)).
Proof.
  intros V Hv r. destruct (completes_alone depth f h values V Hv) as [[P1 P2] P3]. auto.
Qed.
Print Assumptions C104_complete.

(** ... with the contents that the model with dictionaries as values has (C43, C44). *)
Theorem C104_refines depth f x t h values : valid h f -> values < length h ->
  component x t = Ok (contents h f) ->
  outcome (htry_completing_model depth f h values) = try_completing_model depth x t (load h values).
Proof. intros V Hv C. exact (proj1 (proj2 (completes depth f x t h values V Hv C))). Qed.
Print Assumptions C104_refines.

(** Whatever data models do with what they got, fixtures stay as they are. *)
Theorem C104_programs f h h' own : valid h f -> steps f (h, []) (h', own) -> contents h' f = contents h f.
Proof. intros V H. exact (steps_keep f h (h, []) (h', own) V eq_refl eq_refl H). Qed.
Print Assumptions C104_programs.

(** Insertion stores the given dictionary itself, and nothing else. *)
Theorem C104_insert h f t a f' : valid h f -> a < length h -> hinsert h f t a = Ok f' ->
  valid h f' /\ insert (contents h f) (mkWrap t (load h a)) = Ok (contents h f') /\
  (forall b, stored f' b -> b = a \/ stored f b).
Proof.
  intros V Ha H. split; [exact (insert_valid h f t a f' V Ha H)|]. split; [now rewrite insert_contents, H|].
  exact (insert_stored h f t a f' H).
Qed.
Print Assumptions C104_insert.

(** What a query hands out is the stored dictionary: a change to it is a change of the fixtures.
    (Not done in the library itself.) *)
Theorem C104_query_refuted : exists f h uid a g, valid h f /\ hquery_item f (Some uid) None = Ok a /\
  contents (update h a g) f <> contents h f.
Proof.
  exists (mkHFix "mcu" [("a", 0)]%string [(VInt 1, 0)]), [[("id", VInt 1); ("name", VStr "a")]%string],
    (VInt 1), 0, (dput "name" (VStr "b")).
  split; [|split; [reflexivity|discriminate]]. intros b [[<-|[]]|[<-|[]]]; cbn; lia.
Qed.
Print Assumptions C104_query_refuted.

(** Likewise for the dictionary that was inserted. *)
Theorem C104_inserted_refuted : exists h a f g,
  hinsert h (new_hfixture "mcu") "MCU" a = Ok f /\ contents (update h a g) f <> contents h f.
Proof.
  exists [[("id", VInt 1); ("name", VStr "a")]%string], 0. eexists. exists (dput "core" (VStr "b")).
  split; [reflexivity|discriminate].
Qed.
Print Assumptions C104_inserted_refuted.

(** Two elements, the second inherits from the first. *)
Definition two : heap :=
  [[("id", VInt 1); ("name", VStr "A"); ("volt", VInt 5)];
   [("id", VInt 2); ("name", VStr "B"); ("inherit_from", VStr "A"); ("amp", VInt 7)];
   [("name", VStr "b")]]%string.
Definition two_fixture : hfixture := mkHFix "src" [("a", 0); ("b", 1)]%string [(VInt 1, 0); (VInt 2, 1)].

Example C104_example_inserted :
  (let* f := hinsert two (new_hfixture "Src") "SRC" 0 in hinsert two f "src" 1) = Ok two_fixture.
Proof. reflexivity. Qed.
Example C104_example_complete :
  let r := htry_completing_model 9 two_fixture two 2 in
  firstn 3 (fst r) = two /\
  outcome r = Ok ([("id", VInt 2); ("name", VStr "B"); ("volt", VInt 5); ("amp", VInt 7)]%string,
                  [VStr "B"; VStr "A"]%string).
Proof. split; reflexivity. Qed.
Example C104_example_program : exists h own, steps two_fixture (two, []) (h, own) /\
  own <> [] /\ h <> two /\ valid two two_fixture /\ contents h two_fixture = contents two two_fixture.
Proof.
  eexists. eexists. split; [|split; [|split; [|split]]].
  - eapply more; [eapply (s_complete _ _ _ 9 2); [reflexivity|cbn; lia]|].
    eapply more; [apply s_user; left; reflexivity|]. apply done.
  - discriminate.
  - discriminate.
  - intros a H. unfold stored in H. cbn in H. cbn. lia.
  - reflexivity.
Qed.
