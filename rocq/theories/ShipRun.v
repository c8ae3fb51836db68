(** The shipped and own sources run. *)
From Coq Require Import String ZArith Bool List Reals Lia Lra.
From Verif Require Import PyBase F64 F64x HarvModel HarvSpec CalModel CalSpec CalDefProofs ConvModel ConvSpec ConvProofs CfgModel CfgSpec CfgSrcProofs
  TgtModel TgtSpec SimModel SimSpec SimProofs SimLoopProofs SimTgtProofs FixModel FixSpec FixProofs ShipData ShipModel ShipSpec ShipProofs ShipOwn.
Import ListNotations.
Open Scope Z_scope.
Open Scope list_scope.

(** A source that was checked and has a usable table runs. *)
Lemma runs m p v t dtype window step cv ci xs : pow_ok p -> check_vsrc v = Ok v -> Forall usable_efficiency (vs_LUT_out v) ->
  recording dtype window step -> usual_target m t -> moderate_pair cv -> moderate_pair ci -> Forall (fun x => u32 (fst x) /\ u32 (snd x)) xs ->
  exists st l, simulate_source m p v t dtype window step cv ci xs = Ok (st, l) /\ List.length l = List.length xs /\
    Forall (fun y => 0 <= fst y <= 5000000 /\ proper (snd y)) l.
Proof.
  intros P C U R T CV CI X. destruct (emulates v v C) as [E H]. destruct R as (R1 & R2 & R3).
  destruct (simulation m p v v (vs_harvester v) t dtype window step cv ci xs P C U H) as (st & l & cal & S & _ & L & F); try assumption.
  - split; [|split; [discriminate|split; assumption]]. intros _. split; [exact E|].
    destruct R1 as [->|(-> & A & B)]; [left; reflexivity|right; auto].
  - exists st, l. split; [exact S|]. split; [exact L|]. revert F. apply Forall_impl. intros y (A & B & _). auto.
Qed.

Lemma of_shipped x : shipped = Ok x <-> x = db.
Proof. rewrite shipped_db. split; [intros H; apply (f_equal (fun r => match r with Ok y => y | Err _ => [] end)) in H; symmetry; exact H|intros ->; reflexivity]. Qed.

Lemma by_number depth w i n : entry "id" (w_params w) = Some (VInt i) -> entry "name" (w_params w) = Some (VStr n) -> i <> 2102 ->
  (In w harvesters -> make_harvester depth db (by_id i) = make_harvester depth db (by_name n)) /\
  (In w sources -> make_source depth db (by_id i) = make_source depth db (by_name n)).
Proof.
  intros A B C. split; intros I.
  - exact (proj1 (ids_find depth w i n (or_introl I) A B C) I).
  - exact (proj2 (ids_find depth w i n (or_intror I) A B C) I).
Qed.

Lemma query_2102 : query_item db "VirtualHarvesterConfig" (Some (VInt 2102)) None = query_item db "VirtualHarvesterConfig" None (Some (VStr "cv10")).
Proof. match goal with |- _ = ?r => vm_cast_no_check (eq_refl r) end. Qed.
Lemma find_param i n l : existsb (fun w => match entry "id" (w_params w), entry "name" (w_params w) with
    Some (VInt j), Some (VStr m) => (i =? j) && String.eqb n m | _, _ => false end) l = true ->
  exists w, In w l /\ entry "id" (w_params w) = Some (VInt i) /\ entry "name" (w_params w) = Some (VStr n).
Proof.
  intros H. apply existsb_exists in H as (w & I & H). exists w. split; [exact I|].
  destruct (entry "id" (w_params w)) as [[?|j|?]|]; try discriminate. destruct (entry "name" (w_params w)) as [[m|?|?]|]; try discriminate.
  apply andb_prop in H as [H1 H2]. apply Z.eqb_eq in H1. apply String.eqb_eq in H2. subst. auto.
Qed.
Lemma twice : exists x w1 w2, shipped = Ok x /\ In w1 harvesters /\ In w2 harvesters /\
  entry "id" (w_params w1) = Some (VInt 2102) /\ entry "name" (w_params w1) = Some (VStr "cv33") /\
  entry "id" (w_params w2) = Some (VInt 2102) /\ entry "name" (w_params w2) = Some (VStr "cv10") /\
  forall k v, make_harvester (10 + k) x (by_id 2102) = Ok v -> fR (vh_voltage v) = 1000%R.
Proof.
  destruct (find_param 2102 "cv33" harvesters ltac:(vm_compute; reflexivity)) as (w1 & I1 & A1 & B1).
  destruct (find_param 2102 "cv10" harvesters ltac:(vm_compute; reflexivity)) as (w2 & I2 & A2 & B2).
  exists db, w1, w2. split; [exact shipped_db|]. do 6 (split; [assumption|]). intros k v H.
  apply (cv_named k "cv10" 1000 v); [left; reflexivity|]. rewrite <- H. unfold make_harvester.
  now rewrite (complete_id (10 + k) db "VirtualHarvesterConfig" 2102 "cv10" query_2102).
Qed.

Lemma all_run k base a values v m p t dtype window step cv ci xs : In (base, a) source_names ->
  values = by_name base \/ own_source base values -> make_source (11 + k) db values = Ok v ->
  pow_ok p -> recording dtype window step -> usual_target m t -> moderate_pair cv -> moderate_pair ci ->
  Forall (fun y => u32 (fst y) /\ u32 (snd y)) xs ->
  exists st l, simulate_source m p v t dtype window step cv ci xs = Ok (st, l) /\ List.length l = List.length xs /\
    Forall (fun y => 0 <= fst y <= 5000000 /\ proper (snd y)) l.
Proof.
  intros I V M P R T CV CI X. destruct a as [[a b] g]. 
  destruct (sources_made (S k) base base a b g I (proj2 (FixProofs.same_iff base base) eq_refl)) as (s & E & C & U & _).
  replace (10 + S k)%nat with (11 + k)%nat in E by lia.
  destruct V as [->|O].
  - assert (s = v) by congruence. subst s. exact (runs m p v t dtype window step cv ci xs P C U R T CV CI X).
  - destruct (own k base (a, b, g) values s I O E) as (w & W & CW & (_ & _ & _ & _ & _ & L)). assert (w = v) by congruence. subst w.
    rewrite <- L in U. exact (runs m p v t dtype window step cv ci xs P CW U R T CV CI X).
Qed.

Lemma refused k : make_harvester (10 + k) db (by_name "neutral") = Err ValueError.
Proof. match goal with |- _ = ?r => vm_cast_no_check (eq_refl r) end. Qed.
Lemma neutral_refused k s : same_text s "neutral" -> make_harvester (10 + k) db (by_name s) = Err ValueError.
Proof. intros S. rewrite (harvester_spelling _ _ _ _ S). apply refused. Qed.
