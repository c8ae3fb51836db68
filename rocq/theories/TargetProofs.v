(** Proofs about targets. *)
From Coq Require Import String Ascii.
From Verif Require Import PyBase FixModel FixSpec FixProofs TargetModel TargetSpec.
Open Scope Z_scope.
Open Scope list_scope.

Section Proofs.
  Context (as_dict as_mcu : string -> option dict) (lax_int : value -> option Z).
  Context (str_mod other_mod : string -> res value) (mcu_ok rest_ok : dict -> bool).
  Context (depth : nat) (x : fixtures).
  Notation new_mcu := (new_mcu mcu_ok depth x).
  Notation new_target := (new_target as_dict as_mcu lax_int str_mod other_mod mcu_ok rest_ok depth x).

  Lemma find_complete ws ty s w anc :
    insert_all [] ws = Ok x -> Forall (fun w => python_dict (w_params w)) ws -> findable ws x ty s w anc depth ->
    exists r c, try_completing_model depth x ty [("name"%string, VStr s)] = Ok (r, c) /\ python_dict r /\ complete w anc r.
  Proof.
    intros HX HP (v & n & f & H1 & -> & H2 & H3 & H4 & H5 & H6 & H7).
    destruct (complete_by_name ws ty x s v n anc depth HX HP H1 H2 (ex_intro _ f (conj H3 H4)) H5 H6 H7) as (r & K1 & K2 & K3 & K4).
    exists r, (match anc with [] => [] | _ => VStr n :: map fst anc end). unfold complete. auto.
  Qed.

  Lemma mcu_found ws s w anc :
    insert_all [] ws = Ok x -> Forall (fun w => python_dict (w_params w)) ws -> findable ws x "MCU" s w anc depth ->
    (forall r, complete w anc r -> mcu_ok r = true) ->
    exists m, new_mcu [("name"%string, VStr s)] = Ok m /\ complete w anc m.
  Proof.
    intros HX HP HF HK. destruct (find_complete ws "MCU" s w anc HX HP HF) as (r & c & H1 & _ & H2).
    exists r. split; [|exact H2]. unfold TargetModel.new_mcu. rewrite H1. cbn [bind fst]. rewrite (HK r H2). reflexivity.
  Qed.

  Lemma from_database ws s w anc i m wm ancm :
    (forall z, lax_int (VInt z) = Some z) ->
    insert_all [] ws = Ok x -> Forall (fun w => python_dict (w_params w)) ws ->
    findable ws x "Target" s w anc depth ->
    nearest "id" (w :: map renamed anc) = Some (VInt i) -> 0 <= i < 2 ^ 128 ->
    nearest "testbed_id" (w :: map renamed anc) = None ->
    nearest "mcu1" (w :: map renamed anc) = Some (VStr m) -> nearest "mcu2" (w :: map renamed anc) = None ->
    findable ws x "MCU" m wm ancm depth -> (forall r, complete wm ancm r -> mcu_ok r = true) ->
    (forall r, complete w anc r -> rest_ok r = true) ->
    exists t, new_target [("name"%string, VStr s)] = Ok t /\ t_id t = i /\ t_testbed_id t = i mod 2 ^ 16 /\
      complete wm ancm (t_mcu1 t) /\ t_mcu2 t = None.
  Proof.
    intros HL HX HP HF Hi Hr Ht Hm1 Hm2 HFm Hmo Hro.
    destruct (find_complete ws "Target" s w anc HX HP HF) as (v & c & H1 & _ & H2). pose proof H2 as [_ HE].
    destruct (mcu_found ws m wm ancm HX HP HFm Hmo) as (mc & M1 & M2).
    exists (mkTarget i (i mod 2 ^ 16) mc None). split; [|cbn; auto].
    unfold TargetModel.new_target. rewrite H1. cbn [bind fst].
    rewrite !dget_entry. rewrite (HE "mcu1"%string), (HE "mcu2"%string), Hm1, Hm2 by discriminate. cbn [correct_mcu]. rewrite M1. cbn [bind].
    unfold testbed_id_of. rewrite !dget_entry. rewrite (HE "testbed_id"%string), (HE "id"%string), Ht, Hi by discriminate.
    cbn [id_mod bind int_field]. rewrite !HL. replace ((0 <=? i) && (i <? 2 ^ 128)) with true by lia. cbn [bind].
    pose proof (Z.mod_pos_bound i (2 ^ 16) eq_refl). replace ((0 <=? i mod 2 ^ 16) && (i mod 2 ^ 16 <? 2 ^ 16)) with true by lia.
    cbn [bind mcu1_field mcu2_field]. rewrite (Hro v H2). reflexivity.
  Qed.

  Lemma accepted values t : new_target values = Ok t ->
    exists v c, try_completing_model depth x "Target" values = Ok (v, c) /\
      0 <= t_id t < 2 ^ 128 /\ 0 <= t_testbed_id t < 2 ^ 16 /\
      (exists i, entry "id" v = Some i /\ lax_int i = Some (t_id t)) /\
      (exists tb, testbed_id_of str_mod other_mod v = Ok tb /\ lax_int tb = Some (t_testbed_id t)) /\ rest_ok v = true /\
      (exists f, correct_mcu as_dict as_mcu mcu_ok depth x (entry "mcu1" v) = Ok f /\ f = Controller (t_mcu1 t)).
  Proof.
    unfold TargetModel.new_target. destruct (try_completing_model depth x "Target" values) as [[v c]|e]; [|discriminate]. cbn [bind fst].
    rewrite !dget_entry.
    destruct (correct_mcu _ _ _ _ _ (entry "mcu1" v)) as [f1|] eqn:E1; [|discriminate]. cbn [bind].
    destruct (correct_mcu _ _ _ _ _ (entry "mcu2" v)) as [f2|] eqn:E2; [|discriminate]. cbn [bind].
    destruct (testbed_id_of str_mod other_mod v) as [tb|] eqn:E3; [|discriminate]. cbn [bind].
    unfold int_field. destruct (entry "id" v) as [i|] eqn:E4; [|discriminate].
    destruct (lax_int i) as [z|] eqn:E5; [|discriminate].
    destruct ((0 <=? z) && (z <? 2 ^ 128)) eqn:E6; [|discriminate]. cbn [bind].
    destruct (lax_int tb) as [y|] eqn:E7; [|discriminate].
    destruct ((0 <=? y) && (y <? 2 ^ 16)) eqn:E8; [|discriminate]. cbn [bind].
    destruct f1 as [|m1|]; try discriminate. cbn [mcu1_field bind].
    destruct (mcu2_field f2) as [m2|]; [|discriminate]. cbn [bind].
    destruct (rest_ok v) eqn:E9; [|discriminate]. intros H. injection H as <-. cbn [t_id t_testbed_id t_mcu1].
    exists v, c. split; [reflexivity|]. split; [lia|]. split; [lia|]. split; [exists i; auto|]. split; [exists tb; auto|].
    split; [exact E9|]. exists (Controller m1). auto.
  Qed.

  Lemma unnumbered_of v : unnumbered v -> testbed_id_of str_mod other_mod v = id_mod str_mod other_mod (entry "id" v).
  Proof. unfold testbed_id_of. rewrite !dget_entry. intros [-> | ->]; reflexivity. Qed.

  Lemma numbered_of v k : entry "testbed_id" v = Some (VInt k) -> testbed_id_of str_mod other_mod v = Ok (VInt k).
  Proof. unfold testbed_id_of. rewrite !dget_entry. intros ->. reflexivity. Qed.

  Lemma numbers values t v c i : (forall z, lax_int (VInt z) = Some z) -> new_target values = Ok t ->
    try_completing_model depth x "Target" values = Ok (v, c) -> entry "id" v = Some (VInt i) ->
    t_id t = i /\ (unnumbered v -> t_testbed_id t = i mod 2 ^ 16) /\ (forall k, entry "testbed_id" v = Some (VInt k) -> t_testbed_id t = k).
  Proof.
    intros HL HA HC HI. destruct (accepted values t HA) as (v' & c' & H1 & _ & _ & (i' & H2 & H3) & (tb & H4 & H5) & _).
    rewrite HC in H1. injection H1 as <- <-. rewrite HI in H2. injection H2 as <-. rewrite HL in H3. injection H3 as <-.
    split; [reflexivity|]. split.
    - intros U. rewrite (unnumbered_of v U), HI in H4. cbn [id_mod] in H4. injection H4 as <-. rewrite HL in H5. injection H5 as <-. reflexivity.
    - intros k K. rewrite (numbered_of v k K) in H4. injection H4 as <-. rewrite HL in H5. injection H5 as <-. reflexivity.
  Qed.

  Lemma mcu_unknown ws f values v c s : insert_all [] ws = Ok x -> component x "MCU" = Ok f ->
    try_completing_model depth x "Target" values = Ok (v, c) -> entry "mcu1" v = Some (VStr s) ->
    Forall (fun w => ~ named "MCU" s w) ws -> new_target values = Err ValueError.
  Proof.
    intros HX HF HC HM HN. unfold TargetModel.new_target. rewrite HC. cbn [bind fst]. rewrite !dget_entry, HM. cbn [correct_mcu].
    assert (K : new_mcu [("name"%string, VStr s)] = Err ValueError); [|rewrite K; reflexivity].
    unfold TargetModel.new_mcu, try_completing_model. cbn [String.eqb Ascii.eqb Bool.eqb orb].
    assert (Q : query_item x "MCU" (dget "id" [("name"%string, VStr s)]) (dget "name" [("name"%string, VStr s)]) = Err ValueError).
    { destruct (query_name_answers ws "MCU" f s) as [[w [H _]] | [_ H]]; [exists x; auto| |].
      - destruct H as (l1 & l2 & -> & H & _). exfalso. apply (proj1 (Forall_forall _ _) HN w); [apply in_or_app; right; left; reflexivity|exact H].
      - unfold query_item. cbn [dget get String.eqb Ascii.eqb Bool.eqb]. rewrite HF. cbn. exact H. }
    rewrite Q. reflexivity.
  Qed.

  (** Everything else is in order, but no id. *)
  Lemma no_id values v c m : try_completing_model depth x "Target" values = Ok (v, c) ->
    entry "id" v = None \/ entry "id" v = Some (VOther "None") ->
    unnumbered v -> entry "mcu1" v = Some (VStr m) -> entry "mcu2" v = None ->
    (exists mc, new_mcu [("name"%string, VStr m)] = Ok mc) -> new_target values = Err TypeError.
  Proof.
    intros HC HI HU H1 H2 [mc HM]. unfold TargetModel.new_target. rewrite HC. cbn [bind fst]. rewrite !dget_entry, H1, H2. cbn [correct_mcu].
    rewrite HM. cbn [bind]. rewrite (unnumbered_of v HU). destruct HI as [-> | ->]; reflexivity.
  Qed.

  Lemma text_id values v c m s : try_completing_model depth x "Target" values = Ok (v, c) ->
    entry "id" v = Some (VStr s) -> str_mod s = Err TypeError -> unnumbered v -> entry "mcu1" v = Some (VStr m) -> entry "mcu2" v = None ->
    (exists mc, new_mcu [("name"%string, VStr m)] = Ok mc) -> new_target values = Err TypeError.
  Proof.
    intros HC HI HS HU H1 H2 [mc HM]. unfold TargetModel.new_target. rewrite HC. cbn [bind fst]. rewrite !dget_entry, H1, H2. cbn [correct_mcu].
    rewrite HM. cbn [bind]. rewrite (unnumbered_of v HU), HI. cbn [id_mod]. rewrite HS. reflexivity.
  Qed.

  Lemma correct_stands v m : correct_mcu as_dict as_mcu mcu_ok depth x v = Ok (Controller m) ->
    exists u, v = Some u /\ stands_for as_dict as_mcu x depth mcu_ok u m.
  Proof.
    assert (N : forall d m', (let* m0 := new_mcu d in Ok (Controller m0)) = Ok (Controller m') -> made x depth mcu_ok d m').
    { intros d m'. unfold TargetModel.new_mcu. destruct (try_completing_model depth x "MCU" d) as [[r c]|] eqn:E; [|discriminate]. cbn [bind fst].
      destruct (mcu_ok r) eqn:K; [|discriminate]. cbn [bind]. intros H. injection H as <-. split; [exact K|]. exists c. exact E. }
    unfold correct_mcu. destruct v as [[s|z|r]|]; try discriminate.
    - intros H. exists (VStr s). split; [reflexivity|]. left. exists s. split; [reflexivity|]. apply N. exact H.
    - destruct (as_dict r) as [d|] eqn:E.
      + intros H. exists (VOther r). split; [reflexivity|]. right. left. exists r, d. split; [reflexivity|]. split; [exact E|]. apply N. exact H.
      + destruct (as_mcu r) as [mc|] eqn:E2; [|discriminate]. intros H. injection H as <-. exists (VOther r). split; [reflexivity|]. right. right.
        exists r. auto.
  Qed.

  Lemma controllers values t v c : new_target values = Ok t -> try_completing_model depth x "Target" values = Ok (v, c) ->
    (exists u, entry "mcu1" v = Some u /\ stands_for as_dict as_mcu x depth mcu_ok u (t_mcu1 t)) /\
    (forall m, t_mcu2 t = Some m -> exists u, entry "mcu2" v = Some u /\ stands_for as_dict as_mcu x depth mcu_ok u m) /\
    (t_mcu2 t = None -> entry "mcu2" v = None \/ entry "mcu2" v = Some (VOther "None")).
  Proof.
    intros H HC. unfold TargetModel.new_target in H. rewrite HC in H. cbn [bind fst] in H. rewrite !dget_entry in H.
    destruct (correct_mcu _ _ _ _ _ (entry "mcu1" v)) as [f1|] eqn:E1; [|discriminate]. cbn [bind] in H.
    destruct (correct_mcu _ _ _ _ _ (entry "mcu2" v)) as [f2|] eqn:E2; [|discriminate]. cbn [bind] in H.
    destruct (testbed_id_of _ _ v) as [tb|]; [|discriminate]. cbn [bind] in H.
    destruct (int_field _ (entry "id" v) _) as [z|]; [|discriminate]. cbn [bind] in H.
    destruct (int_field _ (Some tb) _) as [y|]; [|discriminate]. cbn [bind] in H.
    destruct f1 as [|m1|]; try discriminate. cbn [mcu1_field bind] in H.
    destruct (mcu2_field f2) as [m2|] eqn:E3; [|discriminate]. cbn [bind] in H. destruct (rest_ok v); [|discriminate]. injection H as <-. cbn [t_mcu1 t_mcu2].
    split; [apply correct_stands; exact E1|]. split.
    - intros m ->. destruct f2 as [|m2|u]; cbn [mcu2_field] in E3; [discriminate| |destruct (value_eqb u none_); discriminate].
      injection E3 as ->. apply correct_stands. exact E2.
    - intros ->. destruct f2 as [|m2|u]; cbn [mcu2_field] in E3; [|discriminate|].
      + destruct (entry "mcu2" v) as [[s|w|r]|]; cbn in E2; [destruct (new_mcu _); discriminate|discriminate| |left; reflexivity].
        destruct (as_dict r); [destruct (new_mcu _); discriminate|]. destruct (as_mcu r); discriminate.
      + destruct (value_eqb u none_) eqn:EU; [|discriminate]. right. unfold none_ in EU.
        destruct (entry "mcu2" v) as [[s|w|r]|]; cbn in E2; [destruct (new_mcu _); discriminate| | |discriminate].
        * injection E2 as <-. discriminate.
        * destruct (as_dict r); [destruct (new_mcu _); discriminate|]. destruct (as_mcu r); [discriminate|]. injection E2 as <-.
          cbn [value_eqb] in EU. apply String.eqb_eq in EU. subst r. reflexivity.
  Qed.
End Proofs.

(** Kinds of errors. *)
Lemma refused_kinds as_dict as_mcu lax_int str_mod other_mod mcu_ok rest_ok depth x values e :
  new_target as_dict as_mcu lax_int str_mod other_mod mcu_ok rest_ok depth x values = Err e ->
  e = ValueError \/ e = TypeError \/ (exists s, str_mod s = Err e) \/ (exists r, other_mod r = Err e) \/
  exists ty d, try_completing_model depth x ty d = Err e.
Proof.
  assert (M : forall d e, TargetModel.new_mcu mcu_ok depth x d = Err e ->
                e = ValueError \/ exists ty d, try_completing_model depth x ty d = Err e).
  { intros d e0. unfold TargetModel.new_mcu. destruct (try_completing_model depth x "MCU" d) as [vc|e1] eqn:E; cbn [bind].
    - destruct (mcu_ok _); [discriminate|]. intros H. injection H as <-. now left.
    - intros H. injection H as <-. right. eauto. }
  assert (C : forall v e, correct_mcu as_dict as_mcu mcu_ok depth x v = Err e ->
                e = ValueError \/ exists ty d, try_completing_model depth x ty d = Err e).
  { intros v e0. destruct v as [[s|z|r]|]; cbn [correct_mcu]; try discriminate.
    - destruct (TargetModel.new_mcu _ _ _ _) eqn:E; cbn [bind]; [discriminate|]. intros H. injection H as <-. eauto.
    - destruct (as_dict r); [|destruct (as_mcu r); discriminate].
      destruct (TargetModel.new_mcu _ _ _ _) eqn:E; cbn [bind]; [discriminate|]. intros H. injection H as <-. eauto. }
  assert (I : forall v l e, int_field lax_int v l = Err e -> e = ValueError).
  { intros v l e0. unfold int_field. destruct v as [v|]; [|congruence]. destruct (lax_int v); [|congruence].
    destruct (_ && _); congruence. }
  assert (D : forall v e, id_mod str_mod other_mod v = Err e ->
                e = TypeError \/ (exists s, str_mod s = Err e) \/ (exists r, other_mod r = Err e)).
  { intros v e0. destruct v as [[s|z|r]|]; cbn [id_mod]; try discriminate; intros H; eauto.
    - destruct (value_eqb _ _); [injection H as <-; now left|eauto].
    - injection H as <-. now left. }
  unfold new_target. destruct (try_completing_model depth x "Target" values) as [vc|e1] eqn:E; cbn [bind].
  2:{ intros H. injection H as <-. right. right. right. right. eauto. }
  destruct (correct_mcu _ _ _ _ _ (dget "mcu1" _)) as [m1|e1] eqn:E1; cbn [bind].
  2:{ intros H. injection H as <-. apply C in E1. tauto. }
  destruct (correct_mcu _ _ _ _ _ (dget "mcu2" _)) as [m2|e1] eqn:E2; cbn [bind].
  2:{ intros H. injection H as <-. apply C in E2. tauto. }
  destruct (testbed_id_of _ _ _) as [tb|e1] eqn:E3; cbn [bind].
  2:{ intros H. injection H as <-. unfold testbed_id_of in E3.
      destruct (dget "testbed_id" _) as [t|]; [destruct (value_eqb t none_); [|discriminate]|]; apply D in E3; tauto. }
  destruct (int_field _ (dget "id" _) _) as [i|e1] eqn:E4; cbn [bind].
  2:{ intros H. injection H as <-. apply I in E4. tauto. }
  destruct (int_field _ (Some tb) _) as [t|e1] eqn:E5; cbn [bind].
  2:{ intros H. injection H as <-. apply I in E5. tauto. }
  destruct (mcu1_field m1) as [n1|e1] eqn:E6; cbn [bind].
  2:{ intros H. injection H as <-. left. destruct m1; cbn in E6; congruence. }
  destruct (mcu2_field m2) as [n2|e1] eqn:E7; cbn [bind].
  2:{ intros H. injection H as <-. left. destruct m2; cbn [mcu2_field] in E7; try congruence. destruct (value_eqb _ _); congruence. }
  destruct (rest_ok _); [discriminate|]. intros H. injection H as <-. now left.
Qed.
