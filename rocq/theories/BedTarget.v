(** Own targets. *)
From Coq Require Import String Ascii ZArith QArith Bool List Lia.
From Verif Require Import PyBase FixModel FixSpec FixProofs TbModel TbSpec TbProofs ShipModel BedData BedModel BedSpec BedProofs BedLimits.
From Verif Require StoModel ProgSpec ShipPlain.
Import ListNotations.
Open Scope Z_scope.
Open Scope list_scope.

Lemma target_file : exists f, component db "Target" = Ok f /\
  forallb (fun p => existsb (fun w => match entry_id w with Some v => value_eqb v (fst p) | None => false end) BedData.targets) (x_ids f) = true /\
  forallb (fun p => existsb (fun w => match entry_name w with Some (VStr m) => String.eqb (fst p) (lower m) | _ => false end) BedData.targets) (x_names f) = true.
Proof. eexists. split; [vm_compute; reflexivity|]. split; vm_compute; reflexivity. Qed.
Lemma target_stays depth values i n : own_target values i n -> try_completing_model (S depth) db "Target" values = Ok (values, []).
Proof.
  intros (I & D & N & W). unfold try_completing_model. destruct target_file as [f (C & KI & KN)].
  assert (Q : match values with [(k0, _)] => String.eqb k0 "id" || String.eqb k0 "name" | _ => false end = false).
  { destruct values as [|[k v] [|]]; [reflexivity| |reflexivity]. unfold entry in D, N. cbn [find fst] in D, N.
    destruct (String.eqb k "id") eqn:A; [apply String.eqb_eq in A; subst k; discriminate N|discriminate D]. }
  rewrite Q. cbn [bind]. rewrite C. cbn [bind inheritance]. rewrite dget_entry, I. unfold self_base. rewrite !dget_entry, D, N.
  destruct (FixModel.get String.eqb (lower n) (x_names f)) as [d|] eqn:G.
  - exfalso. apply ShipPlain.get_key in G as [p [P E]]. rewrite forallb_forall in KN. specialize (KN p P). apply existsb_exists in KN as [w [M E']].
    destruct (W w M) as [_ NN]. destruct (entry_name w) as [[m|?|?]|]; try discriminate E'. apply String.eqb_eq in E'. apply (NN m eq_refl). apply same_lower. congruence.
  - cbn [bind]. destruct (FixModel.get value_eqb (VInt i) (x_ids f)) as [d|] eqn:G'; [|reflexivity].
    exfalso. apply get_id in G' as [p [P E]]. rewrite forallb_forall in KI. specialize (KI p P). apply existsb_exists in KI as [w [M E']].
    destruct (W w M) as [NI _]. destruct (entry_id w) as [v|]; [|discriminate E']. apply value_eqb_spec in E, E'. apply NI. congruence.
Qed.

(** * Controllers of the database *)

Lemma known_controllers k : make_mcu (10 + k) db [("name"%string, VStr "nRF52")] = Ok nrf /\ make_mcu (10 + k) db [("name"%string, VStr "MSP430FR")] = Ok msp.
Proof. split; vm_compute; reflexivity. Qed.
Lemma named_spelling depth x n m : lower n = lower m -> make_mcu depth x [("name"%string, VStr n)] = make_mcu depth x [("name"%string, VStr m)].
Proof.
  intros H. unfold make_mcu, try_completing_model. cbn [String.eqb Ascii.eqb Bool.eqb orb].
  assert (E : query_item x "MCU" (dget "id" [("name"%string, VStr n)]) (dget "name" [("name"%string, VStr n)]) =
              query_item x "MCU" (dget "id" [("name"%string, VStr m)]) (dget "name" [("name"%string, VStr m)])).
  { unfold query_item. cbn [dget FixModel.get String.eqb Ascii.eqb Bool.eqb value_eqb none_ negb]. destruct (component x "MCU"); [|reflexivity]. cbn [bind query_name]. now rewrite H. }
  rewrite E. reflexivity.
Qed.
Lemma unnamed depth n : ~ same_text n "nRF52" -> ~ same_text n "MSP430FR" -> make_mcu depth db [("name"%string, VStr n)] = Err ValueError.
Proof.
  intros N1 N2. unfold make_mcu, try_completing_model. cbn [String.eqb Ascii.eqb Bool.eqb orb]. destruct mcu_file as [f (C & _ & KN)].
  unfold query_item. cbn [dget FixModel.get String.eqb Ascii.eqb Bool.eqb value_eqb none_ negb]. rewrite C. cbn [bind query_name].
  destruct (FixModel.get String.eqb (lower n) (x_names f)) as [d|] eqn:G; [|reflexivity].
  exfalso. apply ShipPlain.get_key in G as [p [P E]]. rewrite forallb_forall in KN. specialize (KN p P). apply existsb_exists in KN as [m [M E']].
  apply String.eqb_eq in E'. assert (S : same_text n m) by (apply same_lower; congruence). destruct M as [<-|[<-|[]]]; contradiction.
Qed.
Lemma by_name k n m : make_mcu (10 + k) db [("name"%string, VStr n)] = Ok m <-> same_text n "nRF52" /\ m = nrf \/ same_text n "MSP430FR" /\ m = msp.
Proof.
  destruct (known_controllers k) as [K1 K2]. rewrite !same_iff.
  destruct (string_dec (lower n) (lower "nRF52")) as [E|E]; [|destruct (string_dec (lower n) (lower "MSP430FR")) as [E'|E']].
  - rewrite (named_spelling _ _ n "nRF52" E), K1. split; [intros H; injection H as <-; auto|]. intros [[_ ->]|[X _]]; [reflexivity|]. rewrite E in X. discriminate X.
  - rewrite (named_spelling _ _ n "MSP430FR" E'), K2. split; [intros H; injection H as <-; auto|]. intros [[X _]|[_ ->]]; [contradiction|reflexivity].
  - rewrite unnamed by (rewrite same_iff; assumption). split; [discriminate|]. intros [[X _]|[X _]]; contradiction.
Qed.
Lemma by_name_error k n : value_error (make_mcu (10 + k) db [("name"%string, VStr n)]).
Proof.
  destruct (make_mcu (10 + k) db _) as [m|e] eqn:E; [exact I|].
  destruct (string_dec (lower n) (lower "nRF52")) as [E1|E1]; [|destruct (string_dec (lower n) (lower "MSP430FR")) as [E2|E2]].
  - assert (X : make_mcu (10 + k) db [("name"%string, VStr n)] = Ok nrf) by (apply by_name; left; split; [now apply same_iff|reflexivity]). congruence.
  - assert (X : make_mcu (10 + k) db [("name"%string, VStr n)] = Ok msp) by (apply by_name; right; split; [now apply same_iff|reflexivity]). congruence.
  - rewrite unnamed in E by (rewrite same_iff; assumption). injection E as <-. reflexivity.
Qed.
Lemma reference_shape v r : reference_of v = Ok r -> exists c, v = VOther ("{'name': '" ++ c ++ "'}") /\ r = [("name"%string, VStr c)].
Proof.
  unfold reference_of. destruct v as [?|?|s]; try discriminate. cbv zeta. destruct (String.eqb s _) eqn:E; [|discriminate]. apply String.eqb_eq in E.
  intros H. injection H as <-. eexists. split; [f_equal; exact E|reflexivity].
Qed.
Lemma controller_iff k v m : controller (10 + k) db v = Ok m <-> chosen_mcu v m.
Proof.
  unfold chosen_mcu. split.
  - destruct v as [c|z|s]; [|discriminate|].
    + intros H. exists c. split; [now left|]. now apply (by_name k c m).
    + unfold controller. intros H. apply bind_ok in H as (r & R & H). apply reference_shape in R as (c & E & ->). exists c. split; [now right|]. now apply (by_name k c m).
  - intros (c & [-> | ->] & H); [|rewrite <- controller_named]; apply (by_name k c m) in H; exact H.
Qed.
Lemma controller_error k v : value_error (controller (10 + k) db v).
Proof.
  destruct v as [c|z|s]; [apply by_name_error|reflexivity|]. unfold controller. destruct (reference_of (VOther s)) as [r|e] eqn:R.
  - apply reference_shape in R as (c & _ & ->). apply by_name_error.
  - unfold reference_of in R. cbv zeta in R. destruct (String.eqb s _); [discriminate|]. injection R as <-. reflexivity.
Qed.

(** * Targets *)

Lemma bool_ok v b : bool_of v = Ok b <-> v = VOther (if b then "True" else "False").
Proof.
  destruct v as [?|?|s]; cbn [bool_of]; [split; [discriminate|destruct b; discriminate]|split; [discriminate|destruct b; discriminate]|].
  destruct (String.eqb s "True") eqn:T; [apply String.eqb_eq in T; subst s; destruct b; split; intros H; try discriminate; reflexivity|].
  destruct (String.eqb s "False") eqn:F; [apply String.eqb_eq in F; subst s; destruct b; split; intros H; try discriminate; reflexivity|].
  split; [discriminate|]. intros H. injection H as ->. destruct b; discriminate.
Qed.
Lemma remark_ok values : (exists o, nullable text_of "comment" values = Ok o) <-> absent "comment" values \/ text_at "comment" values printable.
Proof.
  unfold absent. split.
  - intros [o H]. apply nullable_ok in H as [[A _]|(v & a & A & _ & F & _)]; [now left|]. right. apply text_of_ok in F as (t' & -> & -> & P). now exists t'.
  - intros [C|(t & C & G)]; [exists None; apply nullable_ok; auto|]. exists (Some (strip t)). apply nullable_ok. right.
    exists (VStr t), (strip t). split; [exact C|]. split; [discriminate|]. split; [apply text_of_ok; eauto|reflexivity].
Qed.
Lemma chosen_not_none v m : chosen_mcu v m -> v <> none_.
Proof. intros (c & [-> | ->] & _); discriminate. Qed.
Lemma target_iff k values i n t : own_target values i n -> make_target (10 + k) db values = Ok t <-> target_given values i n t.
Proof.
  intros O. assert (B : try_completing_model (10 + k) db "Target" values = Ok (values, [])) by (apply (target_stays (9 + k) values i n O)).
  destruct O as (_ & D & N & _). unfold make_target. rewrite B. cbn [bind]. clear B. generalize (controller_iff k). generalize (controller (10 + k) db). intros ctl CI. split.
  - intros H. apply guard_ok in H as [K H]. repeat next H. injection H as <-. unfold target_given. cbn [t_id t_rest t_active t_testbed_id t_mcu1 t_mcu2].
    split; [now apply known_keys|]. apply needed_ok in E1 as (v & Ev & E1). apply id_of_ok in E1 as [-> IR]. assert (y1 = i) by congruence. subst y1.
    split; [reflexivity|]. split; [exact IR|]. split; [reflexivity|].
    apply needed_ok in E2 as (v & Ev2 & E2). apply name_of_ok in E2 as (t & -> & -> & GN). assert (t = n) by congruence. subst t. split; [exact GN|].
    split; [eapply nice_at; eassumption|].
    split; [apply needed_ok in E4 as (v & Ev4 & E4); apply text_of_ok in E4 as (t' & -> & -> & P); now exists t'|].
    split; [apply remark_ok; eauto|].
    split; [apply field_ok in E6; destruct (entry "active" values); [now apply bool_ok|exact E6]|].
    apply andb_prop in G as [G1 G2]. apply Z.leb_le in G1. apply Z.ltb_lt in G2.
    split; [apply nullable_ok in E7 as [[A ->]|(v & a & A & _ & F & ->)]; [left; split; [exact A|reflexivity]|right; apply int_of_ok in F; subst v; cbn [testbed_id] in *; auto]|].
    split; [apply needed_ok in E as (v & A & F); exists v; split; [exact A|now apply CI]|].
    apply nullable_ok in E0 as [[A ->]|(v & a & A & _ & F & ->)]; [left; auto|right; exists v, a; split; [exact A|]; split; [now apply CI|reflexivity]].
  - intros (K & TI & IR & R & GN & VE & DE & CO & AC & TID & M1 & M2). apply known_keys in K. fold target_fields in K. rewrite K.
    destruct M1 as (v1 & A1 & C1). assert (X : needed ctl "mcu1" values = Ok (t_mcu1 t)) by (apply needed_ok; exists v1; split; [exact A1|now apply CI]).
    rewrite X. cbn [bind]. clear X.
    assert (X : nullable ctl "mcu2" values = Ok (t_mcu2 t)).
    { apply nullable_ok. destruct M2 as [[A ->]|(v & m & A & C & ->)]; [left; auto|right]. exists v, m. split; [exact A|]. split; [eapply chosen_not_none; exact C|]. split; [now apply CI|reflexivity]. }
    rewrite X. cbn [bind]. clear X.
    assert (X : needed id_of "id" values = Ok i). { apply needed_ok. exists (VInt i). split; [exact D|]. apply id_of_ok. auto. }
    rewrite X. cbn [bind]. clear X.
    assert (X : needed name_of "name" values = Ok (strip n)). { apply needed_ok. exists (VStr n). split; [exact N|]. apply name_of_ok. eauto. }
    rewrite X. cbn [bind]. clear X. destruct (nice_back _ _ VE) as [ve ->]. cbn [bind]. destruct DE as (de & DE & DG).
    assert (X : needed text_of "description" values = Ok (strip de)). { apply needed_ok. exists (VStr de). split; [exact DE|]. apply text_of_ok. eauto. }
    rewrite X. cbn [bind]. clear X. apply remark_ok in CO as [co ->]. cbn [bind].
    assert (X : field bool_of "active" true values = Ok (t_active t)). { apply field_ok. destruct (entry "active" values); [now apply bool_ok|exact AC]. }
    rewrite X. cbn [bind]. clear X.
    assert (X : exists g, nullable int_of "testbed_id" values = Ok g /\ testbed_id g i = t_testbed_id t /\ 0 <= t_testbed_id t < 2 ^ 16).
    { destruct TID as [[A E]|[A E]].
      - exists None. split; [apply nullable_ok; left; auto|]. split; [symmetry; exact E|]. rewrite E. apply Z.mod_pos_bound. reflexivity.
      - exists (Some (t_testbed_id t)). split; [apply nullable_ok; right; exists (VInt (t_testbed_id t)), (t_testbed_id t); split; [exact A|]; split; [discriminate|]; split; [now apply int_of_ok|reflexivity]|].
        split; [reflexivity|exact E]. }
    destruct X as (g & -> & TE & [T1 T2]). cbn [bind]. rewrite TE. apply Z.leb_le in T1. apply Z.ltb_lt in T2. rewrite T1, T2. cbn [andb].
    f_equal. destruct t; cbn in *; subst; reflexivity.
Qed.
Lemma target_refused k values i n : own_target values i n -> (forall t, ~ target_given values i n t) -> make_target (10 + k) db values = Err ValueError.
Proof.
  intros O H. assert (V : value_error (make_target (10 + k) db values)).
  { unfold make_target. assert (B : try_completing_model (10 + k) db "Target" values = Ok (values, [])) by (apply (target_stays (9 + k) values i n O)).
    rewrite B. cbn [bind]. clear B. generalize (controller_error k). generalize (controller (10 + k) db). intros ctl CE.
    destruct (only target_fields values); [|reflexivity].
    repeat (apply ve_bind; [first [apply ve_needed; intros; first [apply CE|apply ve_id|apply ve_name|apply ve_text]|apply ve_nullable; first [exact CE|exact ve_text|intros []; reflexivity || exact I]|
      apply ve_field; intros [?|?|s]; cbn [bool_of]; try reflexivity; destruct (String.eqb s "True"); [exact I|]; destruct (String.eqb s "False"); [exact I|reflexivity]]|intros ?]).
    cbv zeta. destruct (_ && _); [exact I|reflexivity]. }
  destruct (make_target (10 + k) db values) as [t|e] eqn:E; [|now rewrite <- V]. exfalso. apply (H t). now apply (target_iff k values i n t O).
Qed.
