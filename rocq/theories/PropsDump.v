(** Properties C121 - C123: models as dictionaries, their hash and their printed form. *)
From Coq Require Import ZArith QArith String Ascii List Permutation Decimal.
From Verif Require Import PyBase DumpModel DumpSpec DumpProofs.
Import ListNotations.
Open Scope Z_scope.

(** * C121 *)

(** The keys are the names of the fields, in order. *)
Theorem C121_keys : forall m, keys m = map f_name (m_fields m).
Proof. exact keys_names. Qed.
Print Assumptions C121_keys.
Theorem C121_contains : forall m k, contains m k = true <-> In k (map f_name (m_fields m)).
Proof. exact contains_iff. Qed.
Print Assumptions C121_contains.

(** Each field is found under its name, and going through the items shows all of them once. *)
Theorem C121_getitem : forall m f, well_named m -> In f (m_fields m) -> getitem m (f_name f) = Ok (Field (f_val f)).
Proof. exact getitem_field. Qed.
Print Assumptions C121_getitem.
Theorem C121_items : forall m, well_named m -> items m = Ok (map (fun f => (f_name f, Field (f_val f))) (m_fields m)).
Proof. exact items_all. Qed.
Print Assumptions C121_items.

(** A name that is no key gives what the class holds under it, or AttributeError. *)
Theorem C121_missing : forall m k, contains m k = false ->
  getitem m k = if existsb (text_eqb k) (m_attrs m) then Ok (Of_class k) else Err AttributeError.
Proof. exact getitem_missing. Qed.
Print Assumptions C121_missing.

Definition half : lit := mkLit false 0 (Point (D5 Nil)).
Definition pair_fields (offset : lit) : list (field obj) :=
  [mkField (tx "gain") (OAtom (AFloat half)) true None;
   mkField (tx "offset") (OAtom (AFloat offset)) true (Some (OAtom (AFloat (mkLit false 0 (Point (D0 Nil))))));
   mkField (tx "unit") (OAtom (AStr (tx "V"))) true (Some (OAtom ANone))].
(** A CalibrationPair; of its other attributes only three are listed. *)
Definition ex_pair (offset : lit) : model := mkModel (tx "CalibrationPair") [tx "raw_to_si"; tx "keys"; tx "model_config"] (pair_fields offset).

(** Unlike a dictionary it raises no KeyError, and it answers for names that are no keys. *)
Theorem C121_missing_refuted :
  (forall m k, contains m k = false -> getitem m k <> Err KeyError)
  /\ (exists m k, contains m k = false /\ getitem m k = Err AttributeError)
  /\ (exists m k, contains m k = false /\ getitem m k = Ok (Of_class k)).
Proof.
  split; [|split].
  - intros m k C. rewrite (getitem_missing m k C). destruct (existsb _ _); discriminate.
  - exists (ex_pair half), (tx "gian"). split; reflexivity.
  - exists (ex_pair half), (tx "keys"). split; reflexivity.
Qed.
Print Assumptions C121_missing_refuted.
(** Iterating over it gives pairs instead of keys. *)
Theorem C121_iterate_refuted :
  ~ (forall m, iterate m = map Key (keys m)) /\ (forall m k, ~ In (Key k) (iterate m)).
Proof.
  split.
  - intros H. discriminate (H (ex_pair half)).
  - intros m k I. apply in_map_iff in I. destruct I as [f [E _]]. discriminate E.
Qed.
Print Assumptions C121_iterate_refuted.

(** * C122 *)

(** The hash tells the content: models with the same hash hold the same values under the same names,
    or a collision of SHA3 has been found. *)
Theorem C122_hash : forall sha3 m1 m2, get_hash sha3 m1 = get_hash sha3 m2 -> alike (content m1) (content m2) \/ collision sha3.
Proof. exact hash_alike. Qed.
Print Assumptions C122_hash.
Theorem C122_same : forall sha3 m1 m2, alike (content m1) (content m2) -> get_hash sha3 m1 = get_hash sha3 m2.
Proof. exact alike_hash. Qed.
Print Assumptions C122_same.
(** This rests on the printed dictionary being readable in one way only, whatever texts are in it. *)
Theorem C122_readable : forall v w, repr v = repr w -> v = w.
Proof. exact repr_inj. Qed.
Print Assumptions C122_readable.

(** Texts of printable characters are printed as they are, between quotes. *)
Theorem C122_plain : forall s, (forall c, In c s -> (32 <= N_of_ascii c < 127)%N /\ c <> squote /\ c <> backslash) -> repr_str s = squote :: s ++ [squote].
Proof.
  intros s H. apply repr_plain. apply forallb_forall. intros c I. destruct (H c I) as [[A B] [C D]]. unfold unescaped.
  apply N.leb_le in A. apply N.ltb_lt in B. apply Ascii.eqb_neq in C. apply Ascii.eqb_neq in D. rewrite A, B, C, D. reflexivity.
Qed.
Print Assumptions C122_plain.
(** The value of a float that is used for comparing is that of its decimal form. *)
Theorem C122_value : forall n i u s e,
  (lit_value (mkLit n i (Point u)) == (if n then - (1) else 1) * (inject_Z (Z.of_N i) + inject_Z (Z.of_uint u) / inject_Z (10 ^ Z.of_nat (nb_digits u))))%Q
  /\ (lit_value (mkLit n i (PointExpo u s e)) == lit_value (mkLit n i (Point u)) * Qpower (inject_Z 10) (if s then - Z.of_uint e else Z.of_uint e))%Q
  /\ (lit_value (mkLit n i (Expo s e)) == lit_value (mkLit n i (PointExpo Nil s e)))%Q.
Proof. intros n i u s e. split; [apply point_value|split; [apply expo_value|apply whole_value]]. Qed.
Print Assumptions C122_value.

(** Equal models may have different hashes: an offset of -0.0 equals 0.0. *)
Definition zero (neg : bool) : lit := mkLit neg 0 (Point (D0 Nil)).
Theorem C122_equal_refuted : exists m1 m2, equal (content m1) (content m2) /\ m_cls m1 = m_cls m2
  /\ forall sha3, get_hash sha3 m1 = get_hash sha3 m2 -> collision sha3.
Proof.
  exists (ex_pair (zero false)), (ex_pair (zero true)). split; [|split; [reflexivity|]].
  - apply obj_eqb_spec. reflexivity.
  - intros sha3 H. apply hash_alike in H. destruct H as [H|H]; [|exact H]. apply alike_dump in H. discriminate H.
Qed.
Print Assumptions C122_equal_refuted.
(** So may models with a dictionary that is filled in another order (SystemInventory.interfaces). *)
Definition ex_inventory (d : list (text * obj)) : model := mkModel (tx "SystemInventory") [] [mkField (tx "interfaces") (ODict d) true None].
Theorem C122_order_refuted : exists d e, Permutation d e
  /\ forall sha3, get_hash sha3 (ex_inventory d) = get_hash sha3 (ex_inventory e) -> collision sha3.
Proof.
  exists [(tx "eth0", OAtom ANone); (tx "lo", OAtom (ABool true))], [(tx "lo", OAtom (ABool true)); (tx "eth0", OAtom ANone)].
  split; [apply perm_swap|]. intros sha3 H. apply hash_alike in H. destruct H as [H|H]; [|exact H]. apply alike_dump in H. discriminate H.
Qed.
Print Assumptions C122_order_refuted.
(** The class is not part of the hash. *)
Theorem C122_class_refuted : forall sha3 m cls attrs, get_hash sha3 (mkModel cls attrs (m_fields m)) = get_hash sha3 m.
Proof. reflexivity. Qed.
Print Assumptions C122_class_refuted.

(** * C123 *)

(** The printed form tells the content, up to equality, if all that was not given has a constant default. *)
Theorem C123_repr : forall m1 m2, m_cls m1 = m_cls m2 -> settled (content m1) -> settled (content m2) -> comparable (content m1) (content m2) ->
  repr_model m1 = repr_model m2 -> equal (content m1) (content m2).
Proof. exact repr_model_equal. Qed.
Print Assumptions C123_repr.

(** Content made without an id gets one that is not printed: different content looks the same. *)
Definition ex_content (id : Z) : model :=
  let text_field n s := mkField (tx n) (OAtom (AStr (tx s))) true None in
  let none n := mkField (tx n) (OAtom ANone) false (Some (OAtom ANone)) in
  let now n := mkField (tx n) (OAtom (AMoment (mkMoment 2024 6 1 12 0 0 0 false))) false None in
  let no n := mkField (tx n) (OAtom (ABool false)) false (Some (OAtom (ABool false))) in
  mkModel (tx "ContentModel") []
    [mkField (tx "id") (OAtom (AInt id)) false None; text_field "name"%string "demo"%string; none "description"%string; none "comment"%string;
     now "created"%string; now "updated_last"%string; text_field "owner"%string "jane"%string; text_field "group"%string "lab"%string;
     no "visible2group"%string; no "visible2all"%string].
Theorem C123_factory_refuted : exists m1 m2, m_cls m1 = m_cls m2 /\ comparable (content m1) (content m2)
  /\ repr_model m1 = repr_model m2 /\ ~ equal (content m1) (content m2).
Proof.
  exists (ex_content 1), (ex_content 2). split; [reflexivity|]. split; [|split; [reflexivity|]].
  - apply comparable_model.
    + repeat (constructor; [cbn; intuition discriminate|]). constructor.
    + repeat (apply Forall2_cons; [split; [reflexivity|split; [reflexivity|apply comparable_left]]|]). apply Forall2_nil.
  - intros E. apply obj_eqb_spec in E. discriminate E.
Qed.
Print Assumptions C123_factory_refuted.

(** * Examples *)
Example C121_ex : well_named (ex_pair half) /\ contains (ex_pair half) (tx "offset") = true
  /\ getitem (ex_pair half) (tx "unit") = Ok (Field (OAtom (AStr (tx "V")))).
Proof. split; [|split; reflexivity]. repeat (constructor; [cbn; intuition discriminate|]). constructor. Qed.
(** Whatever a text contains, its notation has only characters that can be printed. *)
Theorem C122_printable : forall s, Forall (fun c => (N_of_ascii c < 128)%N) s -> Forall (fun c => (32 <= N_of_ascii c < 127)%N) (repr_str s).
Proof. exact repr_printable. Qed.
Print Assumptions C122_printable.

Example C122_ex : repr (dumped (ex_pair (mkLit true 12 (PointExpo (D0 (D5 Nil)) true (D0 (D7 Nil))))))
  = tx "{'gain': 0.5, 'offset': -12.05e-07, 'unit': 'V'}".
Proof. reflexivity. Qed.
Example C122_ex_quotes : repr (VList [VAtom (AStr (tx "it's")); VAtom (AStr (tx "a\b")); VAtom (ADelta (mkDelta 0 60 0)); VAtom (AMoment (mkMoment 2023 1 2 3 4 0 5 true))])
  = tx "[""it's"", 'a\\b', datetime.timedelta(seconds=60), datetime.datetime(2023, 1, 2, 3, 4, 0, 5, tzinfo=datetime.timezone.utc)]".
Proof. reflexivity. Qed.
Example C123_ex : repr_model (ex_pair (zero true)) = tx "CalibrationPair({'gain': 0.5, 'unit': 'V'})" /\ settled (content (ex_pair half)).
Proof. split; [reflexivity|]. constructor. repeat (apply Forall_cons; [split; [constructor|discriminate]|]). apply Forall_nil. Qed.
Example C123_ex_content : repr_model (ex_content 7) = tx "ContentModel({'name': 'demo', 'owner': 'jane', 'group': 'lab'})".
Proof. reflexivity. Qed.
