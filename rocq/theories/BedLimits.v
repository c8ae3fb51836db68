(** Limits of the components of a testbed, whoever wrote them. *)
From Coq Require Import String Ascii ZArith QArith Bool List Lia.
From Verif Require Import PyBase FixModel FixSpec FixProofs TbModel TbSpec TbProofs ShipModel BedData BedModel BedSpec BedProofs.
From Verif Require StoModel FwProofs ProgSpec ProgProofs ShipOwn ShipPlain.
Import ListNotations.
Open Scope Z_scope.
Open Scope list_scope.

Notation strip := StoModel.strip.

(** * Readers *)

Lemma good_name_ok s : negb (String.eqb s "") && (String.length s <=? 32)%nat && forallb StoModel.name_char (list_ascii_of_string s) = true <-> ProgSpec.good_name s.
Proof.
  unfold ProgSpec.good_name. rewrite !andb_true_iff, Nat.leb_le, negb_true_iff, forallb_forall. split.
  - intros [[N L] C]. split; [destruct s; [discriminate N|cbn [String.length] in *; lia]|].
    intros c I J. specialize (C c I). unfold StoModel.name_char in C. apply negb_true_iff in C.
    assert (X : existsb (Ascii.eqb c) (list_ascii_of_string "<>:;,?""*|/\") = true); [|congruence].
    apply existsb_exists. exists c. split; [exact J|apply Ascii.eqb_refl].
  - intros [L C]. split; [split; [destruct s; [cbn in L; lia|reflexivity]|lia]|]. intros c I. unfold StoModel.name_char. apply negb_true_iff.
    destruct (existsb _ _) eqn:X; [|reflexivity]. apply existsb_exists in X as [d [J E]]. apply Ascii.eqb_eq in E. subst d. exfalso. exact (C c I J).
Qed.
Lemma name_of_ok v s : name_of v = Ok s <-> exists t, v = VStr t /\ s = strip t /\ ProgSpec.good_name s.
Proof.
  destruct v as [t|z|t]; cbn [name_of]; [|split; [discriminate|intros (? & E & _); discriminate]|split; [discriminate|intros (? & E & _); discriminate]].
  cbv zeta. destruct (negb _ && _ && _) eqn:G.
  - apply good_name_ok in G. split; [intros H; injection H as <-; eauto|]. intros (u & E & -> & _). injection E as ->. reflexivity.
  - split; [discriminate|]. intros (u & E & -> & B). injection E as ->. apply good_name_ok in B. congruence.
Qed.
Lemma text_of_ok v s : text_of v = Ok s <-> exists t, v = VStr t /\ s = strip t /\ printable s.
Proof.
  destruct v as [t|z|t]; cbn [text_of]; [|split; [discriminate|intros (? & E & _); discriminate]|split; [discriminate|intros (? & E & _); discriminate]].
  cbv zeta. unfold printable. destruct (StoModel.safe_str (strip t) && _) eqn:G.
  - apply andb_prop in G as [G L]. apply Nat.leb_le in L. apply ProgProofs.safe_readable in G. split; [intros H; injection H as <-; eauto|]. intros (u & E & -> & _). injection E as ->. reflexivity.
  - split; [discriminate|]. intros (u & E & -> & B & L). injection E as ->. apply Nat.leb_le in L. apply ProgProofs.safe_readable in B. rewrite B, L in G. discriminate.
Qed.
Lemma any_text_ok v s : any_text v = Ok s <-> exists t, v = VStr t /\ s = strip t /\ (1 <= String.length s <= 512)%nat.
Proof.
  destruct v as [t|z|t]; cbn [any_text]; [|split; [discriminate|intros (? & E & _); discriminate]|split; [discriminate|intros (? & E & _); discriminate]].
  cbv zeta. assert (N : negb (String.eqb (strip t) "") = true <-> (1 <= String.length (strip t))%nat).
  { destruct (strip t); cbn; split; try discriminate; try lia; reflexivity. }
  destruct (negb _ && _) eqn:G.
  - apply andb_prop in G as [G L]. apply Nat.leb_le in L. apply N in G. split; [intros H; injection H as <-; eauto|]. intros (u & E & -> & _). injection E as ->. reflexivity.
  - split; [discriminate|]. intros (u & E & -> & B & L). injection E as ->. apply N in B. apply Nat.leb_le in L. rewrite B, L in G. discriminate.
Qed.
Lemma id_of_ok v z : id_of v = Ok z <-> v = VInt z /\ is_id z.
Proof.
  unfold id_of, is_id. destruct v as [t|y|t]; cbn [int_of bind]; [split; [discriminate|intros [E _]; discriminate]| |split; [discriminate|intros [E _]; discriminate]].
  destruct ((0 <=? y) && (y <? 2 ^ 128)) eqn:G.
  - apply andb_prop in G as [A B]. apply Z.leb_le in A. apply Z.ltb_lt in B. split; [intros H; injection H as <-; auto|]. intros [E _]. injection E as ->. reflexivity.
  - split; [discriminate|]. intros [E [A B]]. injection E as ->. apply Z.leb_le in A. apply Z.ltb_lt in B. rewrite A, B in G. discriminate.
Qed.
Lemma protocol_ok v u : protocol_of v = Ok u <-> exists p, v = VStr p /\ In p ["SWD"; "SBW"; "JTAG"; "UART"]%string.
Proof.
  destruct u, v as [t|z|t]; cbn [protocol_of]; [|split; [discriminate|intros (? & E & _); discriminate]|split; [discriminate|intros (? & E & _); discriminate]].
  destruct (existsb _ _) eqn:G.
  - apply ProgProofs.member in G. split; [eauto|reflexivity].
  - split; [discriminate|]. intros (p & E & I). injection E as ->. exfalso. apply not_true_iff_false in G. apply G. apply existsb_exists. exists p. split; [exact I|apply String.eqb_refl].
Qed.
Lemma needed_ok {A} (f : value -> res A) k d a : needed f k d = Ok a <-> exists v, entry k d = Some v /\ f v = Ok a.
Proof.
  unfold needed. rewrite dget_entry. destruct (entry k d) as [v|]; split; intros H; [eauto| |discriminate|]; destruct H as (w & E & F); [injection E as <-; exact F|discriminate].
Qed.
Lemma nullable_ok {A} (f : value -> res A) k d o : nullable f k d = Ok o <->
  ((entry k d = None \/ entry k d = Some none_) /\ o = None) \/ (exists v a, entry k d = Some v /\ v <> none_ /\ f v = Ok a /\ o = Some a).
Proof.
  unfold nullable. rewrite dget_entry. destruct (entry k d) as [v|].
  - destruct (value_eqb v none_) eqn:N.
    + apply ShipPlain.none_eq in N. subst v. split; [intros H; injection H as <-; auto|]. intros [[_ ->]|(v & a & E & X & _)]; [reflexivity|]. injection E as <-. congruence.
    + assert (NN : v <> none_) by (intros ->; discriminate N). split.
      * destruct (f v) as [a|] eqn:F; cbn [bind]; [|discriminate]. intros H. injection H as <-. right. eauto 6.
      * intros [[[E|E] _]|(w & a & E & _ & F & ->)]; [discriminate|congruence|]. injection E as <-. rewrite F. reflexivity.
  - split; [intros H; injection H as <-; auto|]. intros [[_ ->]|(v & a & E & _)]; [reflexivity|discriminate].
Qed.

(** * Whatever is made is sound *)

Ltac next H := match type of H with
  | bind ?m _ = _ => let E := fresh "E" in let y := fresh "y" in destruct m as [y|] eqn:E; cbn [bind] in H; [|discriminate H]
  | (if ?c then _ else _) = _ => let E := fresh "G" in destruct c eqn:E; [|discriminate H]
  end.

Lemma mcu_sound depth x values m : make_mcu depth x values = Ok m -> sound_mcu m.
Proof.
  unfold make_mcu. intros H. next H. destruct y as [d c]. repeat next H. injection H as <-. unfold sound_mcu. cbn [m_id m_name m_voltage m_datarate m_fw_default].
  repeat match goal with E : needed _ _ _ = Ok _ |- _ => apply needed_ok in E as (? & _ & E) end.
  match goal with E : id_of _ = Ok _ |- _ => apply id_of_ok in E as [_ E] end. repeat match goal with E : name_of _ = Ok _ |- _ => apply name_of_ok in E as (? & _ & _ & E) end.
  match goal with E : any_text _ = Ok _ |- _ => apply any_text_ok in E as (? & _ & _ & E) end.
  repeat match goal with G : _ && _ = true |- _ => apply andb_prop in G as [? ?] end.
  repeat match goal with G : Qle_bool _ _ = true |- _ => apply Qle_bool_iff in G | G : (_ <? _) = true |- _ => apply Z.ltb_lt in G | G : (_ <=? _) = true |- _ => apply Z.leb_le in G end.
  repeat split; try assumption; try lia; try (match goal with E : is_id _ |- _ => destruct E; assumption end); try (match goal with E : ProgSpec.good_name ?s |- _ => now destruct E end).
Qed.
Lemma controller_sound depth x v m : controller depth x v = Ok m -> sound_mcu m.
Proof. unfold controller. destruct v; [apply mcu_sound|discriminate|]. intros H. next H. eapply mcu_sound. exact H. Qed.
Lemma target_sound depth x values t : make_target depth x values = Ok t -> sound_target t.
Proof.
  unfold make_target. intros H. next H. destruct y as [d c]. repeat next H. injection H as <-. unfold sound_target. cbn [t_id t_testbed_id t_mcu1 t_mcu2].
  repeat match goal with E : needed _ _ _ = Ok _ |- _ => apply needed_ok in E as (? & _ & E) end.
  match goal with E : id_of _ = Ok _ |- _ => apply id_of_ok in E as [_ E] end.
  repeat match goal with G : _ && _ = true |- _ => apply andb_prop in G as [? ?] end.
  repeat match goal with G : (_ <? _) = true |- _ => apply Z.ltb_lt in G | G : (_ <=? _) = true |- _ => apply Z.leb_le in G end.
  split; [assumption|]. split; [lia|]. split; [eapply controller_sound; eassumption|].
  intros m M. match goal with E : nullable (controller _ _) _ _ = Ok _ |- _ => apply nullable_ok in E as [[_ E]|(v & a & _ & _ & F & E)] end; [congruence|].
  assert (a = m) by congruence. subst a. eapply controller_sound; exact F.
Qed.
Lemma cape_sound depth x values c : make_cape depth x values = Ok c -> is_id (c_id c).
Proof.
  unfold make_cape. intros H. next H. destruct y as [d ?]. repeat next H. injection H as <-. cbn [c_id].
  repeat match goal with E : needed _ _ _ = Ok _ |- _ => apply needed_ok in E as (? & _ & E) end.
  match goal with E : id_of _ = Ok _ |- _ => now apply id_of_ok in E as [_ E] end.
Qed.

Lemma digits_pos s : forall acc z, digits s acc = Some z -> 0 <= acc -> 0 <= z.
Proof.
  induction s as [|c s IH]; intros acc z H A; cbn [digits] in H; [injection H as <-; exact A|].
  destruct (digit c) as [d|] eqn:D; [|discriminate]. apply (IH _ _ H). unfold digit in D. destruct (_ && _); [|discriminate]. injection D as <-. lia.
Qed.
Lemma octet_range s z : octet s = Some z -> 0 <= z < 256 /\ s = str (VInt z).
Proof.
  unfold octet. destruct (int_of_key s) as [y|] eqn:K; [|discriminate]. destruct ((y <? 256) && _) eqn:G; [|discriminate]. intros H. injection H as <-.
  apply andb_prop in G as [L E]. apply Z.ltb_lt in L. apply String.eqb_eq in E. split; [|now symmetry]. split; [|exact L].
  unfold int_of_key in K. destruct s; [discriminate|]. apply digits_pos in K; lia.
Qed.
Lemma octet_back z : 0 <= z < 256 -> octet (str (VInt z)) = Some z.
Proof.
  intros H. assert (A : forallb (fun n => match octet (str (VInt (Z.of_nat n))) with Some y => y =? Z.of_nat n | None => false end) (seq 0 256) = true) by (vm_cast_no_check (eq_refl true)).
  rewrite forallb_forall in A. specialize (A (Z.to_nat z)). rewrite Z2Nat.id in A by lia. specialize (A ltac:(apply in_seq; lia)).
  destruct (octet (str (VInt z))) as [y|]; [|discriminate]. apply Z.eqb_eq in A. now subst.
Qed.
Definition place_value (acc : Z) (l : list Z) : Z := fold_left (fun n z => 256 * n + z) l acc.
Lemma dotted_parts s : forall part acc n z m, dotted s part acc n = Some (z, m) ->
  exists l, octets l /\ l <> [] /\ (part ++ s)%string = dots l /\ m = (n + List.length l)%nat /\ z = place_value acc l.
Proof.
  induction s as [|c s IH]; intros part acc n z m H; cbn [dotted] in H.
  - destruct (octet part) as [y|] eqn:O; [|discriminate]. injection H as <- <-. apply octet_range in O as [O E]. exists [y]. unfold octets, dots. cbn [map String.concat List.length].
    rewrite ShipPlain.append_nil. split; [repeat constructor; lia|]. split; [discriminate|]. split; [exact E|]. split; [lia|reflexivity].
  - destruct (Ascii.eqb c ".") eqn:C.
    + apply Ascii.eqb_eq in C. subst c. destruct (octet part) as [y|] eqn:O; [|discriminate]. apply octet_range in O as [O E].
      apply IH in H as (l & L & N & D & M & Z). exists (y :: l). split; [constructor; assumption|]. split; [discriminate|]. split.
      { destruct l as [|a l]; [congruence|]. change (dots (y :: a :: l)) with (str (VInt y) ++ "." ++ dots (a :: l))%string. rewrite <- D, E. reflexivity. }
      split; [cbn [List.length]; lia|exact Z].
    + apply IH in H as (l & L & N & D & M & Z). exists l. repeat split; try assumption. rewrite <- D, ShipPlain.append_assoc. reflexivity.
Qed.
Definition no_dot (s : string) : Prop := Forall (fun c => c <> "."%char) (list_ascii_of_string s).
Lemma dotted_skip t : no_dot t -> forall s part acc n, dotted (t ++ s) part acc n = dotted s (part ++ t) acc n.
Proof.
  induction t as [|c t IH]; intros N s part acc n; [now rewrite ShipPlain.append_nil|]. unfold no_dot in N. cbn [list_ascii_of_string] in N. inversion N as [|? ? C T]; subst.
  cbn [append dotted]. destruct (Ascii.eqb c ".") eqn:E; [apply Ascii.eqb_eq in E; contradiction|]. rewrite IH by exact T. rewrite ShipPlain.append_assoc. reflexivity.
Qed.
Lemma octet_no_dot z : 0 <= z < 256 -> no_dot (str (VInt z)).
Proof.
  intros H. assert (A : forallb (fun n => forallb (fun c => negb (Ascii.eqb c ".")) (list_ascii_of_string (str (VInt (Z.of_nat n))))) (seq 0 256) = true) by (vm_cast_no_check (eq_refl true)).
  rewrite forallb_forall in A. specialize (A (Z.to_nat z)). rewrite Z2Nat.id in A by lia. specialize (A ltac:(apply in_seq; lia)).
  unfold no_dot. rewrite Forall_forall. rewrite forallb_forall in A. intros c I. specialize (A c I). intros ->. discriminate A.
Qed.
Lemma dotted_back l : forall acc n, octets l -> l <> [] -> dotted (dots l) "" acc n = Some (place_value acc l, (n + List.length l)%nat).
Proof.
  induction l as [|y l IH]; intros acc n O N; [congruence|]. inversion O as [|? ? Y L]; subst. destruct l as [|a l].
  - unfold dots. cbn [map String.concat]. rewrite <- (ShipPlain.append_nil (str (VInt y))) at 1. rewrite dotted_skip by (now apply octet_no_dot). cbn [append dotted].
    rewrite (octet_back y Y). cbn [List.length place_value fold_left]. f_equal. f_equal. lia.
  - change (dots (y :: a :: l)) with (str (VInt y) ++ "." ++ dots (a :: l))%string. rewrite dotted_skip by (now apply octet_no_dot).
    cbn [append dotted Ascii.eqb Bool.eqb]. rewrite (octet_back y Y). rewrite IH by (assumption || discriminate). f_equal. f_equal. cbn [List.length]. lia.
Qed.
Lemma ip_of_ok s z : ip_of (VStr s) = Ok z <-> exists a b c d, octets [a; b; c; d] /\ s = dots [a; b; c; d] /\ z = ((a * 256 + b) * 256 + c) * 256 + d.
Proof.
  unfold ip_of. split.
  - destruct (dotted s "" 0 0) as [[y n]|] eqn:D; [|discriminate]. apply dotted_parts in D as (l & O & _ & S & N & Y). cbn [append] in S.
    destruct n as [|[|[|[|[|]]]]]; try discriminate. intros H. injection H as <-. destruct l as [|a [|b [|c [|d [|]]]]]; cbn [List.length] in N; try lia.
    exists a, b, c, d. split; [exact O|]. split; [exact S|]. rewrite Y. unfold place_value. cbn [fold_left]. lia.
  - intros (a & b & c & d & O & -> & ->). rewrite dotted_back by (exact O || discriminate). cbn [List.length Nat.add]. unfold place_value. cbn [fold_left]. f_equal. lia.
Qed.
Lemma nibble_range c z : nibble c = Some z -> 0 <= z < 16.
Proof.
  unfold nibble. destruct (_ && _) eqn:A; [apply andb_prop in A as [A B]; apply Z.leb_le in A, B; intros H; injection H as <-; lia|]. clear A.
  destruct (_ && _) eqn:A; [apply andb_prop in A as [A B]; apply Z.leb_le in A, B; intros H; injection H as <-; lia|]. clear A.
  destruct (_ && _) eqn:A; [apply andb_prop in A as [A B]; apply Z.leb_le in A, B; intros H; injection H as <-; lia|discriminate].
Qed.
Lemma pairs_range n : forall s acc z, pairs n s acc = Some z -> 0 <= acc -> 0 <= z < (acc + 1) * 256 ^ (Z.of_nat n + 1).
Proof.
  induction n as [|n IH]; intros s acc z H A; destruct s as [|a [|b s]]; cbn [pairs] in H; try discriminate;
    destruct (nibble a) as [u|] eqn:U; try discriminate; destruct (nibble b) as [v|] eqn:V; try discriminate;
    apply nibble_range in U, V; destruct s as [|c s]; try discriminate.
  - assert (z = 256 * acc + 16 * u + v) by congruence. subst z. change (256 ^ (Z.of_nat 0 + 1)) with 256. lia.
  - destruct (Ascii.eqb c ":" || Ascii.eqb c "-"); [|discriminate]. apply IH in H; [|lia].
    rewrite Nat2Z.inj_succ. replace (Z.succ (Z.of_nat n) + 1) with (1 + (Z.of_nat n + 1)) by lia. rewrite (Z.pow_add_r 256 1) by lia. change (256 ^ 1) with 256.
    split; [lia|]. eapply Z.lt_le_trans; [exact (proj2 H)|]. rewrite Z.mul_assoc. apply Z.mul_le_mono_nonneg_r; [apply Z.pow_nonneg; lia|lia].
Qed.

Lemma observer_sound depth x values o : make_observer depth x values = Ok o -> sound_observer o.
Proof.
  unfold make_observer. intros H. next H. destruct y as [d ?]. repeat next H. injection H as <-. unfold sound_observer.
  cbn [o_id o_name o_ip o_mac o_eth o_cape o_target_a o_target_b].
  match goal with V : validate_observer _ = Ok ?u |- _ => destruct u; pose proof (proj1 (observer_ok _) V) as W; clear V; unfold targets_of in W; cbn [o_cape o_target_a o_target_b] in W end.
  repeat match goal with E : needed _ _ _ = Ok _ |- _ => apply needed_ok in E as (? & _ & E) end.
  match goal with E : id_of _ = Ok _ |- _ => apply id_of_ok in E as [_ E] end. repeat match goal with E : name_of _ = Ok _ |- _ => apply name_of_ok in E as (? & _ & _ & E) end.
  match goal with E : ip_of ?v = Ok _ |- _ => destruct v as [?|?|?]; [|discriminate E|discriminate E]; apply ip_of_ok in E as (o1 & o2 & o3 & o4 & E & _ & ->) end.
  match goal with E : mac_of ?v = Ok ?z |- _ => assert (MR : 0 <= z < 2 ^ 48);
    [destruct v as [w|?|?]; [|discriminate E|discriminate E]; cbn [mac_of] in E; destruct (pairs 5 w 0) as [y'|] eqn:P; [|discriminate E]; injection E as <-; apply pairs_range in P; [|lia];
     change ((0 + 1) * 256 ^ (Z.of_nat 5 + 1)) with (2 ^ 48) in P; exact P|] end.
  repeat match goal with E : octets (_ :: _) |- _ => unfold octets in E end.
  repeat match goal with E : Forall _ (_ :: _) |- _ => inversion E; clear E; subst end.
  split; [assumption|]. split; [assumption|]. split; [change (2 ^ 32) with 4294967296; lia|]. split; [assumption|]. split; [assumption|]. split; [|split].
  - intros c C. subst. match goal with E : nullable _ "cape" _ = Ok _ |- _ => apply nullable_ok in E as [[_ X]|(v & a & _ & _ & F & X)] end; [discriminate X|].
    injection X as ->. next F. eapply cape_sound; exact F.
  - intros t [T|T]; subst.
    + match goal with E : nullable _ "target_a" _ = Ok _ |- _ => apply nullable_ok in E as [[_ X]|(v & a & _ & _ & F & X)] end; [discriminate X|].
      injection X as ->. next F. eapply target_sound; exact F.
    + match goal with E : nullable _ "target_b" _ = Ok _ |- _ => apply nullable_ok in E as [[_ X]|(v & a & _ & _ & F & X)] end; [discriminate X|].
      injection X as ->. next F. eapply target_sound; exact F.
  - intros C. specialize (W C). destruct y9, y10; try discriminate W; auto.
Qed.
Lemma each_sound {A B} (f : A -> res B) (P : B -> Prop) (H : forall a b, f a = Ok b -> P b) l : forall bs, each f l = Ok bs -> Forall P bs.
Proof.
  induction l as [|a l IH]; intros bs E; cbn [each] in E; [injection E as <-; constructor|]. next E. next E. injection E as <-. constructor; eauto.
Qed.
Lemma testbed_sound depth x values tb : make_testbed depth x values = Ok tb -> sound_testbed tb.
Proof.
  unfold make_testbed. intros H. next H. destruct y as [d ?]. repeat next H. injection H as <-. unfold sound_testbed.
  match goal with V : validate_testbed _ = Ok ?u |- _ => destruct u; apply testbed_spec in V end.
  match goal with E : each _ _ = Ok _ |- _ => apply (each_sound _ sound_observer (fun a b => observer_sound depth x a b)) in E end.
  match goal with G : (1 <=? _)%nat && _ = true |- _ => apply andb_prop in G as [G1 G2]; apply Nat.leb_le in G1, G2 end.
  cbn [tb_observers] in *. split; [lia|]. split; [assumption|]. assumption.
Qed.

(** * Own controllers *)

Lemma mcu_file : exists f, component db "MCU" = Ok f /\
  forallb (fun p => value_eqb (fst p) (VInt 1001) || value_eqb (fst p) (VInt 1002)) (x_ids f) = true /\
  forallb (fun p => existsb (fun n => String.eqb (fst p) (lower n)) ["nRF52"; "MSP430FR"]%string) (x_names f) = true.
Proof. eexists. split; [vm_compute; reflexivity|]. split; vm_compute; reflexivity. Qed.
Lemma get_id {A : Set} i (l : list (value * A)) d : FixModel.get value_eqb i l = Some d -> exists p, In p l /\ value_eqb i (fst p) = true.
Proof.
  induction l as [|[k a] l IH]; cbn; [discriminate|]. destruct (value_eqb i k) eqn:E.
  - intros _. exists (k, a). split; [now left|exact E].
  - intros H. destruct (IH H) as [p [I P]]. exists p. split; [now right|exact P].
Qed.
Lemma stays depth values i n : own_mcu values i n -> try_completing_model (S depth) db "MCU" values = Ok (values, []).
Proof.
  intros (I & D & N & I1 & I2 & N1 & N2). unfold try_completing_model. destruct mcu_file as [f (C & KI & KN)].
  assert (Q : match values with [(k0, _)] => String.eqb k0 "id" || String.eqb k0 "name" | _ => false end = false).
  { destruct values as [|[k v] [|]]; [reflexivity| |reflexivity]. unfold entry in D, N. cbn [find fst] in D, N.
    destruct (String.eqb k "id") eqn:A; [apply String.eqb_eq in A; subst k; discriminate N|discriminate D]. }
  rewrite Q. cbn [bind]. rewrite C. cbn [bind inheritance]. rewrite dget_entry, I. unfold self_base. rewrite !dget_entry, D, N.
  destruct (FixModel.get String.eqb (lower n) (x_names f)) as [d|] eqn:G.
  - exfalso. apply ShipPlain.get_key in G as [p [P E]]. rewrite forallb_forall in KN. specialize (KN p P). apply existsb_exists in KN as [m [M E']].
    apply String.eqb_eq in E'. assert (S : same_text n m) by (apply same_lower; congruence). destruct M as [<-|[<-|[]]]; contradiction.
  - cbn [bind]. destruct (FixModel.get value_eqb (VInt i) (x_ids f)) as [d|] eqn:G'; [|reflexivity].
    exfalso. apply get_id in G' as [p [P E]]. rewrite forallb_forall in KI. specialize (KI p P).
    apply value_eqb_spec in E. rewrite <- E in KI. apply orb_prop in KI as [K|K]; apply value_eqb_spec in K; injection K as K; contradiction.
Qed.

Lemma field_ok {A} (f : value -> res A) k x d a : field f k x d = Ok a <-> match entry k d with None => a = x | Some v => f v = Ok a end.
Proof. unfold field. rewrite dget_entry. destruct (entry k d); [tauto|]. split; intros H; [now injection H|now subst]. Qed.
Lemma guard_ok {A} (b : bool) e (r : res A) a : (guard b or e;; r) = Ok a <-> b = true /\ r = Ok a.
Proof. destruct b; cbn; [tauto|]. split; [discriminate|intros [X _]; discriminate X]. Qed.
Lemma bind_ok {A B} (m : res A) (f : A -> res B) b : bind m f = Ok b <-> exists a, m = Ok a /\ f a = Ok b.
Proof. destruct m as [a|e]; cbn [bind]; split; [eauto|intros (a' & E & F); injection E as <-; exact F|discriminate|intros (a' & E & _); discriminate]. Qed.
Lemma known_keys values l : only l values = true <-> forall k, entry k values <> None -> In k l.
Proof.
  rewrite ShipOwn.only_in. split; intros H k K; apply H.
  - destruct (entry k values) eqn:E; [|congruence]. clear - E. induction values as [|[k0 v0] d IH]; [discriminate|]. rewrite FixProofs.entry_cons in E. cbn [map fst In].
    destruct (String.eqb k k0) eqn:Q; [apply String.eqb_eq in Q; now left|right; now apply IH].
  - now apply ShipOwn.entry_key.
Qed.
Lemma nice_at k values s : needed name_of k values = Ok s -> text_at k values ProgSpec.good_name.
Proof. intros H. apply needed_ok in H as (v & E & F). apply name_of_ok in F as (t & -> & -> & G). exists t. auto. Qed.
Lemma nice_back k values : text_at k values ProgSpec.good_name -> exists s, needed name_of k values = Ok s.
Proof. intros (t & E & G). exists (strip t). apply needed_ok. exists (VStr t). split; [exact E|]. apply name_of_ok. eauto. Qed.

Lemma range_ok (z a b : Z) : (a <? z) && (z <=? b) = true <-> a < z <= b.
Proof. rewrite andb_true_iff, Z.ltb_lt, Z.leb_le. tauto. Qed.
Lemma volts_ok q : Qle_bool 1 q && Qle_bool q (5 # 1) = true <-> (1 <= q <= 5)%Q.
Proof. rewrite andb_true_iff, !Qle_bool_iff. tauto. Qed.
Lemma int_of_ok v z : int_of v = Ok z <-> v = VInt z.
Proof. destruct v; cbn [int_of]; split; intros H; try discriminate; congruence. Qed.

Lemma mcu_iff depth values i n m : own_mcu values i n -> make_mcu (S depth) db values = Ok m <-> mcu_given values i n m.
Proof.
  intros O. split.
  - intros H. pose proof (mcu_sound _ _ _ _ H) as SM. unfold make_mcu in H. rewrite (stays depth values i n O) in H. cbn [bind] in H. destruct O as (_ & D & N & _).
    apply guard_ok in H as [K H]. repeat next H. injection H as <-. unfold mcu_given. cbn [m_id m_name m_rest m_voltage m_datarate m_fw_default].
    split; [now apply known_keys|].
    apply needed_ok in E as (v & Ev & E). apply id_of_ok in E as [-> _]. split; [congruence|].
    apply needed_ok in E0 as (v & Ev0 & E0). apply name_of_ok in E0 as (t & -> & -> & _). split; [congruence|].
    split; [reflexivity|]. split; [exact SM|].
    split; [apply needed_ok in E1 as (v & Ev1 & E1); apply text_of_ok in E1 as (t' & -> & -> & P); now exists t'|].
    split; [apply nullable_ok in E2 as [[[A|A] _]|(v & a & A & _ & F & _)]; [now left|right; now left|right; right; apply text_of_ok in F as (t' & -> & -> & P); now exists t']|].
    split; [eapply nice_at; eassumption|]. split; [eapply nice_at; eassumption|].
    split; [apply needed_ok in E5 as (v & Ev5 & E5); apply protocol_ok in E5 as (p & -> & P); now exists p|].
    split; [now apply field_ok in E6|].
    split; [apply field_ok in E7; destruct (entry "prog_datarate" values); [now apply int_of_ok in E7|exact E7]|].
    apply needed_ok in E8 as (v & Ev8 & E8). apply any_text_ok in E8 as (t' & -> & -> & _). now exists t'.
  - intros (K & I & M & R & (SI & SN & SV & SD & SF) & DE & CO & PL & CR & PR & VO & DA & FW). unfold make_mcu. rewrite (stays depth values i n O). cbn [bind].
    destruct O as (_ & D & N & _). apply known_keys in K. fold mcu_fields in K. rewrite K.
    assert (X : needed id_of "id" values = Ok i). { apply needed_ok. exists (VInt i). split; [exact D|]. apply id_of_ok. split; [reflexivity|congruence]. }
    rewrite X. cbn [bind]. clear X.
    assert (X : needed name_of "name" values = Ok (strip n)). { apply needed_ok. exists (VStr n). split; [exact N|]. apply name_of_ok. exists n. split; [reflexivity|]. split; [reflexivity|congruence]. }
    rewrite X. cbn [bind]. clear X. destruct DE as (de & DE & DG).
    assert (X : needed text_of "description" values = Ok (strip de)). { apply needed_ok. exists (VStr de). split; [exact DE|]. apply text_of_ok. eauto. }
    rewrite X. cbn [bind]. clear X.
    assert (X : exists o, nullable text_of "comment" values = Ok o).
    { destruct CO as [C|[C|(t & C & G)]]; [exists None; apply nullable_ok; auto|exists None; apply nullable_ok; auto|]. exists (Some (strip t)). apply nullable_ok. right.
      exists (VStr t), (strip t). split; [exact C|]. split; [discriminate|]. split; [apply text_of_ok; eauto|reflexivity]. }
    destruct X as [co ->]. cbn [bind]. destruct (nice_back _ _ PL) as [pl ->]. cbn [bind]. destruct (nice_back _ _ CR) as [cr ->]. cbn [bind].
    destruct PR as (p & PE & PI). assert (X : needed protocol_of "prog_protocol" values = Ok tt). { apply needed_ok. exists (VStr p). split; [exact PE|]. apply protocol_ok. eauto. }
    rewrite X. cbn [bind]. clear X.
    assert (X : field number_of "prog_voltage" (3 # 1)%Q values = Ok (m_voltage m)). { apply field_ok. destruct (entry "prog_voltage" values); exact VO. }
    rewrite X. cbn [bind]. clear X. apply volts_ok in SV. rewrite SV.
    assert (X : field int_of "prog_datarate" 500000 values = Ok (m_datarate m)). { apply field_ok. destruct (entry "prog_datarate" values); [now apply int_of_ok|exact DA]. }
    rewrite X. cbn [bind]. clear X. assert (SD' : 0 < m_datarate m <= 1000000) by lia. apply range_ok in SD'. rewrite SD'.
    destruct FW as (t & FE & FG). assert (X : needed any_text "fw_name_default" values = Ok (m_fw_default m)).
    { apply needed_ok. exists (VStr t). split; [exact FE|]. apply any_text_ok. exists t. auto. }
    rewrite X. cbn [bind]. f_equal. destruct m; cbn in *; subst; reflexivity.
Qed.

(** All refusals are of one kind. *)
Definition value_error {A} (r : res A) : Prop := match r with Ok _ => True | Err e => e = ValueError end.
Lemma ve_bind {A B} (m : res A) (f : A -> res B) : value_error m -> (forall a, value_error (f a)) -> value_error (bind m f).
Proof. destruct m; cbn; auto. Qed.
Lemma ve_needed {A} (f : value -> res A) k d : (forall v, value_error (f v)) -> value_error (needed f k d).
Proof. intros H. unfold needed. destruct (dget k d); [apply H|reflexivity]. Qed.
Lemma ve_nullable {A} (f : value -> res A) k d : (forall v, value_error (f v)) -> value_error (nullable f k d).
Proof. intros H. unfold nullable. destruct (dget k d) as [v|]; [|exact I]. destruct (value_eqb v none_); [exact I|]. apply ve_bind; [apply H|intros; exact I]. Qed.
Lemma ve_field {A} (f : value -> res A) k x d : (forall v, value_error (f v)) -> value_error (field f k x d).
Proof. intros H. unfold field. destruct (dget k d); [apply H|exact I]. Qed.
Lemma ve_id v : value_error (id_of v).
Proof. unfold id_of. destruct v; cbn [int_of bind]; try reflexivity. destruct (_ && _); reflexivity || exact I. Qed.
Lemma ve_name v : value_error (name_of v).
Proof. destruct v; cbn [name_of]; try reflexivity. cbv zeta. destruct (_ && _); reflexivity || exact I. Qed.
Lemma ve_text v : value_error (text_of v).
Proof. destruct v; cbn [text_of]; try reflexivity. cbv zeta. destruct (_ && _); reflexivity || exact I. Qed.
Lemma ve_any v : value_error (any_text v).
Proof. destruct v; cbn [any_text]; try reflexivity. cbv zeta. destruct (_ && _); reflexivity || exact I. Qed.
Lemma ve_protocol v : value_error (protocol_of v).
Proof. destruct v; cbn [protocol_of]; try reflexivity. destruct (existsb _ _); reflexivity || exact I. Qed.
Lemma ve_number v : value_error (number_of v).
Proof. destruct v as [s|z|s]; cbn [number_of]; try reflexivity || exact I. destruct s; [reflexivity|]. destruct (decimal _ 0 None) as [[? ?]|]; reflexivity || exact I. Qed.
Lemma mcu_refused depth values i n : own_mcu values i n -> (forall m, ~ mcu_given values i n m) -> make_mcu (S depth) db values = Err ValueError.
Proof.
  intros O H. assert (V : value_error (make_mcu (S depth) db values)).
  { unfold make_mcu. rewrite (stays depth values i n O). cbn [bind]. destruct (only mcu_fields values); [|reflexivity].
    repeat (apply ve_bind; [first [apply ve_needed; intros; first [apply ve_id|apply ve_name|apply ve_text|apply ve_any|apply ve_protocol]|apply ve_nullable; exact ve_text|
      apply ve_field; exact ve_number|apply ve_field; intros []; reflexivity || exact I]|intros ?]; try (match goal with |- value_error (if ?c then _ else _) => destruct c; [|reflexivity] end)).
    exact I. }
  destruct (make_mcu (S depth) db values) as [m|e] eqn:E; [|now rewrite <- V]. exfalso. apply (H m). now apply (mcu_iff depth values i n m O).
Qed.

(** * References *)

Lemma reference n : reference_of (VOther ("{'name': '" ++ n ++ "'}")) = Ok [("name"%string, VStr n)].
Proof.
  unfold reference_of. assert (L : (String.length ("{'name': '" ++ n ++ "'}") - 12 = String.length n)%nat).
  { rewrite !FwProofs.append_length. cbn [String.length]. lia. }
  cbv zeta. rewrite L. assert (S : substring 10 (String.length n) ("{'name': '" ++ n ++ "'}") = n).
  { cbn [append substring]. clear L. induction n as [|c n IH]; [reflexivity|]. cbn [append String.length substring]. now rewrite IH. }
  rewrite S, String.eqb_refl. reflexivity.
Qed.
Lemma controller_named depth x n : controller depth x (VStr n) = controller depth x (VOther ("{'name': '" ++ n ++ "'}")).
Proof. unfold controller at 2. rewrite reference. reflexivity. Qed.

(** * Firmwares *)

Lemma firmware_spelling depth x n m l : lower n = lower m -> forall k, firmware_at depth x n l k = firmware_at depth x m l k.
Proof. intros H. induction l as [|[a d] l IH]; intros k; [reflexivity|]. cbn [firmware_at]. rewrite H. destruct (String.eqb _ _); [reflexivity|apply IH]. Qed.
Lemma firmware_none depth x n l : (forall m, In m (map fst l) -> ~ same_text n m) -> forall k, firmware_at depth x n l k = None.
Proof.
  induction l as [|[a d] l IH]; intros H k; [reflexivity|]. cbn [firmware_at]. destruct (String.eqb (lower n) (lower a)) eqn:E.
  - exfalso. apply (H a); [now left|]. apply same_lower. now apply String.eqb_eq.
  - apply IH. intros m M. apply H. now right.
Qed.
Definition fw_check (k : nat) (e : nat * (string * Z)) : bool :=
  match firmware_at (10 + k) db (fst (snd e)) BedData.firmwares 0 with
  | Some f => (m_id (f_mcu f) =? snd (snd e)) && (f_data f =? Z.of_nat (fst e)) && (f_type f =? Z.of_nat (fst e))
  | None => false
  end.
Lemma fw_checked k : forallb (fw_check k) (combine (seq 0 8) shipped_firmwares) = true.
Proof. vm_cast_no_check (eq_refl true). Qed.
Lemma firmware_names : map fst shipped_firmwares = map fst BedData.firmwares.
Proof. reflexivity. Qed.
Lemma firmwares_found k n m j i : nth_error shipped_firmwares j = Some (m, i) -> same_text n m ->
  exists f, db_firmware (served (10 + k) db) n = Some f /\ m_id (f_mcu f) = i /\ f_data f = Z.of_nat j /\ f_type f = Z.of_nat j.
Proof.
  intros N S. cbn [served db_firmware]. rewrite (firmware_spelling _ _ n m) by (now apply lower_same).
  assert (I : In (j, (m, i)) (combine (seq 0 8) shipped_firmwares)).
  { do 8 (destruct j as [|j]; [injection N as <- <-; cbn; tauto|]). destruct j; discriminate N. }
  pose proof (fw_checked k) as C. rewrite forallb_forall in C. specialize (C _ I). unfold fw_check in C. cbn [fst snd] in C.
  destruct (firmware_at (10 + k) db m BedData.firmwares 0) as [f|]; [|discriminate C]. apply andb_prop in C as [C C3]. apply andb_prop in C as [C1 C2].
  exists f. apply Z.eqb_eq in C1, C2, C3. auto.
Qed.
Lemma firmwares_unknown depth x n : (forall m i, In (m, i) shipped_firmwares -> ~ same_text n m) -> db_firmware (served depth x) n = None.
Proof.
  intros H. cbn [served db_firmware]. apply firmware_none. rewrite <- firmware_names. intros m M. apply in_map_iff in M as [[m' i] [<- I]]. exact (H m' i I).
Qed.
