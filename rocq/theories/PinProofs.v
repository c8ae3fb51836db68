(** Proofs about PinModel.v. *)
From Coq Require Import String Ascii QArith.
From Verif Require Import PyBase FixModel FixSpec FixProofs PinModel PinSpec.
From Verif Require NameModel NameSpec NameProofs.
From Coq Require Import Lia.
Open Scope Z_scope.
Open Scope list_scope.

Ltac bools := repeat match goal with
  | H : _ && _ = true |- _ => apply andb_true_iff in H; destruct H
  | H : negb _ = true |- _ => apply negb_true_iff in H
  | H : (_ <=? _) = true |- _ => apply Z.leb_le in H
  | H : (_ <? _) = true |- _ => apply Z.ltb_lt in H
  | H : (_ =? _) = false |- _ => apply Z.eqb_neq in H
  | H : Nat.leb _ _ = true |- _ => apply Nat.leb_le in H
  end.

Lemma codes_scalar s : Forall (fun c => NameModel.scalar c = true) (codes s).
Proof.
  unfold codes. apply Forall_map, Forall_forall. intros c _. unfold NameModel.scalar.
  pose proof (nat_ascii_bounded c). lia.
Qed.

Lemma constrained_codes hi class s t (P : Z -> Prop) : (forall c, class c = true <-> P c) ->
  NameModel.constrained 1 hi class (codes s) = Ok t <->
  NameSpec.cleaned (codes s) t /\ (1 <= List.length t <= hi)%nat /\ Forall P t.
Proof.
  intros HP. rewrite NameProofs.constrained_spec, NameProofs.strip_cleaned.
  assert (E : Forall (fun c => class c = true) t <-> Forall P t)
    by (rewrite !Forall_forall; split; intros H c Hc; apply HP, H, Hc).
  rewrite E. pose proof (codes_scalar s). tauto.
Qed.

Lemma opt_text_spec hi class (P : Z -> Prop) v t : (forall c, class c = true <-> P c) ->
  opt_text (NameModel.constrained 1 hi class) v = Ok t <-> text_field hi P v t.
Proof.
  intros HP. split.
  - destruct v as [[s|z|r]|]; cbn [opt_text].
    + destruct (NameModel.constrained 1 hi class (codes s)) as [u|e] eqn:E; intros H; [|discriminate H].
      injection H as <-. apply (constrained_codes _ _ _ _ P HP) in E. destruct E as [E1 [E2 E3]].
      constructor; assumption.
    + discriminate.
    + destruct (value_eqb (VOther r) none_) eqn:E; [|discriminate]. apply value_eqb_spec in E.
      injection E as ->. intros [= <-]. constructor.
    + intros [= <-]. constructor.
  - intros [| |s u H1 H2 H3]; [reflexivity|reflexivity|]. cbn [opt_text].
    rewrite (proj2 (constrained_codes _ _ _ _ P HP) (conj H1 (conj H2 H3))). reflexivity.
Qed.

Lemma opt_text_err hi class v e : opt_text (NameModel.constrained 1 hi class) v = Err e -> e = ValueError.
Proof.
  destruct v as [[s|z|r]|]; cbn [opt_text]; try (intros [= <-]; reflexivity).
  - unfold NameModel.constrained. destruct (forallb NameModel.scalar (codes s)); [|intros [= <-]; reflexivity].
    cbn zeta. destruct (Nat.leb 1 _ && _); [|intros [= <-]; reflexivity].
    destruct (forallb class _); [discriminate|intros [= <-]; reflexivity].
  - destruct (value_eqb _ _); [discriminate|intros [= <-]; reflexivity].
Qed.

Lemma safe_class_spec c : NameModel.safe_class c = true <-> printable c.
Proof. unfold NameModel.safe_class, printable. lia. Qed.

Lemma name_spec v t : need_name v = Ok t <-> text_field 32 fit_for_names v (Some t).
Proof.
  rewrite <- (opt_text_spec 32 NameModel.name_class) by apply NameProofs.name_class_spec.
  unfold need_name, NameModel.name_str. destruct v as [[s|z|r]|]; cbn [opt_text].
  - destruct (NameModel.constrained _ _ _ _); cbn [bind]; split; (discriminate || (intros [= <-]; reflexivity)).
  - split; discriminate.
  - destruct (value_eqb _ _); split; discriminate.
  - split; discriminate.
Qed.

Lemma constrained_err lo hi class s e : NameModel.constrained lo hi class s = Err e -> e = ValueError.
Proof.
  unfold NameModel.constrained. destruct (forallb NameModel.scalar s); [|intros [= <-]; reflexivity].
  cbn zeta. destruct (Nat.leb lo _ && _); [|intros [= <-]; reflexivity].
  destruct (forallb class _); [discriminate|intros [= <-]; reflexivity].
Qed.

Lemma name_err v e : need_name v = Err e -> e = ValueError.
Proof.
  destruct v as [[s|z|r]|]; cbn [need_name]; try (intros [= <-]; reflexivity). apply constrained_err.
Qed.

Lemma id_spec v z : need_id v = Ok z <-> v = Some (VInt z) /\ 0 <= z < 2 ^ 128.
Proof.
  destruct v as [[s|y|r]|]; cbn [need_id]; try (split; [discriminate|intros [H _]; discriminate H]).
  destruct ((0 <=? y) && (y <? 2 ^ 128)) eqn:E.
  - bools. split; [intros [= <-]; split; [reflexivity|lia]|intros [[= <-] _]; reflexivity].
  - split; [discriminate|]. intros [[= <-] H]. exfalso. lia.
Qed.

Lemma id_err v e : need_id v = Err e -> e = ValueError.
Proof.
  destruct v as [[s|y|r]|]; cbn [need_id]; try (intros [= <-]; reflexivity).
  destruct (_ && _); [discriminate|intros [= <-]; reflexivity].
Qed.

Lemma number_spec v t : opt_nat v = Ok t <-> number_field v t.
Proof.
  split.
  - destruct v as [[s|z|r]|]; cbn [opt_nat]; [discriminate| | |intros [= <-]; constructor].
    + destruct (0 <=? z) eqn:E; [|discriminate]. bools. intros [= <-]. constructor. assumption.
    + destruct (value_eqb (VOther r) none_) eqn:E; [|discriminate]. apply value_eqb_spec in E.
      injection E as ->. intros [= <-]. constructor.
  - intros [| |z H]; [reflexivity|reflexivity|]. cbn [opt_nat]. apply Z.leb_le in H. rewrite H. reflexivity.
Qed.

Lemma number_err v e : opt_nat v = Err e -> e = ValueError.
Proof.
  destruct v as [[s|z|r]|]; cbn [opt_nat]; try (intros [= <-]; reflexivity).
  - destruct (0 <=? z); [discriminate|intros [= <-]; reflexivity].
  - destruct (value_eqb _ _); [discriminate|intros [= <-]; reflexivity].
Qed.

Lemma dir_spec v d : dir_of v = Ok d <-> direction_field v d.
Proof.
  split.
  - destruct v as [[s|z|r]|]; cbn [dir_of]; try discriminate; [|intros [= <-]; constructor].
    destruct (String.eqb_spec s "IN") as [->|_]; [intros [= <-]; constructor|].
    destruct (String.eqb_spec s "OUT") as [->|_]; [intros [= <-]; constructor|].
    destruct (String.eqb_spec s "IO") as [->|_]; [intros [= <-]; constructor|discriminate].
  - intros []; reflexivity.
Qed.

Lemma dir_err v e : dir_of v = Err e -> e = ValueError.
Proof.
  destruct v as [[s|z|r]|]; cbn [dir_of]; try (intros [= <-]; reflexivity).
  repeat (destruct (String.eqb _ _); [discriminate|]). intros [= <-]. reflexivity.
Qed.

Lemma known_spec (d : dict) : forallb (fun kv => existsb (String.eqb (fst kv)) fields) d = true <->
  forall k v, In (k, v) d -> In k fields.
Proof.
  rewrite forallb_forall. split.
  - intros H k v HI. specialize (H _ HI). apply existsb_exists in H. destruct H as [x [Hx E]].
    apply String.eqb_eq in E. cbn [fst] in E. subst x. exact Hx.
  - intros H [k v] HI. apply existsb_exists. exists k. split; [exact (H k v HI)|apply String.eqb_refl].
Qed.

Lemma missing_spec {A} (a : option A) : missing a = false <-> exists x, a = Some x.
Proof. destruct a; cbn; split; try discriminate; eauto. intros [x H]. discriminate H. Qed.

Lemma connected_spec i n ds cm dr sw rp pp rs ps :
  negb ((missing rp || missing pp) && (missing rs || missing ps)) = true <->
  connected (mkGpio i n ds cm dr sw rp pp rs ps).
Proof.
  unfold connected. cbn [g_reg_pru g_pin_pru g_reg_sys g_pin_sys].
  rewrite negb_true_iff, andb_false_iff, !orb_false_iff, !missing_spec. split.
  - intros [[[r Hr] [p Hp]]|[[r Hr] [p Hp]]]; [left|right]; exists r, p; auto.
  - intros [[r [p [Hr Hp]]]|[r [p [Hr Hp]]]]; [left|right]; eauto.
Qed.

Lemma top_class (c : Z) : true = true <-> True.
Proof. tauto. Qed.

Lemma gpio_spec d g : gpio_of d = Ok g <-> describes d g /\ connected g.
Proof.
  unfold gpio_of. rewrite !dget_entry. split.
  - intros H. destruct (forallb _ d) eqn:E0; [|discriminate H].
    destruct (need_id _) as [i|] eqn:E1; [|discriminate H]. cbn [bind] in H.
    destruct (need_name _) as [n|] eqn:E2; [|discriminate H]. cbn [bind] in H.
    destruct (opt_text _ (entry "description" d)) as [ds|] eqn:E3; [|discriminate H]. cbn [bind] in H.
    destruct (opt_text _ (entry "comment" d)) as [cm|] eqn:E4; [|discriminate H]. cbn [bind] in H.
    destruct (dir_of _) as [dr|] eqn:E5; [|discriminate H]. cbn [bind] in H.
    destruct (opt_text _ (entry "dir_switch" d)) as [sw|] eqn:E6; [|discriminate H]. cbn [bind] in H.
    destruct (opt_text _ (entry "reg_pru" d)) as [rp|] eqn:E7; [|discriminate H]. cbn [bind] in H.
    destruct (opt_text _ (entry "pin_pru" d)) as [pp|] eqn:E8; [|discriminate H]. cbn [bind] in H.
    destruct (opt_nat _) as [rs|] eqn:E9; [|discriminate H]. cbn [bind] in H.
    destruct (opt_text _ (entry "pin_sys" d)) as [ps|] eqn:E10; [|discriminate H]. cbn [bind] in H.
    cbn zeta in H. destruct (negb _) eqn:E11; [|discriminate H]. injection H as <-.
    split; [|apply connected_spec, E11]. constructor; cbn [g_id g_name g_description g_comment g_direction
      g_switch g_reg_pru g_pin_pru g_reg_sys g_pin_sys].
    + apply known_spec, E0.
    + apply id_spec, E1.
    + apply name_spec, E2.
    + exact (proj1 (opt_text_spec _ _ _ _ _ safe_class_spec) E3).
    + exact (proj1 (opt_text_spec _ _ _ _ _ safe_class_spec) E4).
    + apply dir_spec, E5.
    + exact (proj1 (opt_text_spec _ _ _ _ _ top_class) E6).
    + exact (proj1 (opt_text_spec _ _ _ _ _ top_class) E7).
    + exact (proj1 (opt_text_spec _ _ _ _ _ top_class) E8).
    + apply number_spec, E9.
    + exact (proj1 (opt_text_spec _ _ _ _ _ top_class) E10).
  - destruct g as [i n ds cm dr sw rp pp rs ps]. intros [[H0 H1 H2 H3 H4 H5 H6 H7 H8 H9 H10] H11].
    cbn [g_id g_name g_description g_comment g_direction g_switch g_reg_pru g_pin_pru g_reg_sys g_pin_sys] in *.
    rewrite (proj2 (known_spec d) H0), (proj2 (id_spec _ _) H1). cbn [bind].
    rewrite (proj2 (name_spec _ _) H2). cbn [bind].
    unfold NameModel.safe_str. rewrite (proj2 (opt_text_spec _ _ _ _ _ safe_class_spec) H3). cbn [bind].
    rewrite (proj2 (opt_text_spec _ _ _ _ _ safe_class_spec) H4). cbn [bind].
    rewrite (proj2 (dir_spec _ _) H5). cbn [bind]. unfold upto.
    rewrite (proj2 (opt_text_spec _ _ _ _ _ top_class) H6). cbn [bind].
    rewrite (proj2 (opt_text_spec _ _ _ _ _ top_class) H7). cbn [bind].
    rewrite (proj2 (opt_text_spec _ _ _ _ _ top_class) H8). cbn [bind].
    rewrite (proj2 (number_spec _ _) H9). cbn [bind].
    rewrite (proj2 (opt_text_spec _ _ _ _ _ top_class) H10). cbn [bind]. cbn zeta.
    rewrite (proj2 (connected_spec _ _ _ _ _ _ _ _ _ _) H11). reflexivity.
Qed.

Lemma gpio_err d e : gpio_of d = Err e -> e = ValueError.
Proof.
  unfold gpio_of. intros H. destruct (forallb _ d); [|injection H as <-; reflexivity].
  destruct (need_id _) eqn:E1; [|injection H as <-; apply (id_err _ _ E1)]. cbn [bind] in H.
  destruct (need_name _) eqn:E2; [|injection H as <-; apply (name_err _ _ E2)]. cbn [bind] in H.
  destruct (opt_text _ (dget "description" d)) eqn:E3; [|injection H as <-; apply (opt_text_err _ _ _ _ E3)]. cbn [bind] in H.
  destruct (opt_text _ (dget "comment" d)) eqn:E4; [|injection H as <-; apply (opt_text_err _ _ _ _ E4)]. cbn [bind] in H.
  destruct (dir_of _) eqn:E5; [|injection H as <-; apply (dir_err _ _ E5)]. cbn [bind] in H.
  destruct (opt_text _ (dget "dir_switch" d)) eqn:E6; [|injection H as <-; apply (opt_text_err _ _ _ _ E6)]. cbn [bind] in H.
  destruct (opt_text _ (dget "reg_pru" d)) eqn:E7; [|injection H as <-; apply (opt_text_err _ _ _ _ E7)]. cbn [bind] in H.
  destruct (opt_text _ (dget "pin_pru" d)) eqn:E8; [|injection H as <-; apply (opt_text_err _ _ _ _ E8)]. cbn [bind] in H.
  destruct (opt_nat _) eqn:E9; [|injection H as <-; apply (number_err _ _ E9)]. cbn [bind] in H.
  destruct (opt_text _ (dget "pin_sys" d)) eqn:E10; [|injection H as <-; apply (opt_text_err _ _ _ _ E10)]. cbn [bind] in H.
  cbn zeta in H. destruct (negb _); [discriminate H|injection H as <-; reflexivity].
Qed.

(** * Controllable pins *)

Lemma starts_spec p s : starts p s = true <-> exists b, s = p ++ b.
Proof.
  revert s. induction p as [|a p IH]; intros s; cbn [starts app]; [split; [exists s|]; reflexivity|].
  destruct s as [|c s]; [split; [discriminate|intros [b H]; discriminate H]|].
  rewrite andb_true_iff, Z.eqb_eq, IH. split.
  - intros [-> [b ->]]. exists b. reflexivity.
  - intros [b [= -> ->]]. split; [reflexivity|]. exists b. reflexivity.
Qed.

Lemma occurs_spec p s : occurs p s = true <-> exists a b, s = a ++ p ++ b.
Proof.
  induction s as [|c s IH]; cbn [occurs]; rewrite orb_true_iff, starts_spec.
  - split.
    + intros [[b E]|E]; [|discriminate E]. exists [], b. exact E.
    + intros [a [b E]]. left. exists b. symmetry in E. apply app_eq_nil in E. destruct E as [-> E]. now rewrite E.
  - rewrite IH. split.
    + intros [[b E]|[a [b E]]]; [exists [], b; exact E|]. exists (c :: a), b. now rewrite E.
    + intros [a [b E]]. destruct a as [|x a]; [left; exists b; exact E|].
      right. injection E as -> E. exists a, b. exact E.
Qed.

Lemma lower_letter c l : 97 <= l <= 122 -> lower_code c = l <-> In c [l - 32; l].
Proof.
  unfold lower_code. intros L. destruct ((65 <=? c) && (c <=? 90)) eqn:E; cbn [In]; lia.
Qed.

Lemma controllable_spec g : user_controllable g = true <-> target_pin g /\ drivable g.
Proof.
  unfold user_controllable. rewrite andb_true_iff, occurs_spec.
  assert (D : match g_direction g with DIn => false | _ => true end = true <-> drivable g).
  { unfold drivable. destruct (g_direction g); split; auto; try discriminate. intros [H|H]; discriminate H. }
  rewrite D. apply and_iff_compat_r. unfold target_pin. split.
  - intros [a [b E]]. apply map_eq_app in E. destruct E as [a' [r [E [Ha Hr]]]].
    apply map_eq_app in Hr. destruct Hr as [m [b' [-> [Hm Hb]]]].
    destruct m as [|w [|x [|y [|z [|]]]]]; try discriminate Hm. injection Hm as Hw Hx Hy Hz.
    apply lower_letter in Hw, Hx, Hy, Hz; try lia. exists a', b', w, x, y, z. auto.
  - intros [a [b [w [x [y [z [E [Hw [Hx [Hy Hz]]]]]]]]]].
    apply (lower_letter w 103) in Hw; [|lia]. apply (lower_letter x 112) in Hx; [|lia].
    apply (lower_letter y 105) in Hy; [|lia]. apply (lower_letter z 111) in Hz; [|lia].
    exists (map lower_code a), (map lower_code b). rewrite E, !map_app. cbn [map]. rewrite Hw, Hx, Hy, Hz. reflexivity.
Qed.

Lemma event_spec e e' : event_of e = Ok e' <->
  e' = e /\ (0 < e_delay e)%Q /\ (1 # 100000 <= e_period e)%Q /\ 1 <= e_count e <= 4096 /\
  target_pin (e_gpio e) /\ drivable (e_gpio e).
Proof.
  rewrite <- controllable_spec. unfold event_of. split.
  - destruct (Qle_bool (e_delay e) 0) eqn:E1; [discriminate|]. cbn [negb].
    destruct (Qle_bool _ (e_period e)) eqn:E2; [|discriminate].
    destruct (_ && _) eqn:E3; [|discriminate]. destruct (user_controllable _) eqn:E4; [|discriminate].
    intros [= <-]. bools. split; [reflexivity|]. split.
    { apply Qnot_le_lt. intros C. apply Qle_bool_iff in C. congruence. }
    split; [apply Qle_bool_iff, E2|]. split; [lia|reflexivity].
  - intros [-> [H1 [H2 [H3 H4]]]]. destruct (Qle_bool (e_delay e) 0) eqn:E1.
    { apply Qle_bool_iff in E1. elim (Qlt_not_le _ _ H1 E1). }
    cbn [negb]. rewrite (proj2 (Qle_bool_iff _ _) H2).
    destruct ((1 <=? e_count e) && (e_count e <=? 4096)) eqn:E3; [|lia]. rewrite H4. reflexivity.
Qed.

Lemma event_err e x : event_of e = Err x -> x = ValueError.
Proof.
  unfold event_of. destruct (negb _); [|intros [= <-]; reflexivity].
  destruct (Qle_bool _ _); [|intros [= <-]; reflexivity]. destruct (_ && _); [|intros [= <-]; reflexivity].
  destruct (user_controllable _); [discriminate|intros [= <-]; reflexivity].
Qed.

(** * The cape *)

Definition name_of (w : wrapper) : string := match dget "name" (w_params w) with Some v => str v | None => "" end.
Definition id_of (w : wrapper) : value := match dget "id" (w_params w) with Some v => v | None => none_ end.
Definition cape_pins : fixture :=
  mkFix "gpio" (map (fun w => (lower (name_of w), w_params w)) cape24)
               (map (fun w => (id_of w, w_params w)) cape24).
Definition cape : fixtures := [("gpio"%string, cape_pins)].

Lemma cape_filled : insert_all [] cape24 = Ok cape.
Proof. vm_compute. reflexivity. Qed.

Lemma get_map {K : Set} (eqb : K -> K -> bool) (f : wrapper -> K) k ws :
  (forall a b, eqb a b = true <-> a = b) ->
  (exists w, In w ws /\ f w = k /\ get eqb k (map (fun w => (f w, w_params w)) ws) = Some (w_params w)) \/
  (Forall (fun w => f w <> k) ws /\ get eqb k (map (fun w => (f w, w_params w)) ws) = None).
Proof.
  intros HE. induction ws as [|w ws IH]; [right; split; [constructor|reflexivity]|].
  cbn [map get]. destruct (eqb k (f w)) eqn:E.
  - left. exists w. apply HE in E. split; [left; reflexivity|]. split; [congruence|reflexivity].
  - assert (N : f w <> k) by (intros C; apply eq_sym, HE in C; congruence).
    destruct IH as [[x [Hx Ex]]|[Hn En]]; [left; exists x; split; [right; exact Hx|exact Ex]|].
    right. split; [constructor; assumption|exact En].
Qed.

Lemma cape_complete n w : In w cape24 ->
  inheritance (S n) cape_pins (w_params w) [] = Ok (w_params w, []) /\
  entry "name" (w_params w) = Some (VStr (name_of w)) /\ entry "id" (w_params w) = Some (id_of w) /\
  w_type w = "gpio"%string /\ exists g, gpio_of (w_params w) = Ok g /\
  (user_controllable g = true <-> In (name_of w) ["GPIO0"; "GPIO1"; "GPIO2"; "GPIO3"; "GPIO8"]%string) /\
  (user_controllable g = true <-> In (id_of w) [VInt 1000; VInt 1001; VInt 1002; VInt 1003; VInt 1008]).
Proof.
  intros H. unfold cape24 in H.
  repeat (destruct H as [H|H]; [subst w; repeat (split; [vm_compute; reflexivity|]);
    eexists; split; [vm_compute; reflexivity|];
    split; (split; [vm_compute; intros; repeat ((left; reflexivity) || right); try discriminate
                   |vm_compute; intros C; repeat (destruct C as [C|C]; [try discriminate C; try reflexivity|]); contradiction])|]).
  contradiction.
Qed.

Lemma make_name n s : gpio_make (S n) cape [("name", VStr s)]%string =
  match get String.eqb (lower s) (x_names cape_pins) with
  | Some d => let* (v, _) := inheritance (S n) cape_pins d [] in gpio_of v
  | None => Err ValueError
  end.
Proof.
  unfold gpio_make, try_completing_model, query_item.
  replace (component cape "GPIO") with (Ok cape_pins) by reflexivity.
  cbn [dget get String.eqb Ascii.eqb Bool.eqb orb value_eqb none_ negb bind query_name].
  destruct (get String.eqb (lower s) _); reflexivity.
Qed.

Lemma make_id n z : gpio_make (S n) cape [("id", VInt z)]%string =
  match get value_eqb (VInt z) (x_ids cape_pins) with
  | Some d => let* (v, _) := inheritance (S n) cape_pins d [] in gpio_of v
  | None => Err ValueError
  end.
Proof.
  unfold gpio_make, try_completing_model, query_item.
  replace (component cape "GPIO") with (Ok cape_pins) by reflexivity.
  cbn [dget get String.eqb Ascii.eqb Bool.eqb orb value_eqb none_ negb bind query_id].
  destruct (get value_eqb (VInt z) _); reflexivity.
Qed.

Lemma name_cases n s :
  (exists w g, In w cape24 /\ same_text (name_of w) s /\ entry "name" (w_params w) = Some (VStr (name_of w)) /\
     w_type w = "gpio"%string /\
     gpio_make (S n) cape [("name", VStr s)]%string = Ok g /\ gpio_of (w_params w) = Ok g /\
     (user_controllable g = true <-> In (name_of w) ["GPIO0"; "GPIO1"; "GPIO2"; "GPIO3"; "GPIO8"]%string)) \/
  (Forall (fun w => ~ same_text (name_of w) s) cape24 /\
     gpio_make (S n) cape [("name", VStr s)]%string = Err ValueError).
Proof.
  rewrite make_name.
  destruct (get_map String.eqb (fun w => lower (name_of w)) (lower s) cape24 String.eqb_eq) as [[w [Hw [E G]]]|[Hn G]].
  - left. destruct (cape_complete n w Hw) as [Hi [Hn [_ [Ht [g [Hg [Hc _]]]]]]]. exists w, g.
    split; [exact Hw|]. split; [apply same_iff, E|]. split; [exact Hn|]. split; [exact Ht|].
    split; [|split; [exact Hg|exact Hc]].
    change (get String.eqb (lower s) (x_names cape_pins) = Some (w_params w)) in G.
    rewrite G, Hi. cbn [bind]. exact Hg.
  - right. split.
    + rewrite Forall_forall in *. intros w Hw C. apply same_iff in C. exact (Hn w Hw C).
    + change (get String.eqb (lower s) (x_names cape_pins) = None) in G. rewrite G. reflexivity.
Qed.

Lemma id_cases n z :
  (exists w g, In w cape24 /\ id_of w = VInt z /\ entry "id" (w_params w) = Some (VInt z) /\
     w_type w = "gpio"%string /\
     gpio_make (S n) cape [("id", VInt z)]%string = Ok g /\ gpio_of (w_params w) = Ok g /\
     (user_controllable g = true <-> In (VInt z) [VInt 1000; VInt 1001; VInt 1002; VInt 1003; VInt 1008])) \/
  (Forall (fun w => id_of w <> VInt z) cape24 /\
     gpio_make (S n) cape [("id", VInt z)]%string = Err ValueError).
Proof.
  rewrite make_id.
  destruct (get_map value_eqb id_of (VInt z) cape24 value_eqb_spec) as [[w [Hw [E G]]]|[Hn G]].
  - left. destruct (cape_complete n w Hw) as [Hi [_ [Hid [Ht [g [Hg [_ Hc]]]]]]]. rewrite E in Hid, Hc. exists w, g.
    split; [exact Hw|]. split; [exact E|]. split; [exact Hid|]. split; [exact Ht|].
    split; [|split; [exact Hg|exact Hc]].
    change (get value_eqb (VInt z) (x_ids cape_pins) = Some (w_params w)) in G.
    rewrite G, Hi. cbn [bind]. exact Hg.
  - right. split; [exact Hn|].
    change (get value_eqb (VInt z) (x_ids cape_pins) = None) in G. rewrite G. reflexivity.
Qed.

Lemma cape_event_name n x s dl lv pd ct : insert_all [] cape24 = Ok x ->
  (exists g e, gpio_make (S n) x [("name", VStr s)]%string = Ok g /\ event_of (mkEvent dl g lv pd ct) = Ok e) <->
  (0 < dl)%Q /\ (1 # 100000 <= pd)%Q /\ 1 <= ct <= 4096 /\
  exists t, In t ["GPIO0"; "GPIO1"; "GPIO2"; "GPIO3"; "GPIO8"]%string /\ same_text t s.
Proof.
  rewrite cape_filled. intros [= <-]. split.
  - intros [g [e [Hg He]]]. apply event_spec in He. cbn [e_delay e_gpio e_period e_count] in He.
    destruct He as [_ [H1 [H2 [H3 H4]]]]. apply controllable_spec in H4.
    split; [exact H1|]. split; [exact H2|]. split; [exact H3|].
    destruct (name_cases n s) as [[w [g' [_ [E [_ [_ [G [_ C]]]]]]]]|[_ G]]; [|congruence].
    assert (g' = g) by congruence. subst g'. exists (name_of w). split; [apply C, H4|exact E].
  - intros [H1 [H2 [H3 [t [Ht E]]]]].
    destruct (name_cases n s) as [[w [g [Hw [E' [_ [_ [G [_ C]]]]]]]]|[N _]].
    + exists g, (mkEvent dl g lv pd ct). split; [exact G|]. apply event_spec. cbn [e_delay e_gpio e_period e_count].
      split; [reflexivity|]. split; [exact H1|]. split; [exact H2|]. split; [exact H3|]. apply controllable_spec, C.
      assert (EE : lower (name_of w) = lower t) by (apply same_iff in E, E'; congruence).
      assert (name_of w = t) as ->; [|exact Ht]. clear - Hw Ht EE. unfold cape24 in Hw.
      repeat (destruct Hw as [Hw|Hw]; [subst w; repeat (destruct Ht as [Ht|Ht]; [subst t; try reflexivity; discriminate EE|]); contradiction|]).
      contradiction.
    + exfalso. rewrite Forall_forall in N.
      assert (X : exists w, In w cape24 /\ name_of w = t).
      { destruct Ht as [<-|[<-|[<-|[<-|[<-|[]]]]]];
        [exists (nth 0 cape24 (mkWrap "" []))|exists (nth 1 cape24 (mkWrap "" []))|exists (nth 2 cape24 (mkWrap "" []))
        |exists (nth 3 cape24 (mkWrap "" []))|exists (nth 8 cape24 (mkWrap "" []))];
        (split; [apply nth_In; cbn; lia|reflexivity]). }
      destruct X as [w [Hw E']]. apply (N w Hw). rewrite E'. exact E.
Qed.

Lemma cape_event_id n x z dl lv pd ct : insert_all [] cape24 = Ok x ->
  (exists g e, gpio_make (S n) x [("id", VInt z)]%string = Ok g /\ event_of (mkEvent dl g lv pd ct) = Ok e) <->
  (0 < dl)%Q /\ (1 # 100000 <= pd)%Q /\ 1 <= ct <= 4096 /\ In z [1000; 1001; 1002; 1003; 1008].
Proof.
  rewrite cape_filled. intros [= <-]. split.
  - intros [g [e [Hg He]]]. apply event_spec in He. cbn [e_delay e_gpio e_period e_count] in He.
    destruct He as [_ [H1 [H2 [H3 H4]]]]. apply controllable_spec in H4.
    split; [exact H1|]. split; [exact H2|]. split; [exact H3|].
    destruct (id_cases n z) as [[w [g' [_ [_ [_ [_ [G [_ C]]]]]]]]|[_ G]]; [|congruence].
    assert (g' = g) by congruence. subst g'. apply C in H4.
    apply (in_map (fun v => match v with VInt z => z | _ => 0 end)) in H4. exact H4.
  - intros [H1 [H2 [H3 Hz]]].
    destruct (id_cases n z) as [[w [g [Hw [_ [_ [_ [G [_ C]]]]]]]]|[N _]].
    + exists g, (mkEvent dl g lv pd ct). split; [exact G|]. apply event_spec. cbn [e_delay e_gpio e_period e_count].
      split; [reflexivity|]. split; [exact H1|]. split; [exact H2|]. split; [exact H3|]. apply controllable_spec, C.
      apply (in_map VInt) in Hz. exact Hz.
    + exfalso. rewrite Forall_forall in N.
      assert (X : exists w, In w cape24 /\ id_of w = VInt z).
      { destruct Hz as [<-|[<-|[<-|[<-|[<-|[]]]]]];
        [exists (nth 0 cape24 (mkWrap "" []))|exists (nth 1 cape24 (mkWrap "" []))|exists (nth 2 cape24 (mkWrap "" []))
        |exists (nth 3 cape24 (mkWrap "" []))|exists (nth 8 cape24 (mkWrap "" []))];
        (split; [apply nth_In; cbn; lia|reflexivity]). }
      destruct X as [w [Hw E']]. exact (N w Hw E').
Qed.

(** What is asked for is what the cape has. *)
Lemma cape_pin n x k v g : insert_all [] cape24 = Ok x -> (k = "name" \/ k = "id")%string ->
  gpio_make (S n) x [(k, v)] = Ok g ->
  exists w, In w cape24 /\ describes (w_params w) g /\
    (k = "name"%string -> exists s, v = VStr s /\ named "GPIO" s w) /\
    (k = "id"%string -> with_id "GPIO" v w).
Proof.
  rewrite cape_filled. intros [= <-] K H.
  assert (T : forall w, w_type w = "gpio"%string -> entry "name" (w_params w) <> None -> of_type "GPIO" w).
  { intros w E N. split; [|exact N]. rewrite E. apply same_iff. reflexivity. }
  destruct K as [->| ->].
  - destruct v as [s|z|r].
    + destruct (name_cases n s) as [[w [g' [Hw [E [Hn [Ht [G [D _]]]]]]]]|[_ G]]; [|congruence].
      assert (g' = g) by congruence. subst g'. exists w. split; [exact Hw|]. split; [apply gpio_spec, D|].
      split; [|discriminate]. intros _. exists s. split; [reflexivity|].
      split; [apply T; [exact Ht|rewrite Hn; discriminate]|]. exists (VStr (name_of w)). split; [exact Hn|exact E].
    + discriminate H.
    + exfalso. revert H. unfold gpio_make, try_completing_model, query_item.
      cbn [dget get String.eqb Ascii.eqb Bool.eqb orb].
      destruct (value_eqb (VOther r) none_); discriminate.
  - destruct v as [s|z|r].
    + discriminate H.
    + destruct (id_cases n z) as [[w [g' [Hw [E [Hi [Ht [G [D _]]]]]]]]|[_ G]]; [|congruence].
      assert (g' = g) by congruence. subst g'. exists w. split; [exact Hw|]. split; [apply gpio_spec, D|].
      split; [discriminate|]. intros _. split; [|exact Hi]. apply T; [exact Ht|].
      destruct (cape_complete n w Hw) as [_ [Hn _]]. rewrite Hn. discriminate.
    + exfalso. revert H. unfold gpio_make, try_completing_model, query_item.
      cbn [dget get String.eqb Ascii.eqb Bool.eqb orb].
      destruct (value_eqb (VOther r) none_); discriminate.
Qed.

(** * Sets of pins *)

Lemma text_eqb_spec a b : text_eqb a b = true <-> a = b.
Proof.
  revert b. induction a as [|x a IH]; intros [|y b]; cbn [text_eqb]; try (split; congruence).
  rewrite andb_true_iff, Z.eqb_eq, IH. split; [intros [-> ->]; reflexivity|intros [= -> ->]; auto].
Qed.
Lemma opt_eqb_spec {A} (eqb : A -> A -> bool) a b : (forall x y, eqb x y = true <-> x = y) ->
  opt_eqb eqb a b = true <-> a = b.
Proof.
  intros H. destruct a as [x|], b as [y|]; cbn [opt_eqb]; try (split; congruence).
  rewrite H. split; congruence.
Qed.
Lemma dir_eqb_spec a b : dir_eqb a b = true <-> a = b.
Proof. destruct a, b; cbn; split; congruence. Qed.

Lemma gpio_eqb_spec a b : gpio_eqb a b = true <-> a = b.
Proof.
  unfold gpio_eqb. rewrite !andb_true_iff, !(opt_eqb_spec text_eqb) by apply text_eqb_spec.
  rewrite (opt_eqb_spec Z.eqb) by apply Z.eqb_eq. rewrite Z.eqb_eq, text_eqb_spec, dir_eqb_spec.
  destruct a, b; cbn. split; [|intros [= -> -> -> -> -> -> -> -> -> ->]; tauto].
  intros [[[[[[[[[-> ->] ->] ->] ->] ->] ->] ->] ->] ->]. reflexivity.
Qed.

Lemma gpios_spec es : NoDup (get_gpios es) /\ forall g, In g (get_gpios es) <-> exists e, In e es /\ e_gpio e = g.
Proof.
  induction es as [|e es [IN IH]]; cbn [get_gpios].
  - split; [constructor|]. intros g. split; [intros []|intros [e [[] _]]].
  - destruct (existsb _ _) eqn:E.
    + split; [exact IN|]. intros g. rewrite IH. split.
      * intros [x [Hx Ex]]. exists x. split; [right; exact Hx|exact Ex].
      * intros [x [[->|Hx] Ex]]; [|exists x; auto]. apply existsb_exists in E. destruct E as [y [Hy Ey]].
        apply gpio_eqb_spec in Ey. subst. apply IH, Hy.
    + split.
      * constructor; [|exact IN]. intros C. apply not_true_iff_false in E. apply E, existsb_exists.
        exists (e_gpio e). split; [exact C|apply gpio_eqb_spec; reflexivity].
      * intros g. cbn [In]. rewrite IH. split.
        -- intros [H|[x [Hx Ex]]]; [exists e; auto|exists x; auto].
        -- intros [x [[->|Hx] Ex]]; [left; exact Ex|right; exists x; auto].
Qed.

Lemma actuation_spec es es' : actuation_of es = Ok es' <-> es' = es /\ (1 <= List.length es <= 1024)%nat.
Proof.
  unfold actuation_of. destruct (_ && _) eqn:E.
  - apply andb_true_iff in E. destruct E as [E1 E2]. apply Nat.leb_le in E1, E2.
    split; [intros [= <-]; auto|intros [-> _]; reflexivity].
  - split; [discriminate|]. intros [_ [H1 H2]]. apply Nat.leb_le in H1, H2. rewrite H1, H2 in E. discriminate E.
Qed.

(** * Tracing *)

Lemma negative_spec d : given_negative d = false <-> forall z, d = Some z -> 0 <= z.
Proof.
  destruct d as [z|]; cbn [given_negative]; [|split; [discriminate|reflexivity]].
  rewrite Z.ltb_ge. split; [intros H y [= <-]; exact H|auto].
Qed.

Lemma tracing_spec t t' : tracing_of t = Ok t' <->
  t' = t /\ 0 < t_mask t < 1024 /\ 2400 <= t_baud t <= 921600 /\ 0 <= t_delay t /\
  (forall d, t_duration t = Some d -> 0 <= d) /\
  (forall l, t_gpios t = Some l -> (1 <= List.length l <= 10)%nat).
Proof.
  rewrite <- negative_spec. change (2 ^ 10) with 1024. unfold tracing_of. split.
  - destruct ((0 <=? t_mask t) && _) eqn:E1; [|discriminate].
    destruct (match t_gpios t with Some l => _ | None => true end) eqn:E2; [|discriminate].
    destruct ((2400 <=? t_baud t) && _) eqn:E3; [|discriminate].
    destruct (t_mask t =? 0) eqn:E4; [discriminate|]. cbn [negb].
    cbn [given_negative]. destruct (t_delay t <? 0) eqn:E5; [discriminate|]. cbn [negb].
    destruct (given_negative (t_duration t)) eqn:E6; [discriminate|]. cbn [negb].
    intros [= <-]. split; [reflexivity|]. change (2 ^ 10) with 1024 in E1. split; [lia|]. split; [lia|]. split; [lia|].
    split; [reflexivity|]. intros l El. rewrite El in E2. apply andb_true_iff in E2. destruct E2 as [L1 L2].
    apply Nat.leb_le in L1, L2. split; assumption.
  - intros [-> [H1 [H2 [H3 [H4 H5]]]]]. change (2 ^ 10) with 1024.
    replace ((0 <=? t_mask t) && (t_mask t <? 1024)) with true by lia.
    assert (X : match t_gpios t with Some l => Nat.leb 1 (List.length l) && Nat.leb (List.length l) 10 | None => true end = true).
    { destruct (t_gpios t) as [l|]; [|reflexivity]. destruct (H5 l eq_refl) as [L1 L2].
      apply andb_true_iff. split; apply Nat.leb_le; assumption. }
    rewrite X. replace ((2400 <=? t_baud t) && (t_baud t <=? 921600)) with true by lia.
    replace (t_mask t =? 0) with false by lia. cbn [negb given_negative].
    replace (t_delay t <? 0) with false by lia. cbn [negb]. rewrite H4. reflexivity.
Qed.

Lemma tracing_err t e : tracing_of t = Err e -> e = ValueError.
Proof.
  unfold tracing_of. intros H.
  repeat match type of H with (if ?c then _ else _) = _ => destruct c; [|injection H as <-; reflexivity] end.
  discriminate H.
Qed.

Lemma power_spec p p' : power_of p = Ok p' <->
  p' = p /\ 10 <= p_rate p <= 100000 /\ 0 <= p_delay p /\ (forall d, p_duration p = Some d -> 0 <= d) /\
  p_calculate p = false /\ ~ (p_discard_current p = true /\ p_discard_voltage p = true).
Proof.
  rewrite <- negative_spec. unfold power_of. split.
  - destruct ((10 <=? p_rate p) && _) eqn:E1; [|discriminate].
    cbn [given_negative]. destruct (p_delay p <? 0) eqn:E5; [discriminate|]. cbn [negb].
    destruct (given_negative (p_duration p)) eqn:E6; [discriminate|]. cbn [negb].
    destruct (negb (_ && (p_discard_current p && p_discard_voltage p))) eqn:E7; [|discriminate].
    destruct (p_calculate p); [discriminate|]. cbn [negb andb] in *.
    intros [= <-]. split; [reflexivity|]. split; [lia|]. split; [lia|]. split; [reflexivity|]. split; [reflexivity|].
    intros [C1 C2]. rewrite C1, C2 in E7. discriminate E7.
  - intros [-> [H1 [H2 [H3 [H4 H5]]]]]. replace ((10 <=? p_rate p) && (p_rate p <=? 100000)) with true by lia.
    cbn [given_negative]. replace (p_delay p <? 0) with false by lia. rewrite H3, H4. cbn [negb andb].
    destruct (p_discard_current p), (p_discard_voltage p); cbn [negb andb]; try reflexivity. elim H5; auto.
Qed.

Lemma power_err p e : power_of p = Err e -> e = ValueError \/ (e = NotImplementedError /\ p_calculate p = true).
Proof.
  unfold power_of. intros H.
  repeat match type of H with (if ?c then _ else _) = _ =>
    destruct c eqn:?; [|injection H as <-; try (left; reflexivity)] end; [discriminate H|].
  right. split; [reflexivity|]. destruct (p_calculate p); [reflexivity|discriminate].
Qed.

Lemma power_calculate p : p_calculate p = true -> 10 <= p_rate p <= 100000 -> 0 <= p_delay p ->
  (forall d, p_duration p = Some d -> 0 <= d) -> power_of p = Err NotImplementedError.
Proof.
  rewrite <- negative_spec. intros H1 H2 H3 H4. unfold power_of.
  replace ((10 <=? p_rate p) && (p_rate p <=? 100000)) with true by lia.
  cbn [given_negative]. replace (p_delay p <? 0) with false by lia. rewrite H4, H1. reflexivity.
Qed.

Lemma mask_bit t t' : tracing_of t = Ok t' -> exists k, 0 <= k <= 9 /\ Z.testbit (t_mask t') k = true.
Proof.
  intros H. apply tracing_spec in H. destruct H as [-> [[H1 H2] _]]. exists (Z.log2 (t_mask t)).
  split; [|apply Z.bit_log2; exact H1]. split; [apply Z.log2_nonneg|].
  assert (Z.log2 (t_mask t) < 10) by (apply Z.log2_lt_pow2; [exact H1|exact H2]). lia.
Qed.
