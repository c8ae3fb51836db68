(** Proofs about DumpModel: what is printed can be read in one way only. *)
From Coq Require Import ZArith QArith Qpower Qfield String Ascii List Bool DecimalString Decimal DecimalZ Lia.
From Verif Require Import PyBase DumpModel DumpSpec.
Import ListNotations.
Open Scope Z_scope.

Lemma text_eqb_spec a : forall b, text_eqb a b = true <-> a = b.
Proof.
  induction a as [|x a IH]; intros [|y b]; cbn; try (split; congruence).
  rewrite andb_true_iff, Ascii.eqb_eq, IH. split; [intros [-> ->]|intros [= -> ->]]; auto.
Qed.
Lemma text_eqb_refl a : text_eqb a a = true.
Proof. apply text_eqb_spec. reflexivity. Qed.

(** * Reading up to a character that does not belong to the text *)
Definition stops (P : ascii -> bool) (r : text) : Prop := match r with [] => True | c :: _ => P c = false end.
Lemma span_eq (P : ascii -> bool) : forall a b r1 r2, forallb P a = true -> forallb P b = true -> stops P r1 -> stops P r2 ->
  a ++ r1 = b ++ r2 -> a = b /\ r1 = r2.
Proof.
  induction a as [|x a IH]; intros [|y b] r1 r2 Ha Hb S1 S2 E; cbn in *; auto.
  - subst r1. apply andb_prop in Hb. cbn in S1. destruct Hb. congruence.
  - subst r2. apply andb_prop in Ha. cbn in S2. destruct Ha. congruence.
  - injection E as -> E. apply andb_prop in Ha. apply andb_prop in Hb. destruct (IH b r1 r2) as [-> ->]; tauto.
Qed.

(** * Numbers *)
Definition digit (c : ascii) : bool := (48 <=? N_of_ascii c)%N && (N_of_ascii c <=? 57)%N.
Definition numeric (c : ascii) : bool := digit c || existsb (Ascii.eqb c) ["-"; "+"; "."; "e"]%char.

Lemma tx_inj a b : tx a = tx b -> a = b.
Proof. intros E. rewrite <- (string_of_list_ascii_of_string a), <- (string_of_list_ascii_of_string b). unfold tx in E. rewrite E. reflexivity. Qed.
Lemma show_uint_digits u : forallb digit (show_uint u) = true.
Proof. unfold show_uint. induction u; cbn; auto. Qed.
Lemma show_uint_inj u v : show_uint u = show_uint v -> u = v.
Proof.
  intros E. apply tx_inj in E. pose proof (NilEmpty.usu u) as A. pose proof (NilEmpty.usu v) as B. rewrite E in A. congruence.
Qed.
Lemma to_int_nonempty z : Z.to_int z <> Pos Nil /\ Z.to_int z <> Neg Nil.
Proof.
  split; intros E; pose proof (DecimalZ.of_to z) as O; rewrite E in O; cbn in O; subst z; discriminate E.
Qed.
Lemma show_int_inj a b : show_int a = show_int b -> a = b.
Proof.
  intros E. apply tx_inj in E. destruct (to_int_nonempty a) as [A1 A2]. destruct (to_int_nonempty b) as [B1 B2].
  pose proof (NilZero.isi _ A1 A2) as A. pose proof (NilZero.isi _ B1 B2) as B. rewrite E in A. rewrite A in B. injection B as B.
  rewrite <- (DecimalZ.of_to a), <- (DecimalZ.of_to b), B. reflexivity.
Qed.
Lemma nilzero_digits u : forallb digit (tx (NilZero.string_of_uint u)) = true.
Proof. destruct u; try (exact (show_uint_digits _)). reflexivity. Qed.
Lemma nilzero_nonempty u : exists c r, tx (NilZero.string_of_uint u) = c :: r /\ digit c = true.
Proof. destruct u; cbn; eexists; eexists; (split; [reflexivity|reflexivity]). Qed.

(** A number starts with a digit or a minus, all of it belongs to numbers. *)
Lemma show_int_head z : exists c r, show_int z = c :: r /\ (digit c = true \/ c = "-"%char).
Proof.
  unfold show_int. destruct (Z.to_int z) as [u|u]; cbn [NilZero.string_of_int].
  - destruct (nilzero_nonempty u) as [c [r [E D]]]. exists c, r. auto.
  - eexists; eexists; split; [reflexivity|auto].
Qed.
Lemma digit_numeric c : digit c = true -> numeric c = true.
Proof. intros D. unfold numeric. rewrite D. reflexivity. Qed.
Lemma digits_numeric s : forallb digit s = true -> forallb numeric s = true.
Proof. rewrite !forallb_forall. intros H c I. apply digit_numeric, H, I. Qed.
Lemma show_int_numeric z : forallb numeric (show_int z) = true.
Proof.
  unfold show_int. destruct (Z.to_int z) as [u|u]; cbn [NilZero.string_of_int].
  - apply digits_numeric, nilzero_digits.
  - change (forallb numeric ("-"%char :: tx (NilZero.string_of_uint u)) = true). cbn [forallb]. rewrite (digits_numeric _ (nilzero_digits u)). reflexivity.
Qed.
Lemma show_nat_digits n : forallb digit (show_int (Z.of_N n)) = true.
Proof. unfold show_int. destruct n as [|p]; cbn [Z.of_N Z.to_int NilZero.string_of_int]; [reflexivity|apply nilzero_digits]. Qed.
Lemma show_end_numeric e : forallb numeric (show_end e) = true.
Proof.
  assert (X : forall n u, forallb numeric (show_exp n u) = true).
  { intros n u. unfold show_exp. rewrite forallb_app, (digits_numeric _ (show_uint_digits u)). destruct n; reflexivity. }
  destruct e as [u|n e|u n e]; cbn [show_end]; rewrite ?forallb_app, ?X, ?(digits_numeric _ (show_uint_digits _)); reflexivity.
Qed.
Lemma show_lit_numeric f : forallb numeric (show_lit f) = true.
Proof.
  unfold show_lit. rewrite !forallb_app, (show_int_numeric _), show_end_numeric. destruct (l_neg f); reflexivity.
Qed.

Lemma show_exp_inj n u m v : show_exp n u = show_exp m v -> n = m /\ u = v.
Proof. unfold show_exp. destruct n, m; cbn; intros E; try discriminate E; injection E as E; auto using show_uint_inj. Qed.
Lemma show_exp_stops n u : stops digit (show_exp n u).
Proof. destruct n; reflexivity. Qed.
Lemma show_end_stops e : stops digit (show_end e).
Proof. destruct e as [u|[] e|u n e]; reflexivity. Qed.
Lemma show_end_inj a b : show_end a = show_end b -> a = b.
Proof.
  assert (S : forall u n e, show_uint u = show_uint n ++ e -> stops digit e -> u = n /\ e = []).
  { intros u n e E Hs. destruct (span_eq digit (show_uint u) (show_uint n) [] e (show_uint_digits u) (show_uint_digits n) I Hs) as [A B]; [rewrite app_nil_r; exact E|].
    split; [exact (show_uint_inj _ _ A)|congruence]. }
  assert (X : forall n e, show_exp n e <> []) by (intros [] e; discriminate).
  destruct a as [u|n e|u n e], b as [v|m f|v m f]; cbn [show_end]; intros E.
  - cbn in E. injection E as E. rewrite (show_uint_inj _ _ E). reflexivity.
  - destruct m; discriminate E.
  - cbn in E. injection E as E. destruct (S _ _ _ E (show_exp_stops _ _)) as [_ B]. destruct (X _ _ B).
  - destruct n; discriminate E.
  - destruct (show_exp_inj _ _ _ _ E) as [-> ->]. reflexivity.
  - destruct n; discriminate E.
  - cbn in E. injection E as E. symmetry in E. destruct (S _ _ _ E (show_exp_stops _ _)) as [_ B]. destruct (X _ _ B).
  - destruct m; discriminate E.
  - cbn in E. injection E as E. destruct (span_eq digit _ _ _ _ (show_uint_digits u) (show_uint_digits v) (show_exp_stops n e) (show_exp_stops m f) E) as [A B].
    rewrite (show_uint_inj _ _ A). destruct (show_exp_inj _ _ _ _ B) as [-> ->]. reflexivity.
Qed.
Lemma show_nat_head n : exists c r, show_int (Z.of_N n) = c :: r /\ digit c = true.
Proof.
  pose proof (show_nat_digits n) as D. destruct (show_int_head (Z.of_N n)) as [c [r [E _]]]. rewrite E in D. cbn in D. apply andb_prop in D.
  exists c, r. tauto.
Qed.
Lemma show_lit_inj a b : show_lit a = show_lit b -> a = b.
Proof.
  destruct a as [s n e], b as [t m f]. unfold show_lit. cbn [l_neg l_int l_end]. intros E.
  destruct (show_nat_head n) as [c [r [En Dn]]]. destruct (show_nat_head m) as [c' [r' [Em Dm]]].
  assert (T : s = t /\ show_int (Z.of_N n) ++ show_end e = show_int (Z.of_N m) ++ show_end f).
  { destruct s, t; cbn in E; auto.
    - injection E as E. auto.
    - rewrite Em in E. cbn in E. injection E as E _. subst c'. discriminate Dm.
    - rewrite En in E. cbn in E. injection E as E _. subst c. discriminate Dn. }
  destruct T as [-> T].
  destruct (span_eq digit _ _ _ _ (show_nat_digits n) (show_nat_digits m) (show_end_stops e) (show_end_stops f) T) as [A B].
  apply show_int_inj in A. apply N2Z.inj in A. apply show_end_inj in B. congruence.
Qed.

(** A float is never printed as an integer. *)
Definition marked (s : text) : bool := existsb (fun c => Ascii.eqb c "." || Ascii.eqb c "e") s.
Lemma digits_unmarked s : forallb digit s = true -> marked s = false.
Proof.
  induction s as [|c s IH]; [reflexivity|]. cbn [forallb marked existsb]. intros H. apply andb_prop in H. destruct H as [D H].
  fold (marked s). rewrite (IH H), orb_false_r. destruct (Ascii.eqb_spec c "."); [subst; discriminate|]. destruct (Ascii.eqb_spec c "e"); [subst; discriminate|reflexivity].
Qed.
Lemma show_int_unmarked z : marked (show_int z) = false.
Proof.
  unfold show_int. destruct (Z.to_int z) as [u|u]; cbn [NilZero.string_of_int]; [apply digits_unmarked, nilzero_digits|].
  change (marked ("-"%char :: tx (NilZero.string_of_uint u)) = false). cbn [marked existsb]. fold (marked (tx (NilZero.string_of_uint u))). rewrite (digits_unmarked _ (nilzero_digits u)). reflexivity.
Qed.
Lemma show_lit_marked f : marked (show_lit f) = true.
Proof. unfold show_lit, marked. rewrite !existsb_app. destruct (l_end f) as [u|[] e|u n e]; cbn; rewrite !orb_true_r; reflexivity. Qed.
Lemma int_not_lit z f : show_int z <> show_lit f.
Proof. intros E. pose proof (show_lit_marked f) as M. rewrite <- E, show_int_unmarked in M. discriminate. Qed.

(** * Texts *)
Definition quote (q : ascii) : Prop := q = squote \/ q = dquote.
Lemma quote_of_quote s : quote (quote_of s).
Proof. unfold quote_of, quote. destruct (_ && _); auto. Qed.

(** Reading one character back. *)
Definition unhex (c : ascii) : N := let n := N_of_ascii c in if (n <=? 57)%N then (n - 48)%N else (n - 87)%N.
Definition unesc (s : text) : option (ascii * text) :=
  match s with
  | [] => None
  | c :: s' =>
    if Ascii.eqb c backslash then
      match s' with
      | [] => None
      | d :: s'' =>
        if Ascii.eqb d "t" then Some ("009"%char, s'')
        else if Ascii.eqb d "n" then Some ("010"%char, s'')
        else if Ascii.eqb d "r" then Some ("013"%char, s'')
        else if Ascii.eqb d "x" then
          match s'' with h :: l :: s3 => Some (ascii_of_N (16 * unhex h + unhex l), s3) | _ => None end
        else Some (d, s'')
      end
    else Some (c, s')
  end.
Lemma unesc_esc q c s : quote q -> unesc (esc q c ++ s) = Some (c, s).
Proof. intros [-> | ->]; destruct c as [[] [] [] [] [] [] [] []]; reflexivity. Qed.
Lemma esc_head q c : quote q -> exists d r, esc q c = d :: r /\ d <> q.
Proof.
  intros Q. unfold esc. destruct (Ascii.eqb_spec c backslash); [eexists; eexists; split; [reflexivity|destruct Q as [-> | ->]; discriminate]|].
  destruct (Ascii.eqb_spec c q); [eexists; eexists; split; [reflexivity|destruct Q as [-> | ->]; discriminate]|].
  repeat (match goal with |- context [if ?b then _ else _] => destruct b end);
    try (eexists; eexists; split; [reflexivity|destruct Q as [-> | ->]; discriminate]).
  eexists; eexists; split; [reflexivity|assumption].
Qed.
Lemma body_read q : quote q -> forall s t r1 r2, flat_map (esc q) s ++ q :: r1 = flat_map (esc q) t ++ q :: r2 -> s = t /\ r1 = r2.
Proof.
  intros Q. induction s as [|c s IH]; intros [|d t] r1 r2 E; cbn [flat_map app] in E.
  - injection E as ->. auto.
  - destruct (esc_head q d Q) as [h [x [Eh N]]]. rewrite Eh in E. cbn in E. injection E as E _. congruence.
  - destruct (esc_head q c Q) as [h [x [Eh N]]]. rewrite Eh in E. cbn in E. injection E as E _. congruence.
  - rewrite <- !app_assoc in E. assert (U := f_equal unesc E). rewrite !(unesc_esc q _ _ Q) in U. injection U as -> U.
    destruct (IH t r1 r2 U) as [-> ->]. auto.
Qed.
Lemma repr_str_read s t r1 r2 : repr_str s ++ r1 = repr_str t ++ r2 -> s = t /\ r1 = r2.
Proof.
  unfold repr_str. cbv zeta. cbn [app]. intros E. injection E as Q E. rewrite <- Q in E. rewrite <- !app_assoc in E. cbn [app] in E.
  exact (body_read _ (quote_of_quote s) _ _ _ _ E).
Qed.
Lemma repr_str_head s : exists q r, repr_str s = q :: r /\ quote q.
Proof. unfold repr_str. eexists; eexists; split; [reflexivity|apply quote_of_quote]. Qed.

(** * Sequences up to a bracket *)
Definition delim (r : text) : Prop :=
  match r with [] => True | c :: _ => c = ","%char \/ c = "]"%char \/ c = "}"%char \/ c = ")"%char end.
Definition bracket (c : ascii) : Prop := c = "]"%char \/ c = "}"%char \/ c = ")"%char.
Lemma delim_bracket c r : bracket c -> delim (c :: r).
Proof. unfold bracket, delim. tauto. Qed.
Lemma delim_comma r : delim (tx ", " ++ r).
Proof. cbn. auto. Qed.

Section Seq.
Variable A : Type.
Variable ok : A -> Prop.
Variable show : A -> text.
Variable c : ascii.
Hypothesis Hc : bracket c.
Hypothesis head : forall x, ok x -> exists d r, show x = d :: r /\ d <> c.
Definition reads (x : A) : Prop := forall y r1 r2, ok y -> delim r1 -> delim r2 -> show x ++ r1 = show y ++ r2 -> x = y /\ r1 = r2.
Lemma rest_delim l r : delim (rest [c] l ++ r).
Proof. destruct l; cbn [rest app]; [apply delim_bracket, Hc|]. apply delim_comma. Qed.
Lemma rest_read : forall l m r1 r2, Forall ok m -> Forall reads l -> rest [c] (map show l) ++ r1 = rest [c] (map show m) ++ r2 -> l = m /\ r1 = r2.
Proof.
  induction l as [|x l IH]; intros [|y m] r1 r2 K F E; cbn [map rest app] in E.
  - injection E as ->. auto.
  - cbn in E. injection E as E _. destruct Hc as [-> |[-> | ->]]; discriminate.
  - cbn in E. injection E as E _. destruct Hc as [-> |[-> | ->]]; discriminate.
  - inversion F as [|? ? Fx Fl]; subst. inversion K as [|? ? Ky Km]; subst. cbn in E. injection E as E. rewrite <- !app_assoc in E.
    destruct (Fx y _ _ Ky (rest_delim _ _) (rest_delim _ _) E) as [-> E']. destruct (IH m r1 r2 Km Fl E') as [-> ->]. auto.
Qed.
Lemma seq_read l m r1 r2 : Forall ok l -> Forall ok m -> Forall reads l -> seq_ [c] (map show l) ++ r1 = seq_ [c] (map show m) ++ r2 -> l = m /\ r1 = r2.
Proof.
  intros Kl Km F E. destruct l as [|x l], m as [|y m]; cbn [map seq_] in E.
  - injection E as ->. auto.
  - destruct (head y (Forall_inv Km)) as [d [r [Ed N]]]. rewrite Ed in E. cbn in E. injection E as E _. congruence.
  - destruct (head x (Forall_inv Kl)) as [d [r [Ed N]]]. rewrite Ed in E. cbn in E. injection E as E _. congruence.
  - rewrite <- !app_assoc in E.
    destruct (Forall_inv F y _ _ (Forall_inv Km) (rest_delim _ _) (rest_delim _ _) E) as [-> E'].
    destruct (rest_read l m r1 r2 (Forall_inv_tail Km) (Forall_inv_tail F) E') as [-> ->]. auto.
Qed.
End Seq.

(** * Moments and durations *)
Definition clean (c : ascii) : bool := negb (Ascii.eqb c "," || Ascii.eqb c ")" || Ascii.eqb c "]" || Ascii.eqb c "}").
Definition arg (s : text) : Prop := s <> [] /\ forallb clean s = true.
Lemma delim_stops r : delim r -> stops clean r.
Proof. destruct r as [|c r]; cbn; [auto|]. intros [-> |[-> |[-> | ->]]]; reflexivity. Qed.
Lemma arg_read s t r1 r2 : arg s -> arg t -> delim r1 -> delim r2 -> s ++ r1 = t ++ r2 -> s = t /\ r1 = r2.
Proof. intros [_ Ks] [_ Kt] D1 D2. apply span_eq with clean; auto using delim_stops. Qed.
Lemma args_read l m r1 r2 : Forall arg l -> Forall arg m -> seq_ [")"%char] l ++ r1 = seq_ [")"%char] m ++ r2 -> l = m /\ r1 = r2.
Proof.
  intros Kl Km E. rewrite <- (map_id l), <- (map_id m) in E.
  apply (seq_read text arg (fun s => s) ")"%char) in E; auto.
  - unfold bracket. auto.
  - intros x [N K]. destruct x as [|d x]; [congruence|]. exists d, x. split; [reflexivity|]. intros ->. discriminate K.
  - apply Forall_forall. intros x I y q1 q2 Ky D1 D2. apply arg_read; auto. rewrite Forall_forall in Kl. auto.
Qed.
Lemma numeric_clean s : forallb numeric s = true -> forallb clean s = true.
Proof.
  rewrite !forallb_forall. intros H c I. specialize (H c I). unfold clean.
  repeat (match goal with |- context [Ascii.eqb c ?d] => destruct (Ascii.eqb_spec c d); [subst; discriminate H|] end). reflexivity.
Qed.
Lemma show_int_arg z : arg (show_int z).
Proof.
  split; [|apply numeric_clean, show_int_numeric]. destruct (show_int_head z) as [c [r [E _]]]. rewrite E. discriminate.
Qed.
Lemma app_arg s z : forallb clean s = true -> arg (s ++ show_int z).
Proof.
  intros K. destruct (show_int_arg z) as [N C]. split; [destruct s; [exact N|discriminate]|]. rewrite forallb_app, K, C. reflexivity.
Qed.
Lemma moment_args_ok d : Forall arg (moment_args d).
Proof.
  unfold moment_args. apply Forall_app. split.
  - apply Forall_forall. intros x I. apply in_map_iff in I. destruct I as [z [<- _]]. apply show_int_arg.
  - destruct (d_utc d); constructor; [|constructor]. split; [discriminate|reflexivity].
Qed.
Lemma delta_args_ok t : Forall arg (delta_args t).
Proof.
  unfold delta_args. destruct (t_days t =? 0), (t_seconds t =? 0), (t_micros t =? 0); cbn [app];
    repeat (apply Forall_cons || apply Forall_nil); try (apply app_arg; reflexivity). split; [discriminate|reflexivity].
Qed.
Lemma map_inj {A B} (f : A -> B) : (forall x y, f x = f y -> x = y) -> forall l m, map f l = map f m -> l = m.
Proof.
  intros H. induction l as [|x l IH]; intros [|y m] E; cbn in E; try discriminate; [reflexivity|]. injection E as E1 E2.
  rewrite (H _ _ E1), (IH _ E2). reflexivity.
Qed.
Lemma moment_args_inj d e : moment_args d = moment_args e -> d = e.
Proof.
  destruct d as [y mo da h mi s u z], e as [y' mo' da' h' mi' s' u' z']. unfold moment_args. cbn [d_year d_month d_day d_hour d_minute d_second d_micro d_utc]. intros E.
  assert (T : forall l, ~ In (tx "tzinfo=datetime.timezone.utc") (map show_int l)).
  { intros l I. apply in_map_iff in I. destruct I as [x [Ex _]]. destruct (show_int_head x) as [c [r [Ec [D|D]]]]; rewrite Ec in Ex; injection Ex as Ex _; subst c; discriminate D. }
  assert (L : z = z' /\ [y; mo; da; h; mi] ++ (if (s =? 0) && (u =? 0) then [] else [s]) ++ (if u =? 0 then [] else [u])
              = [y'; mo'; da'; h'; mi'] ++ (if (s' =? 0) && (u' =? 0) then [] else [s']) ++ (if u' =? 0 then [] else [u'])).
  { destruct z, z'.
    - apply app_inj_tail in E. destruct E as [E _]. split; [reflexivity|]. exact (map_inj _ show_int_inj _ _ E).
    - rewrite app_nil_r in E. exfalso. apply (T ([y'; mo'; da'; h'; mi'] ++ (if (s' =? 0) && (u' =? 0) then [] else [s']) ++ (if u' =? 0 then [] else [u']))).
      rewrite <- E. apply in_or_app. right. left. reflexivity.
    - rewrite app_nil_r in E. exfalso. apply (T ([y; mo; da; h; mi] ++ (if (s =? 0) && (u =? 0) then [] else [s]) ++ (if u =? 0 then [] else [u]))).
      rewrite E. apply in_or_app. right. left. reflexivity.
    - rewrite !app_nil_r in E. split; [reflexivity|]. exact (map_inj _ show_int_inj _ _ E). }
  destruct L as [-> L].
  destruct (Z.eqb_spec s 0), (Z.eqb_spec u 0), (Z.eqb_spec s' 0), (Z.eqb_spec u' 0); cbn in L; try discriminate L; injection L; intros; subst; congruence.
Qed.
Lemma delta_args_inj d e : delta_args d = delta_args e -> d = e.
Proof.
  destruct d as [a b c], e as [a' b' c']. unfold delta_args. cbn [t_days t_seconds t_micros]. intros E.
  destruct (Z.eqb_spec a 0), (Z.eqb_spec b 0), (Z.eqb_spec c 0), (Z.eqb_spec a' 0), (Z.eqb_spec b' 0), (Z.eqb_spec c' 0);
    unfold tx in E; cbn [list_ascii_of_string app] in E; try discriminate E; try (injection E; intros); subst;
    repeat (match goal with H : show_int _ = show_int _ |- _ => apply show_int_inj in H end); subst; reflexivity.
Qed.

(** * Values *)
Section Ind.
Variable P : value -> Prop.
Hypothesis Ha : forall a, P (VAtom a).
Hypothesis Hl : forall l, Forall P l -> P (VList l).
Hypothesis Hd : forall d, Forall (fun e => P (snd e)) d -> P (VDict d).
Fixpoint value_ind2 (v : value) : P v :=
  match v with
  | VAtom a => Ha a
  | VList l => Hl l ((fix go (l : list value) : Forall P l := match l with [] => Forall_nil _ | x :: l' => Forall_cons x (value_ind2 x) (go l') end) l)
  | VDict d => Hd d ((fix go (d : list (text * value)) : Forall (fun e => P (snd e)) d := match d with [] => Forall_nil _ | x :: d' => Forall_cons x (value_ind2 (snd x)) (go d') end) d)
  end.
End Ind.

(** The first character tells the kind of value. *)
Inductive kind := KNone | KBool | KNum | KStr | KPath | KUuid | KTime | KList | KDict.
Definition kind_of (v : value) : kind :=
  match v with
  | VAtom ANone => KNone | VAtom (ABool _) => KBool | VAtom (AInt _) | VAtom (AFloat _) => KNum | VAtom (AStr _) => KStr
  | VAtom (APath _) => KPath | VAtom (AUuid _) => KUuid | VAtom (AMoment _) | VAtom (ADelta _) => KTime
  | VList _ => KList | VDict _ => KDict
  end.
Definition kind_char (c : ascii) : option kind :=
  if Ascii.eqb c "N" then Some KNone
  else if Ascii.eqb c "T" || Ascii.eqb c "F" then Some KBool
  else if digit c || Ascii.eqb c "-" then Some KNum
  else if Ascii.eqb c squote || Ascii.eqb c dquote then Some KStr
  else if Ascii.eqb c "P" then Some KPath
  else if Ascii.eqb c "U" then Some KUuid
  else if Ascii.eqb c "d" then Some KTime
  else if Ascii.eqb c "[" then Some KList
  else if Ascii.eqb c "{" then Some KDict else None.
Lemma kind_num c : digit c = true \/ c = "-"%char -> kind_char c = Some KNum.
Proof.
  intros H. unfold kind_char.
  destruct (Ascii.eqb_spec c "N"); [subst; destruct H; discriminate|].
  destruct (Ascii.eqb_spec c "T"); [subst; destruct H; discriminate|]. destruct (Ascii.eqb_spec c "F"); [subst; destruct H; discriminate|].
  cbn [orb]. destruct H as [-> | ->]; [reflexivity|]. reflexivity.
Qed.
Lemma kind_head v : exists c r, repr v = c :: r /\ kind_char c = Some (kind_of v).
Proof.
  destruct v as [a|l|d]; [|eexists; eexists; split; reflexivity..].
  destruct a as [|[]|z|f|s|p|u|d|t]; cbn [repr repr_atom kind_of]; try (eexists; eexists; split; reflexivity).
  - destruct (show_int_head z) as [c [r [E D]]]. exists c, r. split; [exact E|apply kind_num, D].
  - unfold show_lit. destruct (show_nat_head (l_int f)) as [c [r [E D]]]. destruct (l_neg f).
    + eexists; eexists; split; reflexivity.
    + rewrite E. cbn [app]. eexists; eexists; split; [reflexivity|]. apply kind_num. auto.
  - destruct (repr_str_head s) as [q [r [E Q]]]. exists q, r. split; [exact E|]. destruct Q as [-> | ->]; reflexivity.
Qed.
Lemma kind_not_bracket c k : kind_char c = Some k -> ~ bracket c.
Proof. intros H [-> |[-> | ->]]; discriminate H. Qed.

Definition readable (v : value) : Prop := forall w r1 r2, delim r1 -> delim r2 -> repr v ++ r1 = repr w ++ r2 -> v = w /\ r1 = r2.
Lemma delim_numeric r : delim r -> stops numeric r.
Proof. destruct r as [|c r]; cbn; [auto|]. intros [-> |[-> |[-> | ->]]]; reflexivity. Qed.
Lemma num_read a b r1 r2 : forallb numeric a = true -> forallb numeric b = true -> delim r1 -> delim r2 -> a ++ r1 = b ++ r2 -> a = b /\ r1 = r2.
Proof. intros. apply span_eq with numeric; auto using delim_numeric. Qed.

Lemma same_kind v w r1 r2 : repr v ++ r1 = repr w ++ r2 -> kind_of v = kind_of w.
Proof.
  intros E. destruct (kind_head v) as [c [r [Ec Kc]]]. destruct (kind_head w) as [d [s [Ed Kd]]]. rewrite Ec, Ed in E. cbn in E. injection E as -> _. congruence.
Qed.
Lemma atom_read a : readable (VAtom a).
Proof.
  intros w r1 r2 D1 D2 E. pose proof (same_kind _ _ _ _ E) as K.
  destruct a as [|b|z|f|s|p|u|d|t], w as [[|b'|z'|f'|s'|p'|u'|d'|t']|l'|e']; try discriminate K; clear K; cbn [repr repr_atom] in E.
  - apply app_inv_head in E. auto.
  - destruct b, b'; cbn in E; try discriminate E; injection E as E; auto.
  - destruct (num_read _ _ _ _ (show_int_numeric z) (show_int_numeric z') D1 D2 E) as [A B]. rewrite (show_int_inj _ _ A). auto.
  - destruct (num_read _ _ _ _ (show_int_numeric z) (show_lit_numeric f') D1 D2 E) as [A B]. destruct (int_not_lit _ _ A).
  - destruct (num_read _ _ _ _ (show_lit_numeric f) (show_int_numeric z') D1 D2 E) as [A B]. symmetry in A. destruct (int_not_lit _ _ A).
  - destruct (num_read _ _ _ _ (show_lit_numeric f) (show_lit_numeric f') D1 D2 E) as [A B]. rewrite (show_lit_inj _ _ A). auto.
  - destruct (repr_str_read _ _ _ _ E) as [-> ->]. auto.
  - rewrite <- !app_assoc in E. apply app_inv_head in E. destruct (repr_str_read _ _ _ _ E) as [-> B]. apply app_inv_head in B. auto.
  - rewrite <- !app_assoc in E. apply app_inv_head in E. destruct (repr_str_read _ _ _ _ E) as [-> B]. apply app_inv_head in B. auto.
  - rewrite <- !app_assoc in E. apply app_inv_head in E. destruct (args_read _ _ _ _ (moment_args_ok d) (moment_args_ok d') E) as [A B]. rewrite (moment_args_inj _ _ A). auto.
  - cbn in E. discriminate E.
  - cbn in E. discriminate E.
  - rewrite <- !app_assoc in E. apply app_inv_head in E. destruct (args_read _ _ _ _ (delta_args_ok t) (delta_args_ok t') E) as [A B]. rewrite (delta_args_inj _ _ A). auto.
Qed.
Definition entry (e : text * value) : text := repr_str (fst e) ++ tx ": " ++ repr (snd e).
Lemma repr_readable v : readable v.
Proof.
  induction v as [a|l IH|d IH] using value_ind2; [apply atom_read|..]; intros w r1 r2 D1 D2 E; pose proof (same_kind _ _ _ _ E) as K;
    destruct w as [[]|m|e]; try discriminate K; clear K; cbn [repr] in E; rewrite <- !app_assoc in E; apply app_inv_head in E.
  - apply (seq_read value (fun _ => True) repr "]"%char) in E.
    + destruct E as [-> ->]. auto.
    + unfold bracket. auto.
    + intros x _. destruct (kind_head x) as [c [r [Ec Kc]]]. exists c, r. split; [exact Ec|]. intros ->. discriminate Kc.
    + apply Forall_forall. auto.
    + apply Forall_forall. auto.
    + revert IH. apply Forall_impl. intros x H y q1 q2 _. apply H.
  - apply (seq_read (text * value) (fun _ => True) entry "}"%char) in E.
    + destruct E as [-> ->]. auto.
    + unfold bracket. auto.
    + intros x _. unfold entry. destruct (repr_str_head (fst x)) as [q [r [Eq Q]]]. rewrite Eq. cbn. eexists; eexists; split; [reflexivity|]. destruct Q as [-> | ->]; discriminate.
    + apply Forall_forall. auto.
    + apply Forall_forall. auto.
    + revert IH. apply Forall_impl. intros [k x] H [k' y] q1 q2 _ X1 X2 G. unfold entry in G. cbn [fst snd] in G, H. rewrite <- !app_assoc in G.
      destruct (repr_str_read _ _ _ _ G) as [-> G']. apply app_inv_head in G'. destruct (H y q1 q2 X1 X2 G') as [-> ->]. auto.
Qed.
Lemma repr_inj v w : repr v = repr w -> v = w.
Proof. intros E. apply (repr_readable v w [] []); cbn; auto. rewrite !app_nil_r. exact E. Qed.

(** * Objects *)
Section ObjInd.
Variable P : obj -> Prop.
Hypothesis Ha : forall a, P (OAtom a).
Hypothesis Hl : forall l, Forall P l -> P (OList l).
Hypothesis Hd : forall d, Forall (fun e => P (snd e)) d -> P (ODict d).
Hypothesis Hm : forall c fs, Forall (fun f => P (f_val f)) fs -> P (OModel c fs).
Fixpoint obj_ind2 (o : obj) : P o :=
  match o with
  | OAtom a => Ha a
  | OList l => Hl l ((fix go (l : list obj) : Forall P l := match l with [] => Forall_nil _ | x :: l' => Forall_cons x (obj_ind2 x) (go l') end) l)
  | ODict d => Hd d ((fix go (d : list (text * obj)) : Forall (fun e => P (snd e)) d := match d with [] => Forall_nil _ | x :: d' => Forall_cons x (obj_ind2 (snd x)) (go d') end) d)
  | OModel c fs => Hm c fs ((fix go (fs : list (field obj)) : Forall (fun f => P (f_val f)) fs :=
      match fs with [] => Forall_nil _ | x :: fs' => Forall_cons x (obj_ind2 (f_val x)) (go fs') end) fs)
  end.
End ObjInd.

Lemma map_eq_F2 {A B C} (f : A -> C) (g : B -> C) (R : A -> B -> Prop) l : Forall (fun x => forall y, f x = g y -> R x y) l ->
  forall m, map f l = map g m -> Forall2 R l m.
Proof.
  induction 1 as [|x l H F IH]; intros [|y m] E; try discriminate E; constructor; injection E as E1 E2; auto.
Qed.
Lemma F2_map_eq {A B C} (f : A -> C) (g : B -> C) (R : A -> B -> Prop) l : Forall (fun x => forall y, R x y -> f x = g y) l ->
  forall m, Forall2 R l m -> map f l = map g m.
Proof. induction 1 as [|x l H F IH]; intros m Fm; inversion Fm; subst; cbn; [reflexivity|]. f_equal; auto. Qed.

Lemma dump_alike a : forall b, dump a = dump b -> alike a b.
Proof.
  induction a as [a|l IH|d IH|c fs IH] using obj_ind2; intros [b|m|e|c' gs] E; cbn [dump] in E; try discriminate E; injection E as E.
  - subst. constructor.
  - constructor. revert m E. apply map_eq_F2. exact IH.
  - constructor. revert e E. apply map_eq_F2. revert IH. apply Forall_impl. intros x H y [= E1 E2]. auto.
  - apply alike_right. revert gs E. apply map_eq_F2. revert IH. apply Forall_impl. intros x H y [= E1 E2]. auto.
  - apply alike_left. revert e E. apply map_eq_F2. revert IH. apply Forall_impl. intros x H y [= E1 E2]. auto.
  - constructor. revert gs E. apply map_eq_F2. revert IH. apply Forall_impl. intros x H y [= E1 E2]. auto.
Qed.
Lemma alike_dump a : forall b, alike a b -> dump a = dump b.
Proof.
  induction a as [a|l IH|d IH|c fs IH] using obj_ind2; intros b H; inversion H as [? |? ? F|? ? F|? ? ? ? F|? ? ? F|? ? ? F]; subst; cbn [dump]; f_equal.
  - revert F. apply F2_map_eq. exact IH.
  - revert F. apply F2_map_eq. revert IH. apply Forall_impl. intros x Hx y [E1 E2]. rewrite E1, (Hx _ E2). reflexivity.
  - revert F. apply F2_map_eq. revert IH. apply Forall_impl. intros x Hx y [E1 E2]. rewrite E1, (Hx _ E2). reflexivity.
  - revert F. apply F2_map_eq. revert IH. apply Forall_impl. intros x Hx y [E1 E2]. rewrite E1, (Hx _ E2). reflexivity.
  - revert F. apply F2_map_eq. revert IH. apply Forall_impl. intros x Hx y [E1 E2]. rewrite E1, (Hx _ E2). reflexivity.
Qed.

Lemma text_dec (a b : text) : {a = b} + {a <> b}.
Proof. apply list_eq_dec, ascii_dec. Qed.
Lemma hash_alike sha3 m1 m2 : get_hash sha3 m1 = get_hash sha3 m2 -> alike (content m1) (content m2) \/ collision sha3.
Proof.
  unfold get_hash. intros E. destruct (text_dec (repr (dumped m1)) (repr (dumped m2))) as [R|R].
  - left. apply dump_alike, repr_inj, R.
  - right. unfold collision. eauto.
Qed.
Lemma alike_hash sha3 m1 m2 : alike (content m1) (content m2) -> get_hash sha3 m1 = get_hash sha3 m2.
Proof. intros A. unfold get_hash, dumped. change (OModel (m_cls m1) (m_fields m1)) with (content m1). rewrite (alike_dump _ _ A). reflexivity. Qed.

(** * Access *)
Lemma keys_names m : keys m = map f_name (m_fields m).
Proof. unfold keys, dumped. cbn [dump]. rewrite map_map. reflexivity. Qed.
Lemma in_texts k l : existsb (text_eqb k) l = true <-> In k l.
Proof.
  rewrite existsb_exists. split.
  - intros [x [I E]]. apply text_eqb_spec in E. subst. exact I.
  - intros I. exists k. split; [exact I|apply text_eqb_refl].
Qed.
Lemma contains_iff m k : contains m k = true <-> In k (map f_name (m_fields m)).
Proof. unfold contains. rewrite keys_names. apply in_texts. Qed.
Lemma find_field_in fs f : NoDup (map f_name fs) -> In f fs -> find_field (f_name f) fs = Some (f_val f).
Proof.
  induction fs as [|g fs IH]; [intros _ []|]. intros N [-> |I]; cbn [find_field map] in *; inversion N as [|? ? Ni N']; subst.
  - rewrite text_eqb_refl. reflexivity.
  - destruct (text_eqb (f_name g) (f_name f)) eqn:E; [|auto]. apply text_eqb_spec in E. rewrite E in Ni. destruct Ni. apply in_map, I.
Qed.
Lemma find_field_none k fs : find_field k fs = None <-> ~ In k (map f_name fs).
Proof.
  induction fs as [|g fs IH]; cbn [find_field map In]; [tauto|].
  destruct (text_eqb (f_name g) k) eqn:E.
  - apply text_eqb_spec in E. split; [discriminate|tauto].
  - rewrite IH. split; [|tauto]. intros N [H|H]; [|tauto]. apply text_eqb_spec in H. congruence.
Qed.
Lemma getitem_field m f : well_named m -> In f (m_fields m) -> getitem m (f_name f) = Ok (Field (f_val f)).
Proof. intros N I. unfold getitem. rewrite (find_field_in _ _ N I). reflexivity. Qed.
Lemma getitem_missing m k : contains m k = false ->
  getitem m k = if existsb (text_eqb k) (m_attrs m) then Ok (Of_class k) else Err AttributeError.
Proof.
  intros C. unfold getitem. replace (find_field k (m_fields m)) with (@None obj); [reflexivity|]. symmetry. apply find_field_none.
  intros I. apply contains_iff in I. congruence.
Qed.
Lemma items_all m : well_named m -> items m = Ok (map (fun f => (f_name f, Field (f_val f))) (m_fields m)).
Proof.
  intros N. unfold items. rewrite keys_names.
  assert (G : forall fs, (forall f, In f fs -> In f (m_fields m)) ->
    mapM (fun k => let* o := getitem m k in Ok (k, o)) (map f_name fs) = Ok (map (fun f => (f_name f, Field (f_val f))) fs)).
  { induction fs as [|f fs IH]; intros H; [reflexivity|]. cbn [map mapM]. rewrite (getitem_field m f N (H f (or_introl eq_refl))). cbn [bind].
    rewrite IH by (intros g I; apply H; right; exact I). reflexivity. }
  apply G. auto.
Qed.

(** * Equality *)
Lemma atom_eqb_spec a b : atom_eqb a b = true <-> atom_equal a b.
Proof.
  destruct a as [|x|x|x|x|x|x|x|x], b as [|y|y|y|y|y|y|y|y]; cbn [atom_eqb atom_equal]; try (split; [discriminate|discriminate]).
  - tauto.
  - rewrite Bool.eqb_true_iff. split; congruence.
  - rewrite Z.eqb_eq. split; congruence.
  - apply Qeq_bool_iff.
  - rewrite text_eqb_spec. split; congruence.
  - rewrite text_eqb_spec. split; congruence.
  - rewrite text_eqb_spec. split; congruence.
  - destruct x as [x1 x2 x3 x4 x5 x6 x7 x8], y as [y1 y2 y3 y4 y5 y6 y7 y8]. unfold moment_eqb. cbn [d_year d_month d_day d_hour d_minute d_second d_micro d_utc].
    rewrite !andb_true_iff, !Z.eqb_eq, Bool.eqb_true_iff. split; [intros [[[[[[[-> ->] ->] ->] ->] ->] ->] ->]; reflexivity|intros [= -> -> -> -> -> -> -> ->]; repeat split].
  - destruct x as [x1 x2 x3], y as [y1 y2 y3]. unfold delta_eqb. cbn [t_days t_seconds t_micros].
    rewrite !andb_true_iff, !Z.eqb_eq. split; [intros [[-> ->] ->]; reflexivity|intros [= -> -> ->]; repeat split].
Qed.
Lemma obj_eqb_spec a : forall b, obj_eqb a b = true <-> equal a b.
Proof.
  induction a as [a|l IH|d IH|c fs IH] using obj_ind2; intros [b|m|e|c' gs]; cbn [obj_eqb]; try (split; [discriminate|intros H; inversion H]).
  - rewrite atom_eqb_spec. split; [constructor; assumption|intros H; inversion H; assumption].
  - transitivity (Forall2 equal l m); [|split; [apply equal_list|intros H; inversion H; assumption]].
    revert m. induction IH as [|x l Hx F IHl]; intros [|y m]; try (split; [discriminate|intros H; inversion H]).
    + split; auto.
    + rewrite andb_true_iff, Hx, IHl. split; [intros [H1 H2]; constructor; auto|intros H; inversion H; auto].
  - transitivity (Forall2 (fun x y => fst x = fst y /\ equal (snd x) (snd y)) d e); [|split; [apply equal_dict|intros H; inversion H; assumption]].
    revert e. induction IH as [|x l Hx F IHl]; intros [|y m]; try (split; [discriminate|intros H; inversion H]).
    + split; auto.
    + rewrite !andb_true_iff, text_eqb_spec, Hx, IHl. split; [intros [[H0 H1] H2]; constructor; auto|intros H; inversion H; tauto].
  - rewrite andb_true_iff, text_eqb_spec. transitivity (c = c' /\ Forall2 (fun x y => f_name x = f_name y /\ equal (f_val x) (f_val y)) fs gs);
      [|split; [intros [-> H]; apply equal_model, H|intros H; inversion H; auto]].
    apply and_iff_compat_l. revert gs. induction IH as [|x l Hx F IHl]; intros [|y m]; try (split; [discriminate|intros H; inversion H]).
    + split; auto.
    + rewrite !andb_true_iff, text_eqb_spec, Hx, IHl. split; [intros [[H0 H1] H2]; constructor; auto|intros H; inversion H; tauto].
Qed.
Lemma atom_equal_refl a : atom_equal a a.
Proof. destruct a; cbn; reflexivity. Qed.
Lemma atom_equal_sym a b : atom_equal a b -> atom_equal b a.
Proof. destruct a, b; cbn; intros; congruence || (symmetry; assumption). Qed.
Lemma atom_equal_trans a b c : atom_equal a b -> atom_equal b c -> atom_equal a c.
Proof. destruct a, b; cbn; intros H; try discriminate H; destruct c; cbn; intros G; try discriminate G; try congruence. rewrite H. exact G. Qed.
Lemma F_F2_refl {A} (R : A -> A -> Prop) l : Forall (fun x => R x x) l -> Forall2 R l l.
Proof. induction 1; constructor; auto. Qed.
Lemma equal_refl a : equal a a.
Proof.
  induction a as [a|l IH|d IH|c fs IH] using obj_ind2; constructor.
  - apply atom_equal_refl.
  - apply F_F2_refl, IH.
  - apply F_F2_refl. revert IH. apply Forall_impl. auto.
  - apply F_F2_refl. revert IH. apply Forall_impl. auto.
Qed.
Lemma F2_sym {A} (R : A -> A -> Prop) l : Forall (fun x => forall y, R x y -> R y x) l -> forall m, Forall2 R l m -> Forall2 R m l.
Proof. induction 1 as [|x l Hx F IH]; intros m H; inversion H; subst; constructor; auto. Qed.
Lemma F2_trans {A} (R : A -> A -> Prop) l : Forall (fun x => forall y z, R x y -> R y z -> R x z) l -> forall m n, Forall2 R l m -> Forall2 R m n -> Forall2 R l n.
Proof. induction 1 as [|x l Hx F IH]; intros m n H G; inversion H; subst; inversion G; subst; constructor; eauto. Qed.
Lemma equal_sym a : forall b, equal a b -> equal b a.
Proof.
  induction a as [a|l IH|d IH|c fs IH] using obj_ind2; intros b H; inversion H as [? ? E|? ? F|? ? F|? ? ? F]; subst; constructor.
  - apply atom_equal_sym, E.
  - revert F. apply F2_sym, IH.
  - revert F. apply F2_sym. revert IH. apply Forall_impl. intros x Hx y [E1 E2]. auto.
  - revert F. apply F2_sym. revert IH. apply Forall_impl. intros x Hx y [E1 E2]. auto.
Qed.
Lemma equal_trans a : forall b c, equal a b -> equal b c -> equal a c.
Proof.
  induction a as [a|l IH|d IH|k fs IH] using obj_ind2; intros b c H G; inversion H as [? ? E|? ? F|? ? F|? ? ? F]; subst; inversion G as [? ? E'|? ? F'|? ? F'|? ? ? F']; subst; constructor.
  - eapply atom_equal_trans; eassumption.
  - revert F F'. apply F2_trans, IH.
  - revert F F'. apply F2_trans. revert IH. apply Forall_impl. intros x Hx y z [E1 E2] [E3 E4]. split; [congruence|eauto].
  - revert F F'. apply F2_trans. revert IH. apply Forall_impl. intros x Hx y z [E1 E2] [E3 E4]. split; [congruence|eauto].
Qed.

(** * The printed form *)
Fixpoint brief_fields (fs : list (field obj)) : list (text * value) :=
  match fs with
  | [] => []
  | f :: fs' => if kept obj_eqb f then (f_name f, brief (f_val f)) :: brief_fields fs' else brief_fields fs'
  end.
Lemma brief_model c fs : brief (OModel c fs) = VDict (brief_fields fs).
Proof. reflexivity. Qed.
Lemma brief_fields_names fs k v : In (k, v) (brief_fields fs) -> In k (map f_name fs).
Proof.
  induction fs as [|f fs IH]; cbn [brief_fields map In]; [tauto|]. destruct (kept obj_eqb f); cbn [In]; [|tauto].
  intros [[= -> _]|I]; tauto.
Qed.
Lemma dropped_default f : (f_set f = false -> f_default f = Some (f_val f)) -> kept obj_eqb f = false ->
  exists d, f_default f = Some d /\ equal (f_val f) d.
Proof.
  unfold kept. intros S K. destruct (f_set f); cbn in K.
  - apply negb_false_iff in K. destruct (f_default f) as [d|]; [|discriminate]. exists d. split; [reflexivity|]. apply obj_eqb_spec, K.
  - exists (f_val f). split; [auto|apply equal_refl].
Qed.
Lemma nth_F2 {A B} (R : A -> B -> Prop) : forall l m, length l = length m ->
  (forall n x y, nth_error l n = Some x -> nth_error m n = Some y -> R x y) -> Forall2 R l m.
Proof.
  induction l as [|x l IH]; intros [|y m] L H; try discriminate L; constructor.
  - apply (H 0%nat); reflexivity.
  - apply IH; [injection L; auto|]. intros n a b E1 E2. apply (H (S n)); assumption.
Qed.
Lemma map_eq_F2' {A B C} (f : A -> C) (g : B -> C) : forall l m, map f l = map g m -> Forall2 (fun x y => f x = g y) l m.
Proof. induction l as [|x l IH]; intros [|y m] E; try discriminate E; constructor; injection E; auto. Qed.
Lemma F2_nth {A B} (R : A -> B -> Prop) l m : Forall2 R l m -> forall n x y, nth_error l n = Some x -> nth_error m n = Some y -> R x y.
Proof. induction 1; intros [|n] a b E1 E2; try discriminate; cbn in *; [congruence|eauto]. Qed.
Lemma F2_length {A B} (R : A -> B -> Prop) l m : Forall2 R l m -> length l = length m.
Proof. induction 1; cbn; congruence. Qed.
Lemma F_nth {A} (P : A -> Prop) l : Forall P l -> forall n x, nth_error l n = Some x -> P x.
Proof. intros F n x E. rewrite Forall_forall in F. apply F. eapply nth_error_In, E. Qed.

Lemma brief_equal a : forall b, settled a -> settled b -> comparable a b -> brief a = brief b -> equal a b.
Proof.
  induction a as [a|l IH|d IH|c fs IH] using obj_ind2; intros b Sa Sb C E.
  - destruct b as [b|m|e|c' gs]; try (rewrite ?brief_model in E; discriminate E). injection E as ->. apply equal_refl.
  - destruct b as [b|m|e|c' gs]; try (rewrite ?brief_model in E; discriminate E). injection E as E.
    inversion Sa as [|? Fa| |]; subst. inversion Sb as [|? Fb| |]; subst. inversion C as [| |? ? H| |]; subst.
    constructor. pose proof (map_eq_F2' _ _ _ _ E) as F. apply nth_F2; [exact (F2_length _ _ _ F)|].
    intros n x y Ex Ey. apply (F_nth _ _ IH n x Ex); [exact (F_nth _ _ Fa n x Ex)|exact (F_nth _ _ Fb n y Ey)|exact (H n x y Ex Ey)|exact (F2_nth _ _ _ F n x y Ex Ey)].
  - destruct b as [b|m|e|c' gs]; try (rewrite ?brief_model in E; discriminate E).
    + injection E as E. inversion Sa as [| |? Fa|]; subst. inversion Sb as [| |? Fb|]; subst. inversion C as [| | |? ? H|]; subst.
      constructor. pose proof (map_eq_F2' _ _ _ _ E) as F. apply nth_F2; [exact (F2_length _ _ _ F)|].
      intros n x y Ex Ey. pose proof (F2_nth _ _ _ F n x y Ex Ey) as P. cbn beta in P. injection P as P1 P2. split; [exact P1|].
      apply (F_nth _ _ IH n x Ex); [exact (F_nth _ _ Fa n x Ex)|exact (F_nth _ _ Fb n y Ey)|exact (H n x y Ex Ey)|exact P2].
    + inversion C.
  - destruct b as [b|m|e|c' gs]; try (rewrite ?brief_model in E; discriminate E); [inversion C|].
    rewrite !brief_model in E. injection E as E. inversion Sa as [| | |? ? Fa]; subst. inversion Sb as [| | |? ? Fb]; subst. inversion C as [| | | |? ? ? N H]; subst.
    constructor. clear C Sa Sb. induction H as [|x y fs gs [Hn [Hd Hc]] F2 IHf]; [constructor|].
    inversion IH as [|? ? IHx IHfs]; subst. inversion Fa as [|? ? [Sx Dx] Fa']; subst. inversion Fb as [|? ? [Sy Dy] Fb']; subst.
    cbn [map] in N. inversion N as [|? ? Nx N']; subst.
    assert (Ng : ~ In (f_name y) (map f_name gs)).
    { intros I. apply Nx. rewrite Hn. clear - F2 I. induction F2 as [|u v ? ? [Hu _] F2 IH']; cbn in *; [tauto|]. destruct I as [I|I]; [left; congruence|right; auto]. }
    cbn [brief_fields] in E. destruct (kept obj_eqb x) eqn:Kx, (kept obj_eqb y) eqn:Ky.
    + injection E as _ E1 E2. constructor; [split; [exact Hn|apply IHx; assumption]|apply IHf; assumption].
    + exfalso. apply Ng. rewrite <- Hn. apply brief_fields_names with (v := brief (f_val x)). rewrite <- E. left. reflexivity.
    + exfalso. apply Nx. rewrite Hn. apply brief_fields_names with (v := brief (f_val y)). rewrite E. left. reflexivity.
    + constructor; [|apply IHf; assumption]. split; [exact Hn|].
      destruct (dropped_default x Dx Kx) as [d [Ed Eq]]. destruct (dropped_default y Dy Ky) as [d' [Ed' Eq']].
      assert (d = d') by congruence. subst d'. apply equal_trans with d; [exact Eq|apply equal_sym, Eq'].
Qed.
Lemma repr_model_equal m1 m2 : m_cls m1 = m_cls m2 -> settled (content m1) -> settled (content m2) -> comparable (content m1) (content m2) ->
  repr_model m1 = repr_model m2 -> equal (content m1) (content m2).
Proof.
  intros Ec S1 S2 C E. unfold repr_model in E. rewrite Ec in E. do 2 apply app_inv_head in E. apply app_inv_tail in E.
  apply brief_equal; auto. unfold content. rewrite Ec at 1. apply repr_inj, E.
Qed.

(** * Values of floats *)
Lemma signed_Q n z : (inject_Z (signed n z) == (if n then - (1) else 1) * inject_Z z)%Q.
Proof. destruct n; unfold signed; [rewrite inject_Z_opp; ring|ring]. Qed.
Lemma ten_nz : ~ (inject_Z 10 == 0)%Q.
Proof. discriminate. Qed.
Lemma shift_value n a b (k : nat) e :
  (inject_Z (signed n (a * 10 ^ Z.of_nat k + b)) * Qpower (inject_Z 10) (e - Z.of_nat k)
   == (if n then - (1) else 1) * (inject_Z a + inject_Z b / inject_Z (10 ^ Z.of_nat k)) * Qpower (inject_Z 10) e)%Q.
Proof.
  rewrite signed_Q, inject_Z_plus, inject_Z_mult. unfold Z.sub. rewrite Qpower_plus by exact ten_nz. rewrite Qpower_opp.
  rewrite Zpower_Qpower by lia. assert (N : ~ (Qpower (inject_Z 10) (Z.of_nat k) == 0)%Q) by (apply Qpower_not_0; exact ten_nz).
  field. exact N.
Qed.
Lemma point_value n i u :
  (lit_value (mkLit n i (Point u)) == (if n then - (1) else 1) * (inject_Z (Z.of_N i) + inject_Z (Z.of_uint u) / inject_Z (10 ^ Z.of_nat (nb_digits u))))%Q.
Proof. unfold lit_value. cbn [l_neg l_int l_end end_frac end_exp]. rewrite shift_value. rewrite Qmult_1_r. reflexivity. Qed.
Lemma expo_value n i u s e :
  (lit_value (mkLit n i (PointExpo u s e)) == lit_value (mkLit n i (Point u)) * Qpower (inject_Z 10) (if s then - Z.of_uint e else Z.of_uint e))%Q.
Proof. rewrite point_value. unfold lit_value. cbn [l_neg l_int l_end end_frac end_exp]. rewrite shift_value. destruct s; reflexivity. Qed.
Lemma whole_value n i s e :
  (lit_value (mkLit n i (Expo s e)) == lit_value (mkLit n i (PointExpo Nil s e)))%Q.
Proof. reflexivity. Qed.

(** * Plain texts *)
Definition unescaped (c : ascii) : bool := (32 <=? N_of_ascii c)%N && (N_of_ascii c <? 127)%N && negb (Ascii.eqb c squote) && negb (Ascii.eqb c backslash).
Lemma esc_plain c : unescaped c = true -> esc squote c = [c].
Proof. destruct c as [[] [] [] [] [] [] [] []]; intros H; (discriminate H || reflexivity). Qed.
Lemma repr_plain s : forallb unescaped s = true -> repr_str s = squote :: s ++ [squote].
Proof.
  intros H. unfold repr_str, quote_of. assert (E : has squote s = false).
  { unfold has. destruct (existsb (Ascii.eqb squote) s) eqn:X; [|reflexivity]. apply existsb_exists in X. destruct X as [c [I E]]. apply Ascii.eqb_eq in E. subst c.
    rewrite forallb_forall in H. discriminate (H _ I). }
  rewrite E. cbn [andb]. cbv zeta. f_equal. f_equal. clear E. induction s as [|c s IH]; [reflexivity|]. cbn [forallb] in H. apply andb_prop in H. destruct H as [Hc Hs].
  cbn [flat_map]. rewrite (esc_plain c Hc), (IH Hs). reflexivity.
Qed.

Lemma esc_printable q c : quote q -> (N_of_ascii c < 128)%N -> Forall (fun d => (32 <= N_of_ascii d < 127)%N) (esc q c).
Proof. intros Q. destruct c as [[] [] [] [] [] [] [] []]; cbn; try lia; intros _; destruct Q as [-> | ->]; vm_compute; repeat constructor; discriminate. Qed.
Lemma repr_printable s : Forall (fun c => (N_of_ascii c < 128)%N) s -> Forall (fun c => (32 <= N_of_ascii c < 127)%N) (repr_str s).
Proof.
  intros H. unfold repr_str. pose proof (quote_of_quote s) as Q. set (q := quote_of s) in *.
  assert (P : (32 <= N_of_ascii q < 127)%N) by (destruct Q as [-> | ->]; vm_compute; split; (discriminate || reflexivity)).
  constructor; [exact P|]. apply Forall_app. split; [|constructor; [exact P|constructor]].
  apply Forall_flat_map. revert H. apply Forall_impl. intros c. apply esc_printable, Q.
Qed.
