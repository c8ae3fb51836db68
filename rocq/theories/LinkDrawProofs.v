(** Proofs about the drawing of the links (C112). *)
From Coq Require Import String Ascii DecimalString Decimal.
From Verif Require Import PyBase LinkModel LinkSpec LinkProofs.
From Coq Require Import QArith Qround.
Open Scope Z_scope.

(* ------------------------------------------------------------------ pairs *)

Lemma get_in {A} d k (v : A) : NoDup (map fst d) -> get d k = Some v <-> In (k, v) d.
Proof.
  induction d as [|[k' v'] d IH]; intros N; [split; [discriminate|intros []]|]. cbn [map fst] in N.
  inversion N as [|? ? NI N']; subst. cbn [get In]. destruct (key_eqb k k') eqn:E.
  - apply key_eqb_eq in E. subst. split; [intros H; left; congruence|]. intros [H|H]; [congruence|].
    elim NI. apply in_map_iff. now exists (k', v).
  - apply key_eqb_neq in E. rewrite IH by exact N'. split; [auto|]. intros [H|H]; [congruence|exact H].
Qed.
Lemma get_none {A} (d : list ((Z * Z) * A)) k : get d k = None <-> ~ In k (map fst d).
Proof.
  induction d as [|[k' v'] d IH]; [cbn; tauto|]. cbn [get map fst In]. destruct (key_eqb k k') eqn:E.
  - apply key_eqb_eq in E. subst. split; [discriminate|tauto].
  - apply key_eqb_neq in E. rewrite IH. split; [intros H [C|C]; [congruence|tauto]|tauto].
Qed.
Lemma get_put {A} (d : list ((Z * Z) * A)) k v k' :
  get (put d k v) k' = if key_eqb k' k then Some v else get d k'.
Proof.
  induction d as [|[x y] d IH]; cbn [put get]; [reflexivity|]. destruct (key_eqb k x) eqn:E.
  - apply key_eqb_eq in E. subst. cbn [get]. destruct (key_eqb k' x); reflexivity.
  - cbn [get]. rewrite IH. destruct (key_eqb k' x) eqn:E1, (key_eqb k' k) eqn:E2; try reflexivity.
    apply key_eqb_eq in E1, E2. subst. apply key_eqb_neq in E. congruence.
Qed.
Lemma put_keys {A} (d : list ((Z * Z) * A)) k v : NoDup (map fst d) -> NoDup (map fst (put d k v)).
Proof.
  intros N. destruct (get d k) eqn:G.
  - replace (map fst (put d k v)) with (map fst d); [exact N|]. clear N. revert G.
    induction d as [|[x y] d IH]; [discriminate|]. cbn [get put map fst]. destruct (key_eqb k x); [reflexivity|].
    intros G. cbn [map fst]. now rewrite <- IH.
  - apply get_none in G. rewrite put_new by exact G. rewrite map_app. apply NoDup_app_intro; [exact N| |].
    + constructor; [intros []|constructor].
    + intros x X [<-|[]]. tauto.
Qed.
Lemma get_app {A} (d e : list ((Z * Z) * A)) k :
  get (d ++ e) k = match get d k with Some v => Some v | None => get e k end.
Proof. induction d as [|[x y] d IH]; [reflexivity|]. cbn. destruct (key_eqb k x); [reflexivity|exact IH]. Qed.

(** What is collected for a pair. *)
Definition pair_of (d : strengths) (k : Z * Z) : option (Q * Q) :=
  let (a, b) := k in
  if b <? a then None
  else if a =? b then option_map (fun v => (v, v - 10)%Q) (get d (a, a))
  else match get d (a, b), get d (b, a) with
       | None, None => None
       | Some v, None => Some (v - 10, v)%Q
       | None, Some w => Some (w, w - 10)%Q
       | Some v, Some w => Some (w, v)
       end.

Ltac decide_all :=
  repeat (match goal with
          | |- context [?x =? ?y] => destruct (Z.eqb_spec x y); try lia
          | |- context [?x <? ?y] => destruct (Z.ltb_spec x y); try lia
          end; cbn [andb option_map fst snd]).

Lemma tpls_collected d : NoDup (map fst d) ->
  NoDup (map fst (fold_left add_tpl d [])) /\ forall k, get (fold_left add_tpl d []) k = pair_of d k.
Proof.
  induction d as [|[[n1 n2] v] d IH] using rev_ind; intros N.
  - split; [constructor|]. intros [a b]. cbn. destruct (b <? a); [reflexivity|]. destruct (a =? b); reflexivity.
  - rewrite map_app in N. assert (N' := N). apply NoDup_remove_1 in N'. rewrite app_nil_r in N'.
    apply NoDup_remove_2 in N. rewrite app_nil_r in N. cbn [fst] in N. destruct (IH N') as [K G]. clear IH.
    rewrite fold_left_app. cbn [fold_left]. cbn [add_tpl]. split; [now apply put_keys|].
    intros [a b]. rewrite get_put, !G. apply get_none in N.
    assert (S : forall k, get (d ++ [((n1, n2), v)]) k = if key_eqb k (n1, n2) then Some v else get d k).
    { intros k. rewrite get_app. cbn [get]. destruct (key_eqb k (n1, n2)) eqn:E.
      - apply key_eqb_eq in E. subst. now rewrite N.
      - destruct (get d k); reflexivity. }
    unfold pair_of. rewrite !S. unfold key_eqb. cbn [fst snd].
    destruct (Z.lt_trichotomy n1 n2) as [L|[L|L]].
    + rewrite Z.min_l, Z.max_r by lia. decide_all; subst; try lia; rewrite ?N; try reflexivity;
        destruct (get d (n2, n1)); reflexivity.
    + subst n2. rewrite Z.min_id, Z.max_id. decide_all; subst; try lia; rewrite ?N; reflexivity.
    + rewrite Z.min_r, Z.max_l by lia. decide_all; subst; try lia; rewrite ?N; try reflexivity;
        destruct (get d (n2, n1)); reflexivity.
Qed.

Definition mean (t : Q * Q) : Z := Qfloor ((fst t + snd t) / 2).

Lemma pair_strength d : NoDup (map fst d) -> forall a b s,
  strength d a b s <-> exists t, pair_of d (a, b) = Some t /\ mean t = s.
Proof.
  intros N a b s. unfold strength, known, pair_of.
  assert (H : forall v, Qfloor ((v + (v - 10)) / 2) = Qfloor (v - 5)) by (intros v; apply Qfloor_comp; field).
  assert (H' : forall v, Qfloor ((v - 10 + v) / 2) = Qfloor (v - 5)) by (intros v; apply Qfloor_comp; field).
  assert (C : forall v w, Qfloor ((v + w) / 2) = Qfloor ((w + v) / 2)) by (intros v w; apply Qfloor_comp; field).
  assert (G : forall k v, In (k, v) d <-> get d k = Some v) by (intros; symmetry; now apply get_in).
  setoid_rewrite G. unfold mean. split.
  - intros [(L & v & w & E1 & E2 & ->)|(L & v & K & ->)].
    + destruct (Z.ltb_spec b a); [lia|]. destruct (Z.eqb_spec a b); [lia|]. rewrite E1, E2. eexists. split; [reflexivity|]. apply C.
    + destruct (Z.ltb_spec b a); [lia|]. destruct (Z.eqb_spec a b) as [<-|NE].
      * assert (get d (a, a) = Some v) as -> by tauto. eexists. split; [reflexivity|]. apply H.
      * destruct K as [(E & [C'|K])|(E & [C'|K])]; try lia; rewrite E.
        -- destruct (get d (b, a)) as [w|] eqn:Q; [now elim (K w)|]. eexists. split; [reflexivity|]. apply H'.
        -- destruct (get d (a, b)) as [w|] eqn:Q; [now elim (K w)|]. eexists. split; [reflexivity|]. apply H.
  - intros (t & E & <-). destruct (Z.ltb_spec b a); [discriminate|]. destruct (Z.eqb_spec a b) as [<-|NE].
    + destruct (get d (a, a)) as [v|] eqn:Q; [|discriminate]. injection E as <-. right. split; [lia|].
      exists v. split; [left; auto|]. apply H.
    + destruct (get d (a, b)) as [v|] eqn:E1, (get d (b, a)) as [w|] eqn:E2; [..|discriminate]; injection E as <-.
      * left. split; [lia|]. exists v, w. repeat split. apply C.
      * right. split; [lia|]. exists v. split; [|apply H']. left. split; [reflexivity|]. right. intros w C'. congruence.
      * right. split; [lia|]. exists w. split; [|apply H]. right. split; [reflexivity|]. right. intros v C'. congruence.
Qed.

Lemma width_thickness s : -104 <= s -> thickness s (line_width s).
Proof.
  intros H. unfold thickness, line_width.
  replace (100 + s + 4) with (s + 104) by lia.
  destruct (Z.eqb_spec s 0) as [->|_]; [reflexivity|]. cbn [negb andb].
  assert (0 <= (s + 104) / 5) by (apply Z.div_pos; lia).
  destruct (Z.eqb_spec ((s + 104) / 5) 0) as [->|]; [reflexivity|]. destruct (Z.ltb_spec 10 ((s + 104) / 5)); lia.
Qed.

(** The links in the order of drawing. *)
Definition links (tpls : list ((Z * Z) * (Q * Q))) : list (Z * Z * Z) :=
  map (fun x => (fst x, tpl_line_width (snd x))) tpls.

Lemma links_drawn d : NoDup (map fst d) -> (forall a b s, strength d a b s -> -104 <= s) ->
  drawn d (links (fold_left add_tpl d [])).
Proof.
  intros N B. destruct (tpls_collected d N) as [K G]. unfold links. split.
  - rewrite map_map. cbn [fst]. exact K.
  - intros a b w. rewrite in_map_iff. split.
    + intros ([k t] & E & I). cbn [fst snd] in E. injection E as -> <-.
      apply get_in in I; [|exact K]. rewrite G in I. exists (mean t).
      assert (S : strength d a b (mean t)) by (apply pair_strength; eauto).
      split; [exact S|]. apply width_thickness. eauto.
    + intros (s & S & T). assert (S' := S). apply pair_strength in S as (t & E & <-); [|exact N].
      exists ((a, b), t). split.
      * cbn [fst snd]. f_equal. unfold tpl_line_width. fold (mean t).
        pose proof (width_thickness _ (B _ _ _ S')) as T'. unfold thickness in *. congruence.
      * apply get_in; [exact K|]. now rewrite G.
Qed.

(* ------------------------------------------------------------------ texts *)

Lemma string_of_uint_digits d : Forall (fun c => c <> nl) (tx (NilEmpty.string_of_uint d)).
Proof. induction d; cbn; constructor; try assumption; discriminate. Qed.
Lemma show_no_nl z : ~ In nl (show z).
Proof.
  assert (H : Forall (fun c => c <> nl) (show z)).
  { unfold show. destruct (Z.to_int z) as [d|d]; cbn [NilZero.string_of_int].
    - destruct d; [repeat constructor; discriminate|apply string_of_uint_digits..].
    - cbn. constructor; [discriminate|]. destruct d; [repeat constructor; discriminate|apply string_of_uint_digits..]. }
  rewrite Forall_forall in H. intros I. now apply (H nl).
Qed.

Lemma tx_app a b : tx (a ++ b)%string = tx a ++ tx b.
Proof. unfold tx. induction a; cbn; [reflexivity|]. now rewrite IHa. Qed.

(** A line without its indentation and end. *)
Definition bare_line (p q : Z * Z) (w : Z) : text :=
  tx "<line x1=""" ++ show (fst p) ++ tx """ y1=""" ++ show (snd p) ++ tx """ x2=""" ++ show (fst q)
  ++ tx """ y2=""" ++ show (snd q) ++ tx """ style=""stroke-width:" ++ show w ++ tx """/>".
Lemma svg_line_bare p q w : svg_line p q w = "009"%char :: bare_line p q w ++ [nl].
Proof.
  unfold svg_line, bare_line, decimal.
  assert (H : forall c s, tx (String c s) = c :: tx s) by reflexivity.
  rewrite (H "009"%char). cbn [app]. f_equal. clear H.
  rewrite !tx_app. unfold show. rewrite <- !app_assoc. reflexivity.
Qed.
Lemma bare_line_nl p q w : ~ In nl (bare_line p q w).
Proof.
  unfold bare_line. rewrite !in_app_iff. pose proof show_no_nl as S.
  assert (T : forall s, existsb (Ascii.eqb nl) (tx s) = false -> ~ In nl (tx s)).
  { intros s H C. apply In_existsb in C. congruence. }
  intros H.
  repeat (destruct H as [H|H]; [first [now apply S in H | revert H; apply T; reflexivity]|]).
  revert H. apply T. reflexivity.
Qed.

Lemma split_nl_no l : ~ In nl l -> split_nl l = [l].
Proof.
  induction l as [|c l IH]; intros N; [reflexivity|]. cbn [split_nl].
  destruct (Ascii.eqb_spec c nl) as [->|_]; [elim N; now left|]. rewrite IH; [reflexivity|].
  intros C. apply N. now right.
Qed.
Lemma split_nl_app l s : ~ In nl l -> split_nl (l ++ nl :: s) = l :: split_nl s.
Proof.
  induction l as [|c l IH]; intros N; [reflexivity|]. cbn [app split_nl].
  destruct (Ascii.eqb_spec c nl) as [->|_]; [elim N; now left|]. rewrite IH; [reflexivity|].
  intros C. apply N. now right.
Qed.
Lemma split_join ls : ls <> [] -> Forall (fun l => ~ In nl l) ls -> split_nl (join_nl ls) = ls.
Proof.
  intros NE F. induction F as [|l ls H F IH]; [congruence|]. destruct ls as [|l' ls].
  - now apply split_nl_no.
  - change (join_nl (l :: l' :: ls)) with (l ++ nl :: join_nl (l' :: ls)). rewrite split_nl_app by exact H.
    f_equal. apply IH. discriminate.
Qed.
Lemma join_concat (f : text -> text) ls : ls <> [] ->
  join_nl (map f ls) ++ [nl] = concat (map (fun l => f l ++ [nl]) ls).
Proof.
  induction ls as [|l ls IH]; intros NE; [congruence|]. destruct ls as [|l' ls].
  - cbn. now rewrite app_nil_r.
  - change (join_nl (map f (l :: l' :: ls))) with (f l ++ nl :: join_nl (map f (l' :: ls))).
    cbn [map concat] in *. rewrite <- IH by discriminate. rewrite <- !app_assoc. reflexivity.
Qed.

Lemma line_group_svg (ps : list ((Z * Z) * (Z * Z) * Z)) :
  nl :: line_group (tx "#0000FF") (map (fun x => bare_line (fst (fst x)) (snd (fst x)) (snd x)) ps)
  = svg_links (map (fun x => svg_line (fst (fst x)) (snd (fst x)) (snd x)) ps).
Proof.
  unfold line_group, svg_links. set (ls := map (fun x => bare_line _ _ _) ps).
  destruct ps as [|x ps]; [reflexivity|].
  assert (NE : ls <> []) by discriminate.
  assert (F : Forall (fun l => ~ In nl l) ls).
  { apply Forall_forall. intros l I. apply in_map_iff in I as (y & <- & _). apply bare_line_nl. }
  assert (I : indent (join_nl ls) = join_nl (map (cons "009"%char) ls)).
  { unfold indent. replace (is_space (join_nl ls)) with false; [|].
    - now rewrite split_join.
    - symmetry. apply not_blank with (c := "<"%char); [|rewrite <- space_white; discriminate].
      unfold ls. cbn [map]. destruct (map _ ps); cbn [join_nl]; [left; reflexivity|]. apply in_or_app. left. now left. }
  assert (J : match map (fun x => svg_line (fst (fst x)) (snd (fst x)) (snd x)) (x :: ps) with
              | [] => ["009"%char; nl] | _ => concat (map (fun x => svg_line (fst (fst x)) (snd (fst x)) (snd x)) (x :: ps)) end
              = join_nl (map (cons "009"%char) ls) ++ [nl]).
  { rewrite join_concat by exact NE. cbn [map]. unfold ls. cbn [map concat]. f_equal; [apply svg_line_bare|].
    rewrite map_map. clear. induction ps as [|y ps IH]; [reflexivity|]. cbn [map concat]. rewrite <- IH. f_equal.
    apply svg_line_bare. }
  rewrite J, I. rewrite <- !app_assoc. reflexivity.
Qed.

(** Every end of a link has a place. *)
Lemma node_at_in n p : node_at nodes n = Ok p <-> In (n, p) nodes.
Proof.
  assert (N : NoDup (map fst nodes)).
  { repeat constructor; cbn; intros C; repeat destruct C as [C|C]; try discriminate; exact C. }
  revert N. generalize nodes. intros l. induction l as [|[k q] l IH]; intros N; [split; [discriminate|intros []]|].
  cbn [map fst] in N. inversion N as [|? ? NI N']; subst. cbn [node_at In]. destruct (Z.eqb_spec n k) as [->|NE].
  - split; [intros E; left; congruence|]. intros [E|E]; [congruence|]. elim NI. apply in_map_iff. now exists (k, p).
  - rewrite IH by exact N'. split; [auto|]. intros [E|E]; [congruence|exact E].
Qed.

Lemma all_lines_ok tpls : (forall a b t, In ((a, b), t) tpls -> exists p q, In (a, p) nodes /\ In (b, q) nodes) ->
  exists ps, all_lines tpls = Ok (map (fun x => bare_line (fst (fst x)) (snd (fst x)) (snd x)) ps)
    /\ Forall2 (fun (x : (Z * Z) * (Z * Z) * Z) y => In (fst (fst y), fst (fst x)) nodes /\ In (snd (fst y), snd (fst x)) nodes /\ snd x = snd y)
         ps (links tpls).
Proof.
  induction tpls as [|[[a b] t] tpls IH]; intros H.
  - exists []. split; [reflexivity|constructor].
  - destruct (H a b t) as (p & q & P & Q); [now left|].
    destruct IH as (ps & E & F); [intros a' b' t' I; apply (H a' b' t'); now right|].
    exists ((p, q, tpl_line_width t) :: ps). split.
    + cbn [all_lines gen_line]. unfold gen_line. apply node_at_in in P, Q. rewrite P, Q. destruct p, q. cbn [bind].
      rewrite E. cbn [bind]. reflexivity.
    + constructor; [cbn; auto|exact F].
Qed.
Lemma all_lines_keyerror tpls : (exists a b t, In ((a, b), t) tpls /\ (~ In a (map fst nodes) \/ ~ In b (map fst nodes))) ->
  all_lines tpls = Err KeyError.
Proof.
  assert (KE : forall n, node_at nodes n = Err KeyError \/ exists p, node_at nodes n = Ok p).
  { intros n. generalize nodes. intros l. induction l as [|[k q] l IH]; cbn; [now left|]. destruct (n =? k); eauto. }
  assert (OK : forall n p, node_at nodes n = Ok p -> In n (map fst nodes)).
  { intros n p H. apply node_at_in in H. apply in_map_iff. now exists (n, p). }
  induction tpls as [|[[a b] t] tpls IH]; intros (a' & b' & t' & I & H); [destruct I|].
  cbn [all_lines]. unfold gen_line.
  destruct (KE a) as [->|((x & y) & Ea)]; [reflexivity|]. rewrite Ea. cbn [bind].
  destruct (KE b) as [->|((x' & y') & Eb)]; [reflexivity|]. rewrite Eb. cbn [bind].
  destruct I as [E|I].
  - injection E as <- <- _. apply OK in Ea, Eb. tauto.
  - rewrite IH by eauto. reflexivity.
Qed.

(* ------------------------------------------------------------------ the place in the floor plan *)

Lemma strip_begins c tag l : ~ white c -> (forall r z, c :: tag = r ++ [z] -> ~ white z) ->
  starts (c :: tag) (strip l) = true <-> begins (c :: tag) l.
Proof.
  intros W Z. unfold begins. rewrite starts_iff. split.
  - intros (b & E). unfold strip in E.
    assert (D : exists a x, l = a ++ x /\ all_white a /\ lstrip l = x).
    { clear. induction l as [|c l IH]; [exists [], []; repeat split; constructor|]. cbn. destruct (space c) eqn:S.
      - destruct IH as (a & x & -> & A & L). exists (c :: a), x. repeat split; [|exact L].
        constructor; [now apply space_white|exact A].
      - exists [], (c :: l). repeat split. constructor. }
    assert (D2 : forall s, exists x y, s = x ++ y /\ all_white y /\ rev (lstrip (rev s)) = x).
    { clear. intros s. induction s as [|c s IH] using rev_ind; [exists [], []; repeat split; constructor|].
      rewrite rev_app_distr. cbn [rev app lstrip]. destruct (space c) eqn:S.
      - destruct IH as (x & y & E & Y & L). exists x, (y ++ [c]). rewrite E, <- app_assoc. split; [reflexivity|].
        split; [|rewrite <- E; exact L]. apply Forall_app. split; [exact Y|]. constructor; [now apply space_white|constructor].
      - exists (s ++ [c]), []. rewrite app_nil_r. split; [reflexivity|]. split; [constructor|].
        cbn [rev]. now rewrite rev_involutive. }
    destruct D as (a & x & -> & A & L). rewrite L in E. destruct (D2 x) as (x1 & y & -> & Y & L2).
    rewrite L2 in E. subst x1. exists a, (b ++ y). split; [now rewrite <- !app_assoc|exact A].
  - intros (a & b & -> & A). unfold strip. rewrite lstrip_white by exact A. cbn [app]. rewrite lstrip_keep by exact W.
    change (c :: tag ++ b) with ((c :: tag) ++ b). rewrite rev_app_distr.
    destruct (lstrip (rev b)) as [|y ys] eqn:B.
    + exists []. rewrite app_nil_r. apply lstrip_nil in B. rewrite lstrip_white by exact B.
      destruct (exists_last (l := c :: tag)) as (r & z & E); [discriminate|]. rewrite E, rev_app_distr. cbn [rev app].
      rewrite lstrip_keep by (eapply Z; exact E). cbn [rev]. now rewrite rev_involutive.
    + rewrite lstrip_app_keep by congruence. rewrite B. exists (rev (y :: ys)).
      rewrite rev_app_distr, rev_involutive. reflexivity.
Qed.
Lemma svg_begins l : starts (tx "<svg") (strip l) = true <-> begins (tx "<svg") l.
Proof.
  apply strip_begins; [rewrite <- space_white; discriminate|]. intros r z E.
  assert (K : tx "<sv" ++ ["g"%char] = r ++ [z]) by exact E. apply app_inj_tail in K as [_ <-].
  rewrite <- space_white. discriminate.
Qed.
Lemma image_begins l : starts (tx "<image") (strip l) = true <-> begins (tx "<image") l.
Proof.
  apply strip_begins; [rewrite <- space_white; discriminate|]. intros r z E.
  assert (K : tx "<imag" ++ ["e"%char] = r ++ [z]) by exact E. apply app_inj_tail in K as [_ <-].
  rewrite <- space_white. discriminate.
Qed.

Lemma find_line_first tag ls l rest : (forall x, In x ls -> starts tag (strip x) = false) ->
  starts tag (strip l) = true -> find_line tag (ls ++ l :: rest) = Some (length ls).
Proof.
  intros N H. induction ls as [|x ls IH]; cbn [app find_line length]; [now rewrite H|].
  rewrite (N x) by now left. rewrite IH by (intros y Y; apply N; now right). reflexivity.
Qed.
Lemma find_line_none tag ls : (forall x, In x ls -> starts tag (strip x) = false) -> find_line tag ls = None.
Proof.
  intros N. induction ls as [|x ls IH]; [reflexivity|]. cbn. rewrite (N x) by now left.
  rewrite IH by (intros y Y; apply N; now right). reflexivity.
Qed.
Lemma skipn_len_app {A} (a b : list A) : skipn (length a) (a ++ b) = b.
Proof. rewrite skipn_app, skipn_all, Nat.sub_diag. reflexivity. Qed.
Lemma firstn_len_app {A} (a b : list A) : firstn (length a) (a ++ b) = a.
Proof. rewrite firstn_app, firstn_all, Nat.sub_diag. cbn. apply app_nil_r. Qed.

Lemma divided_update svg pre post g : divided svg pre post -> update_svg g svg = pre ++ g ++ post.
Proof.
  intros (-> & before & s & between & ls & rest & -> & -> & L & NS & -> & S & I).
  unfold update_svg. rewrite <- concat_app. set (lns := (before ++ s :: ls) ++ rest).
  assert (R : readlines (concat lns) = lns).
  { rewrite <- (app_nil_r (concat lns)), readlines_lines; [apply app_nil_r|]. unfold lns. now rewrite <- app_assoc. }
  rewrite R.
  assert (P : place lns = length (before ++ s :: ls)).
  { unfold place, lns. rewrite <- app_assoc. cbn [app].
    rewrite (find_line_first _ before s (ls ++ rest)).
    - rewrite skipn_len_app. destruct I as [(m & i & E & B & N)|[-> N]].
      + change (s :: ls ++ rest) with ((s :: ls) ++ rest). rewrite E, <- app_assoc. cbn [app].
        rewrite (find_line_first _ m i rest).
        * rewrite !app_length. cbn [length]. symmetry. rewrite Nat.add_1_r. apply Nat.add_succ_r.
        * intros x X. destruct (starts _ _) eqn:Q; [|reflexivity]. apply image_begins in Q.
          rewrite Forall_forall in N. elim (N x X Q).
        * now apply image_begins.
      + rewrite find_line_none.
        * rewrite app_length. cbn [length]. now rewrite Nat.add_1_r.
        * cbn [app]. intros x X. destruct (starts _ _) eqn:Q; [|reflexivity]. apply image_begins in Q.
          rewrite Forall_forall in N. elim (N x X Q).
    - intros x X. destruct (starts _ _) eqn:Q; [|reflexivity]. apply svg_begins in Q.
      rewrite Forall_forall in NS. elim (NS x X Q).
    - now apply svg_begins. }
  rewrite P. unfold lns. rewrite firstn_len_app, skipn_len_app, concat_app. reflexivity.
Qed.
Lemma divided_again svg pre post gs : divided svg pre post ->
  Forall a_line gs -> Forall (fun l => ~ begins (tx "<image") l) gs ->
  divided (pre ++ concat gs ++ post) pre (concat gs ++ post).
Proof.
  intros (-> & before & s & between & ls & rest & -> & -> & L & NS & E & S & I) A N. split; [reflexivity|].
  exists before, s, between, ls, (gs ++ rest).
  split; [reflexivity|]. split; [symmetry; apply concat_app|]. split.
  { rewrite !Forall_app in *. tauto. }
  split; [exact NS|]. split; [exact E|]. split; [exact S|].
  destruct I as [I|[-> I]]; [now left|]. right. split; [reflexivity|].
  inversion I as [|? ? I1 I2]; subst. constructor; [exact I1|]. now apply Forall_app.
Qed.

Lemma nodes_drawn svg : add_nodes svg = Ok (update_svg (svg_nodes nodes) svg).
Proof. reflexivity. Qed.

Lemma lines_of t : forall s, t = s ++ [nl] -> Forall a_line (readlines t) /\ concat (readlines t) = t.
Proof.
  induction t as [|c t IH]; intros s E; [destruct s; discriminate|]. cbn [readlines]. destruct s as [|x s].
  - injection E as -> ->. cbn. split; [|reflexivity]. constructor; [now exists []|constructor].
  - injection E as -> E. destruct (IH s E) as [F C]. destruct (Ascii.eqb_spec x nl) as [->|NE].
    + split; [constructor; [now exists []|exact F]|]. cbn. now rewrite C.
    + destruct (readlines t) as [|l ls] eqn:R; [cbn in C; subst t; destruct s; discriminate|].
      inversion F as [|? ? (z & -> & Z) F']; subst. split.
      * constructor; [|exact F']. exists (x :: z). split; [reflexivity|]. intros [D|D]; [congruence|tauto].
      * cbn. f_equal. exact C.
Qed.

(** The floor plan with links and nodes. *)
Lemma drawn_links float svg log pre post d : divided svg pre post ->
  extract_rssi float log = Ok d -> NoDup (map fst d) ->
  (forall a b s, strength d a b s -> -104 <= s) ->
  (forall a b v, known d a b v -> In a (map fst nodes) /\ In b (map fst nodes)) ->
  exists l ps, drawn d l
    /\ Forall2 (fun (x : (Z * Z) * (Z * Z) * Z) y => In (fst (fst y), fst (fst x)) nodes /\ In (snd (fst y), snd (fst x)) nodes /\ snd x = snd y) ps l
    /\ draw float (Some svg) (Some log)
       = (Some (pre ++ svg_links (map (fun x => svg_line (fst (fst x)) (snd (fst x)) (snd x)) ps)
                ++ svg_nodes nodes ++ post), Ok tt).
Proof.
  intros D E N B P. exists (links (fold_left add_tpl d [])).
  destruct (tpls_collected d N) as [K G].
  destruct (all_lines_ok (fold_left add_tpl d [])) as (ps & A & F).
  { intros a b t I. apply get_in in I; [|exact K]. rewrite G in I.
    assert (S : strength d a b (mean t)) by (apply pair_strength; eauto).
    assert (In a (map fst nodes) /\ In b (map fst nodes)) as [Ia Ib].
    { destruct S as [(_ & v & w & H & _)|(_ & v & [[H _]|[H _]] & _)]; apply P in H; tauto. }
    apply in_map_iff in Ia as ([a' p] & Ea & Ia), Ib as ([b' q] & Eb & Ib). cbn in Ea, Eb. subst. eauto. }
  exists ps. split; [now apply links_drawn|]. split; [exact F|].
  unfold draw. rewrite nodes_drawn, (divided_update _ _ _ (svg_nodes nodes) D), E. cbn [bind].
  unfold add_links. rewrite A. cbn [bind]. rewrite line_group_svg.
  assert (W : exists gs, svg_nodes nodes = concat gs /\ Forall a_line gs /\ Forall (fun l => ~ begins (tx "<image") l) gs).
  { exists (readlines (svg_nodes nodes)).
    destruct (lines_of (svg_nodes nodes) (removelast (svg_nodes nodes))) as [W1 W2]; [vm_compute; reflexivity|].
    split; [now symmetry|]. split; [exact W1|]. apply Forall_forall. intros l I C. apply image_begins in C.
    assert (H : forallb (fun l => negb (starts (tx "<image") (strip l))) (readlines (svg_nodes nodes)) = true)
      by (vm_compute; reflexivity).
    rewrite forallb_forall in H. apply H in I. rewrite C in I. discriminate. }
  destruct W as (gs & -> & W1 & W2).
  rewrite (divided_update _ _ _ _ (divided_again svg pre post gs D W1 W2)). reflexivity.
Qed.

(** Without measurements only the nodes are drawn. *)
Lemma drawn_nodes float svg pre post : divided svg pre post ->
  draw float (Some svg) None = (Some (pre ++ svg_nodes nodes ++ post), Ok tt).
Proof. intros D. unfold draw. now rewrite nodes_drawn, (divided_update _ _ _ _ D). Qed.

(** An unknown node. *)
Lemma drawn_unknown float svg log pre post d a b v : divided svg pre post ->
  extract_rssi float log = Ok d -> NoDup (map fst d) -> known d a b v ->
  ~ In a (map fst nodes) \/ ~ In b (map fst nodes) ->
  draw float (Some svg) (Some log) = (Some (pre ++ svg_nodes nodes ++ post), Err KeyError).
Proof.
  intros D E N KN U. unfold draw. rewrite nodes_drawn, (divided_update _ _ _ _ D), E. cbn [bind].
  unfold add_links. rewrite all_lines_keyerror; [reflexivity|].
  destruct (tpls_collected d N) as [K G].
  assert (S : exists s, strength d (Z.min a b) (Z.max a b) s).
  { destruct (Z.lt_trichotomy a b) as [L|[<-|L]].
    - rewrite Z.min_l, Z.max_r by lia. destruct (get d (b, a)) as [w|] eqn:Q.
      + eexists. left. split; [lia|]. exists v, w. split; [exact KN|]. split; [|reflexivity]. now apply get_in.
      + eexists. right. split; [lia|]. exists v. split; [|reflexivity]. left. split; [exact KN|]. right.
        intros w C. apply get_in in C; [|exact N]. congruence.
    - rewrite Z.min_id, Z.max_id. eexists. right. split; [lia|]. exists v. split; [|reflexivity]. left. auto.
    - rewrite Z.min_r, Z.max_l by lia. destruct (get d (b, a)) as [w|] eqn:Q.
      + eexists. left. split; [lia|]. exists w, v. split; [now apply get_in|]. split; [exact KN|reflexivity].
      + eexists. right. split; [lia|]. exists v. split; [|reflexivity]. right. split; [exact KN|]. right.
        intros w C. apply get_in in C; [|exact N]. congruence. }
  destruct S as (s & S). apply pair_strength in S as (t & T & _); [|exact N].
  exists (Z.min a b), (Z.max a b), t. split; [apply get_in; [exact K|now rewrite G]|].
  destruct (Z.min_spec a b) as [[H1 ->]|[H1 ->]], (Z.max_spec a b) as [[H2 ->]|[H2 ->]]; try lia; tauto.
Qed.
