(** Proofs about the link matrix (C111). *)
From Coq Require Import String Ascii.
From Verif Require Import PyBase LinkModel LinkSpec.
From Coq Require Import QArith Qround.
Open Scope Z_scope.

(* ------------------------------------------------------------------ characters *)

Lemma In_existsb (c : ascii) l : In c l <-> existsb (Ascii.eqb c) l = true.
Proof.
  rewrite existsb_exists. split.
  - intros H. exists c. split; [exact H|apply Ascii.eqb_refl].
  - intros (x & H & E). apply Ascii.eqb_eq in E. now subst.
Qed.

Lemma space_white c : space c = true <-> white c.
Proof.
  unfold white. rewrite In_existsb.
  assert (H : space c = existsb (Ascii.eqb c) (map ascii_of_nat [9; 10; 11; 12; 13; 28; 29; 30; 31; 32]%nat))
    by (destruct c as [[][][][][][][][]]; vm_compute; reflexivity).
  rewrite H. reflexivity.
Qed.
Lemma space_not c : space c = false <-> ~ white c.
Proof. rewrite <- space_white. destruct (space c); intuition congruence. Qed.

Lemma digit_in c : digit c = true <-> In c (tx "0123456789").
Proof.
  rewrite In_existsb.
  assert (H : digit c = existsb (Ascii.eqb c) (tx "0123456789"))
    by (destruct c as [[][][][][][][][]]; vm_compute; reflexivity).
  rewrite H. reflexivity.
Qed.
Lemma digit_not_white c : digit c = true -> ~ white c.
Proof.
  rewrite <- space_white. unfold digit, space. generalize (nat_of_ascii c). intros n.
  rewrite andb_true_iff, orb_true_iff, !andb_true_iff, !Nat.leb_le. lia.
Qed.
Lemma white_not_digit c : white c -> digit c = false.
Proof. intros H. destruct (digit c) eqn:E; [|reflexivity]. elim (digit_not_white c E H). Qed.

Lemma white_nl : white nl.
Proof. apply space_white. reflexivity. Qed.

(* ------------------------------------------------------------------ numbers *)

Lemma numeral_ne ds n : numeral ds n -> ds <> [].
Proof. intros H. destruct H; [discriminate|]. intros C. apply app_eq_nil in C as [_ C]. discriminate. Qed.

Lemma numeral_one c k : numeral [c] k -> digit c = true /\ digit_value c = k.
Proof.
  intros H. remember [c] as s eqn:E. destruct H as [c' k' H|ds n c' k' H1 _].
  - injection E as ->.
    assert (R : 0 <= k' <= 9).
    { destruct (Z_le_dec 0 k') as [L|L].
      - destruct (Z_le_dec k' 9) as [L'|L']; [lia|]. rewrite nth_overflow in H.
        + injection H as _ H. lia.
        + cbn. lia.
      - replace (Z.to_nat k') with 0%nat in H by lia. cbn in H. injection H as _ H. lia. }
    assert (K : k' = 0 \/ k' = 1 \/ k' = 2 \/ k' = 3 \/ k' = 4 \/ k' = 5 \/ k' = 6 \/ k' = 7 \/ k' = 8 \/ k' = 9) by lia.
    clear R. repeat destruct K as [->|K]; [..|subst]; cbn in H; injection H as ->; split; reflexivity.
  - elim (numeral_ne _ _ H1). destruct ds; [reflexivity|]. injection E as _ E. apply app_eq_nil in E as [_ E]. discriminate.
Qed.

Lemma numeral_digits ds n : numeral ds n -> Forall (fun c => digit c = true) ds.
Proof.
  intros H. induction H as [c k H|ds n c k H1 IH H2 _].
  - constructor; [|constructor]. apply (numeral_one c k). now constructor.
  - apply Forall_app. split; [exact IH|]. constructor; [|constructor]. now apply (numeral_one c k).
Qed.

Lemma numeral_fold ds n : numeral ds n -> forall a,
  fold_left (fun a c => 10 * a + digit_value c) ds a = a * 10 ^ Z.of_nat (length ds) + n.
Proof.
  intros H. induction H as [c k H|ds n c k H1 IH H2 _]; intros a.
  - cbn [fold_left length]. destruct (numeral_one c k) as [_ ->]; [now constructor|]. change (Z.of_nat 1) with 1. lia.
  - rewrite fold_left_app. cbn [fold_left]. rewrite IH, app_length, Nat2Z.inj_add.
    destruct (numeral_one c k H2) as [_ ->]. cbn [length]. rewrite Z.pow_add_r by lia. change (Z.of_nat 1) with 1. lia.
Qed.
Lemma int_of_numeral ds n : numeral ds n -> int_of ds = n.
Proof. intros H. unfold int_of. rewrite (numeral_fold ds n H). lia. Qed.

(* ------------------------------------------------------------------ strip *)

Lemma lstrip_white a s : all_white a -> lstrip (a ++ s) = lstrip s.
Proof.
  intros H. induction H as [|c a H _ IH]; [reflexivity|]. cbn [lstrip app].
  apply space_white in H. now rewrite H.
Qed.
Lemma lstrip_keep c s : ~ white c -> lstrip (c :: s) = c :: s.
Proof. intros H. cbn. apply space_not in H. now rewrite H. Qed.
Lemma lstrip_app_keep s w : lstrip s <> [] -> lstrip (s ++ w) = lstrip s ++ w.
Proof.
  induction s as [|c s IH]; cbn; [congruence|]. destruct (space c); [exact IH|reflexivity].
Qed.
Lemma lstrip_nil s : lstrip s = [] -> all_white s.
Proof.
  induction s as [|c s IH]; intros H; [constructor|]. cbn in H. destruct (space c) eqn:E; [|discriminate].
  constructor; [now apply space_white|exact (IH H)].
Qed.
Lemma all_white_rev s : all_white s -> all_white (rev s).
Proof. unfold all_white. rewrite !Forall_forall. intros H x I. apply H. now apply in_rev. Qed.
Lemma strip_white s : all_white s -> strip s = [].
Proof.
  intros H. unfold strip. rewrite <- (app_nil_r s), lstrip_white by exact H. reflexivity.
Qed.
Lemma strip_app_white s w : all_white w -> strip (s ++ w) = strip s.
Proof.
  intros H. unfold strip. destruct (lstrip s) eqn:E.
  - apply lstrip_nil in E. rewrite lstrip_white by exact E.
    rewrite <- (app_nil_r w), lstrip_white by exact H. reflexivity.
  - rewrite lstrip_app_keep by congruence. rewrite rev_app_distr, lstrip_white by now apply all_white_rev.
    now rewrite E.
Qed.
Lemma strip_trimmed a v b : all_white a -> all_white b -> trimmed v -> strip (a ++ v ++ b) = v.
Proof.
  intros Ha Hb ((c & r & -> & Hc) & (r' & z & E & Hz)).
  rewrite app_assoc, strip_app_white by exact Hb. unfold strip. rewrite lstrip_white by exact Ha.
  rewrite lstrip_keep by exact Hc. rewrite E, rev_app_distr. cbn [rev app].
  rewrite lstrip_keep by exact Hz. cbn [rev]. now rewrite rev_involutive.
Qed.
Lemma strip_cell c o : cell c o -> strip c = match o with None => [] | Some v => v end.
Proof.
  destruct o as [v|]; [|apply strip_white]. intros (a & b & -> & Ha & Hb & T). now apply strip_trimmed.
Qed.

Lemma Forall_sub {A} (P : A -> Prop) l l' : Forall P l -> (forall x, In x l' -> In x l) -> Forall P l'.
Proof. rewrite !Forall_forall. auto. Qed.

(** Beyond the end, white space and nothing are the same. *)
Lemma strip_slice a b body w w' : all_white w -> all_white w' ->
  strip (slice a b (body ++ w)) = strip (slice a b (body ++ w')).
Proof.
  assert (K : forall w, all_white w -> strip (slice a b (body ++ w)) = strip (slice a b body)).
  { intros x H. unfold slice. rewrite skipn_app, firstn_app. apply strip_app_white.
    apply Forall_sub with (l := x); [exact H|]. intros y I.
    rewrite <- (firstn_skipn (a - length body) x). apply in_or_app. right.
    rewrite <- (firstn_skipn (b - a - length (skipn a body)) (skipn (a - length body) x)). apply in_or_app. now left. }
  intros H H'. now rewrite !K.
Qed.

(* ------------------------------------------------------------------ the header *)

(** Where the fields are. *)
Fixpoint spans (pos : nat) (fields : list text) (ns : list Z) : list (Z * (nat * nat)) :=
  match fields, ns with
  | f :: fields', n :: ns' => (n, (pos, pos + length f)%nat) :: spans (pos + length f) fields' ns'
  | _, _ => []
  end.
Definition found (st : scan) (pos : nat) : list (Z * (nat * nat)) :=
  match st with Num a v => [(v, (a, pos))] | _ => [] end.
Definition no_num (st : scan) : Prop := match st with Num _ _ => False | _ => True end.

Lemma columns_text pre : Forall (fun c => digit c = false) pre -> forall st pos s, no_num st ->
  exists st', no_num st' /\ columns pos st (pre ++ s) = columns (pos + length pre) st' s.
Proof.
  intros H. induction H as [|c pre H _ IH]; intros st pos s N.
  - exists st. split; [exact N|]. cbn [app length]. now rewrite Nat.add_0_r.
  - cbn [app columns length]. rewrite H. destruct st as [|a|]; cbn [no_num] in N; [| |tauto]; cbn [app];
      rewrite Nat.add_succ_r; destruct (space c); apply (IH _ (S pos) s); exact I.
Qed.
Lemma columns_pre pre pos s : Forall (fun c => digit c = false) pre ->
  (pre = [] \/ exists p z, pre = p ++ [z] /\ ~ white z) ->
  columns pos Out (pre ++ s) = columns (pos + length pre) Out s.
Proof.
  intros H [->|(p & z & -> & Z)]; [cbn [app length]; now rewrite Nat.add_0_r|].
  apply Forall_app in H as [H Hz]. inversion Hz as [|? ? D _ EQ]; subst.
  rewrite <- app_assoc. destruct (columns_text p H Out pos ([z] ++ s) I) as (st' & N & ->).
  cbn [app columns]. rewrite D. apply space_not in Z. rewrite Z, app_length. cbn [length].
  rewrite Nat.add_assoc, Nat.add_1_r. destruct st'; cbn [no_num] in N; [reflexivity..|tauto].
Qed.

Lemma columns_gap b : all_white b -> forall a pos s,
  columns pos (Gap a) (b ++ s) = columns (pos + length b) (Gap a) s.
Proof.
  intros H. induction H as [|c b H _ IH]; intros a pos s; cbn [app columns length]; [now rewrite Nat.add_0_r|].
  rewrite (white_not_digit c H). apply space_white in H. rewrite H. cbn [app]. rewrite IH. f_equal. lia.
Qed.
Lemma columns_num ds : Forall (fun c => digit c = true) ds -> forall a v pos s,
  columns pos (Num a v) (ds ++ s)
  = columns (pos + length ds) (Num a (fold_left (fun a c => 10 * a + digit_value c) ds v)) s.
Proof.
  intros H. induction H as [|c b H _ IH]; intros a v pos s; cbn [app columns length fold_left]; [now rewrite Nat.add_0_r|].
  rewrite H, IH. f_equal. lia.
Qed.
Lemma columns_field f n : field f n -> forall st pos s, (st = Out \/ exists a v, st = Num a v) ->
  columns pos st (f ++ s) = found st pos ++ columns (pos + length f) (Num pos n) s.
Proof.
  intros (b & ds & -> & B & W & N) st pos s S. destruct b as [|c b]; [congruence|]. clear B.
  inversion W as [|? ? Wc Wb]; subst. cbn [app columns]. rewrite (white_not_digit c Wc).
  assert (E : (if space c then match st with Gap a => Gap a | _ => Gap pos end else Out) = Gap pos).
  { apply space_white in Wc. rewrite Wc. destruct S as [->|(a & v & ->)]; reflexivity. }
  rewrite E. fold (found st pos). f_equal. rewrite <- app_assoc, columns_gap by exact Wb.
  pose proof (numeral_digits ds n N) as D. pose proof (int_of_numeral ds n N) as V.
  destruct ds as [|d ds]; [now elim (numeral_ne _ _ N)|]. inversion D as [|? ? Dd Dds]; subst.
  cbn [app columns]. rewrite Dd, columns_num by exact Dds. cbn [length].
  rewrite app_length. cbn [length]. f_equal; lia.
Qed.
Lemma columns_fields fields ns : Forall2 field fields ns -> forall st pos,
  (st = Out \/ exists a v, st = Num a v) ->
  columns pos st (concat fields ++ [nl]) = found st pos ++ spans pos fields ns.
Proof.
  intros H. induction H as [|f n fields ns H _ IH]; intros st pos S.
  - cbn. destruct S as [->|(a & v & ->)]; reflexivity.
  - cbn [concat spans]. rewrite <- app_assoc, (columns_field f n H st pos _ S). f_equal.
    rewrite IH by eauto. reflexivity.
Qed.
Lemma heading_columns h pre fields ns : heading h pre fields ns ->
  columns 0 Out h = spans (length pre) fields ns.
Proof.
  intros (-> & D & P & F). rewrite columns_pre.
  - cbn [Nat.add]. rewrite (columns_fields fields ns F) by auto. reflexivity.
  - revert D. apply Forall_impl. intros c C. destruct (digit c) eqn:E; [|reflexivity]. apply digit_in in E. tauto.
  - exact P.
Qed.
Lemma spans_length pos fields ns : length fields = length ns -> length (spans pos fields ns) = length ns.
Proof.
  revert pos ns. induction fields as [|f fields IH]; intros pos [|n ns] E; try discriminate; [reflexivity|].
  cbn. f_equal. apply IH. now injection E.
Qed.

(* ------------------------------------------------------------------ rows *)

Lemma span_all p a s : Forall (fun c => p c = true) a ->
  (match s with [] => True | c :: _ => p c = false end) -> span p (a ++ s) = (a, s).
Proof.
  intros H S. induction H as [|c a H _ IH]; cbn [app span].
  - destruct s; cbn; [reflexivity|]. now rewrite S.
  - now rewrite H, IH.
Qed.

Lemma white_space a : all_white a -> Forall (fun c => space c = true) a.
Proof. apply Forall_impl. intros c. apply space_white. Qed.

Lemma label_start lab n s : label lab n -> row_start (lab ++ s) = Some (n, length lab).
Proof.
  intros (a & ds & b & -> & A & B & N). unfold row_start.
  pose proof (numeral_digits _ _ N) as D. pose proof (numeral_ne _ _ N) as NE.
  rewrite <- app_assoc. rewrite (span_all space a).
  2: { now apply white_space. }
  2: { destruct ds as [|d ds]; [congruence|]. cbn. inversion D as [|? ? Dd _]; subst.
       apply space_not. now apply digit_not_white. }
  rewrite <- app_assoc. rewrite (span_all digit ds).
  2: { exact D. }
  2: { destruct b as [|c b]; cbn; [reflexivity|]. inversion B. now apply white_not_digit. }
  rewrite <- app_assoc. rewrite (span_all space b).
  2: { now apply white_space. }
  2: { reflexivity. }
  cbn [app]. destruct ds as [|d ds]; [congruence|]. rewrite (int_of_numeral _ _ N). cbn [Ascii.eqb Bool.eqb].
  rewrite !app_length. cbn [length]. f_equal. f_equal. lia.
Qed.

(** The label is part of the line, although blanks at its end may be missing. *)
Lemma label_prefix lab n body rest x : label lab n -> all_white rest -> body ++ rest = lab ++ x ->
  exists y, body = lab ++ y.
Proof.
  intros (a & ds & b & E & _) R H. apply app_eq_app in H as (l & [[H1 H2]|[H1 H2]]); [now exists l|].
  destruct l as [|c l] using rev_ind; [exists []; rewrite app_nil_r in *; congruence|].
  assert (c = "|"%char) as ->.
  { rewrite E in H1. rewrite !app_assoc in H1. apply app_inj_tail in H1. now symmetry. }
  exfalso. unfold all_white in R. rewrite H2, Forall_app, Forall_app in R. destruct R as [[_ R] _].
  inversion R as [|? ? W _]; subst. apply space_white in W. discriminate.
Qed.

Lemma slice_exact (p c s : text) : slice (length p) (length (p ++ c)) (p ++ c ++ s) = c.
Proof.
  unfold slice. rewrite skipn_app, skipn_all, Nat.sub_diag. cbn [skipn app].
  rewrite app_length. replace (length p + length c - length p)%nat with (length c) by lia.
  rewrite firstn_app, firstn_all, Nat.sub_diag. cbn. apply app_nil_r.
Qed.

Section Float.
Variable float : text -> res Q.

(** The entries in the order of reading. *)
Fixpoint puts (l : list ((Z * Z) * text)) (r : list ((Z * Z) * Q)) : res (list ((Z * Z) * Q)) :=
  match l with
  | [] => Ok r
  | (k, v) :: l' => let* x := float v in puts l' (put r k x)
  end.
Lemma puts_app l1 l2 r : puts (l1 ++ l2) r = (let* r' := puts l1 r in puts l2 r').
Proof.
  revert r. induction l1 as [|[k v] l1 IH]; intros r; [reflexivity|]. cbn [app puts].
  destruct (float v); cbn [bind]; [apply IH|reflexivity].
Qed.
Fixpoint row_entries (n : Z) (cols : list Z) (os : list (option text)) : list ((Z * Z) * text) :=
  match cols, os with
  | m :: cols', Some v :: os' => ((n, m), v) :: row_entries n cols' os'
  | _ :: cols', None :: os' => row_entries n cols' os'
  | _, _ => []
  end.

Lemma cells_read n off body x : forall cs fs cols os p r,
  all_white x -> map (@length ascii) cs = map (@length ascii) fs -> Forall2 cell cs os ->
  length cols = length fs -> (off <= length p)%nat ->
  forall rest, all_white rest -> body ++ rest = p ++ concat cs ->
  row_cells float n off (body ++ x) (spans (length p) fs cols) r = puts (row_entries n cols os) r.
Proof.
  intros cs fs. revert cs. induction fs as [|f fs IH]; intros cs cols os p r X M C L O rest R E.
  - destruct cols; [|discriminate]. reflexivity.
  - destruct cols as [|m cols]; [discriminate|]. destruct cs as [|c cs]; [discriminate|].
    cbn [map] in M. injection M as M1 M2. inversion C as [|? o ? os' C1 C2]; subst. cbn [spans row_cells].
    rewrite Nat.max_l by exact O.
    assert (S : strip (slice (length p) (length p + length f) (body ++ x)) = match o with None => [] | Some v => v end).
    { rewrite (strip_slice _ _ body x rest X R), E. cbn [concat]. rewrite <- M1, <- app_length, slice_exact.
      now apply strip_cell. }
    rewrite S. rewrite <- M1, <- app_length.
    assert (K : forall r', row_cells float n off (body ++ x) (spans (length (p ++ c)) fs cols) r'
                           = puts (row_entries n cols os') r').
    { intros r'. apply IH with (cs := cs) (rest := rest); try assumption; [now injection L| |].
      - rewrite app_length. lia.
      - rewrite E. cbn [concat]. now rewrite app_assoc. }
    cbn [row_entries]. destruct o as [v|]; [|apply K].
    destruct C1 as (? & ? & _ & _ & _ & ((z & z' & -> & _) & _)). cbn [puts].
    destruct (float (z :: z')); cbn [bind]; [apply K|reflexivity].
Qed.

Lemma row_read pre fields cols l n os r : row pre fields l n os -> length cols = length fields ->
  exists off, row_start l = Some (n, off)
    /\ row_cells float n off l (spans (length pre) fields cols) r = puts (row_entries n cols os) r.
Proof.
  intros (lab & pad & cells & body & rest & -> & _ & R & E & LB & C & M) L.
  destruct (label_prefix lab n body rest _ LB R E) as (y & Y). exists (length lab). split.
  { rewrite Y, <- app_assoc. now apply label_start. }
  assert (X : all_white [nl]) by (constructor; [apply white_nl|constructor]).
  destruct cells as [|c cs].
  { destruct M as [_ ->]. destruct cols; [|discriminate]. reflexivity. }
  destruct fields as [|f fs]; [destruct M; discriminate|]. destruct M as (M1 & M2 & M3).
  destruct cols as [|m cols]; [discriminate|]. inversion C as [|? o ? os' C1 C2]; subst os. cbn [spans row_cells].
  assert (S : strip (slice (Nat.max (length pre) (length lab)) (length pre + length f) (body ++ [nl]))
              = match o with None => [] | Some v => v end).
  { rewrite (strip_slice _ _ body [nl] rest X R), E.
    replace (Nat.max (length pre) (length lab)) with (length (lab ++ pad)).
    - rewrite <- app_length, <- M1, app_assoc. cbn [concat]. rewrite app_assoc, slice_exact. now apply strip_cell.
    - rewrite app_length in *. destruct M2 as [[M2 ->]|M2]; [cbn [length]|]; lia. }
  rewrite S.
  assert (K : forall r', row_cells float n (length lab) (body ++ [nl]) (spans (length pre + length f) fs cols) r'
                         = puts (row_entries n cols os') r').
  { intros r'. rewrite <- app_length, <- M1. apply (cells_read n (length lab) body [nl] cs fs cols os' _ r') with (rest := rest);
      try assumption; [now injection L| |].
    - rewrite app_length. lia.
    - rewrite E. cbn [concat]. now rewrite !app_assoc. }
  cbn [row_entries]. destruct o as [v|]; [|apply K].
  destruct C1 as (? & ? & _ & _ & _ & ((z & z' & -> & _) & _)). cbn [puts].
  destruct (float (z :: z')); cbn [bind]; [apply K|reflexivity].
Qed.

Definition all_entries (cols : list Z) (rws : list (Z * list (option text))) : list ((Z * Z) * text) :=
  flat_map (fun r => row_entries (fst r) cols (snd r)) rws.

Lemma rows_read pre fields cols ls rws : length cols = length fields ->
  Forall2 (fun l r => row pre fields l (fst r) (snd r)) ls rws -> forall r,
  rows float (spans (length pre) fields cols) ls r = puts (all_entries cols rws) r.
Proof.
  intros L H. induction H as [|l [n os] ls rws H _ IH]; intros r; [reflexivity|]. cbn [rows all_entries flat_map fst snd].
  destruct (row_read pre fields cols l n os r H L) as (off & -> & ->). rewrite puts_app.
  destruct (puts (row_entries n cols os) r); cbn [bind]; [apply IH|reflexivity].
Qed.
End Float.

(* ------------------------------------------------------------------ finding the matrix *)

Lemma starts_iff p s : starts p s = true <-> exists b, s = p ++ b.
Proof.
  revert s. induction p as [|a p IH]; intros s; cbn [starts app].
  - split; [now exists s|reflexivity].
  - destruct s as [|c s].
    + split; [discriminate|]. intros (b & E). discriminate.
    + rewrite andb_true_iff, Ascii.eqb_eq, IH. split.
      * intros (-> & b & ->). now exists b.
      * intros (b & E). injection E as -> ->. split; [reflexivity|now exists b].
Qed.
Lemma occurs_iff p s : occurs p s = true <-> exists a b, s = a ++ p ++ b.
Proof.
  induction s as [|c s IH]; cbn [occurs]; rewrite orb_true_iff, starts_iff.
  - split.
    + intros [(b & E)|C]; [now exists [], b|discriminate].
    + intros (a & b & E). left. destruct a; [now exists b|discriminate].
  - rewrite IH. split.
    + intros [(b & E)|(a & b & ->)]; [now exists [], b|now exists (c :: a), b].
    + intros (a & b & E). destruct a as [|x a]; [left; now exists b|]. injection E as -> E. right. now exists a, b.
Qed.

Lemma lower_of c k : In k (tx "link matrix:") -> lower c = k <-> c = k \/ c = upper_of k.
Proof.
  intros H. rewrite <- !Ascii.eqb_eq, <- orb_true_iff.
  assert (E : Ascii.eqb (lower c) k = Ascii.eqb c k || Ascii.eqb c (upper_of k)); [|now rewrite E].
  cbn in H. repeat destruct H as [<-|H]; [..|tauto]; destruct c as [[][][][][][][][]]; vm_compute; reflexivity.
Qed.
Lemma lower_text m k : (forall c, In c k -> In c (tx "link matrix:")) ->
  map lower m = k <-> Forall2 (fun c k => c = k \/ c = upper_of k) m k.
Proof.
  revert k. induction m as [|c m IH]; intros k I; cbn [map].
  - split; [intros <-; constructor|]. intros H. now inversion H.
  - destruct k as [|x k]; [split; [discriminate|intros H; inversion H]|]. split.
    + intros E. injection E as E1 E2. constructor; [apply lower_of; [apply I; now left|exact E1]|].
      apply IH; [intros y Y; apply I; now right|exact E2].
    + intros H. inversion H as [|? ? ? ? H1 H2]; subst. f_equal; [apply lower_of; [apply I; now left|exact H1]|].
      apply IH; [intros y Y; apply I; now right|exact H2].
Qed.
Lemma title_iff l : occurs (tx "link matrix:") (map lower l) = true <-> title l.
Proof.
  rewrite occurs_iff. split.
  - intros (a & b & E). apply map_eq_app in E as (l1 & l' & -> & <- & E).
    apply map_eq_app in E as (m & l2 & -> & E & <-). exists l1, m, l2. split; [reflexivity|].
    apply lower_text; auto.
  - intros (a & m & b & -> & F). apply lower_text in F; [|auto]. rewrite !map_app, F. eauto.
Qed.

Lemma readlines_line s t : ~ In nl s -> readlines (s ++ [nl] ++ t) = (s ++ [nl]) :: readlines t.
Proof.
  intros H. induction s as [|c s IH]; [reflexivity|]. cbn [app readlines].
  destruct (Ascii.eqb_spec c nl) as [->|_]; [elim H; now left|].
  cbn [app] in IH. rewrite IH by (intros C; apply H; now right). reflexivity.
Qed.
Lemma readlines_a_line l t : a_line l -> readlines (l ++ t) = l :: readlines t.
Proof. intros (s & -> & N). rewrite <- app_assoc. now apply readlines_line. Qed.
Lemma readlines_lines ls t : Forall a_line ls -> readlines (concat ls ++ t) = ls ++ readlines t.
Proof.
  intros H. induction H as [|l ls H _ IH]; [reflexivity|]. cbn [concat app].
  now rewrite <- app_assoc, readlines_a_line, IH.
Qed.

Lemma not_blank l c : In c l -> ~ white c -> is_space l = false.
Proof.
  intros I W. destruct l as [|x l]; [reflexivity|]. cbn [is_space].
  destruct (forallb space (x :: l)) eqn:E; [|reflexivity]. rewrite forallb_forall in E.
  apply E, space_white in I. tauto.
Qed.

Lemma matrix_lines_reading ls after : Forall (fun l => is_space l = false) ls ->
  (after = [] \/ exists bl rest, after = bl ++ [nl] ++ rest /\ all_white bl /\ ~ In nl bl) ->
  Forall a_line ls -> matrix_lines true (readlines (concat ls ++ after)) = ls.
Proof.
  intros H A L. rewrite readlines_lines by exact L. clear L. induction H as [|l ls H _ IH].
  - cbn [app]. destruct A as [->|(bl & rest & -> & W & N)]; [reflexivity|]. rewrite readlines_line by exact N.
    cbn [matrix_lines]. replace (is_space (bl ++ [nl])) with true; [reflexivity|].
    assert (F : forallb space (bl ++ [nl]) = true).
    { apply forallb_forall. intros x I. apply space_white. apply in_app_or in I as [I|[<-|[]]]; [|apply white_nl].
      unfold all_white in W. rewrite Forall_forall in W. auto. }
    unfold is_space. rewrite F. destruct bl; reflexivity.
  - cbn [app matrix_lines]. now rewrite H, IH.
Qed.
Lemma matrix_lines_title before ti t : Forall a_line before -> Forall (fun l => ~ title l) before ->
  a_line ti -> title ti ->
  matrix_lines false (readlines (concat before ++ ti ++ t)) = matrix_lines true (readlines t).
Proof.
  intros L N A T. rewrite readlines_lines by exact L. clear L. induction N as [|l ls N _ IH].
  - cbn [app]. rewrite readlines_a_line by exact A. cbn [matrix_lines]. apply title_iff in T. now rewrite T.
  - cbn [app matrix_lines]. destruct (occurs _ _) eqn:E; [|exact IH]. apply title_iff in E. tauto.
Qed.

(* ------------------------------------------------------------------ the dictionary *)

Lemma key_eqb_eq a b : key_eqb a b = true <-> a = b.
Proof.
  unfold key_eqb. rewrite andb_true_iff, !Z.eqb_eq. destruct a, b; cbn. split; [intros [-> ->]; reflexivity|].
  intros E. injection E as -> ->. now split.
Qed.
Lemma key_eqb_neq a b : key_eqb a b = false <-> a <> b.
Proof. rewrite <- key_eqb_eq. destruct (key_eqb a b); intuition congruence. Qed.

Lemma put_new {A} d k (v : A) : ~ In k (map fst d) -> put d k v = d ++ [(k, v)].
Proof.
  induction d as [|[k' v'] d IH]; intros N; [reflexivity|]. cbn [put app]. cbn [map fst] in N.
  destruct (key_eqb k k') eqn:E; [apply key_eqb_eq in E; subst; elim N; now left|].
  f_equal. apply IH. intros C. apply N. now right.
Qed.

Section Puts.
Variable float : text -> res Q.

Lemma puts_fresh l : forall r, NoDup (map fst r ++ map fst l) ->
  (forall k v, In (k, v) l -> exists x, float v = Ok x) ->
  exists xs, puts float l r = Ok (r ++ xs) /\ map fst xs = map fst l
    /\ forall k x, In (k, x) xs <-> exists v, In (k, v) l /\ float v = Ok x.
Proof.
  induction l as [|[k v] l IH]; intros r N F.
  - exists []. cbn [puts]. rewrite app_nil_r. split; [reflexivity|]. split; [reflexivity|].
    intros k x. split; [intros []|]. intros (v & [] & _).
  - destruct (F k v) as (x & X); [now left|]. cbn [puts]. rewrite X. cbn [bind].
    assert (NK : ~ In k (map fst r)).
    { intros C. cbn [map fst] in N. apply NoDup_remove_2 in N. apply N. apply in_or_app. now left. }
    rewrite put_new by exact NK.
    destruct (IH (r ++ [(k, x)])) as (xs & E & M & S).
    + rewrite map_app. cbn [map fst]. rewrite <- app_assoc. exact N.
    + intros k' v' I. apply (F k' v'). now right.
    + exists ((k, x) :: xs). rewrite E, <- app_assoc. split; [reflexivity|]. split; [cbn; now rewrite M|].
      intros k' x'. cbn [In]. rewrite S. split.
      * intros [E'|(v' & I & E')]; [injection E' as <- <-; eauto|eauto].
      * intros (v' & [E'|I] & E2); [injection E' as <- <-; left; congruence|eauto].
Qed.

Lemma puts_fail l : forall r e, puts float l r = Err e -> exists k v, In (k, v) l /\ float v = Err e.
Proof.
  induction l as [|[k v] l IH]; intros r e E; [discriminate|]. cbn [puts] in E.
  destruct (float v) eqn:F; cbn [bind] in E.
  - destruct (IH _ _ E) as (k' & v' & I & X). exists k', v'. split; [now right|exact X].
  - exists k, v. split; [now left|congruence].
Qed.
Lemma puts_bad l : forall r k v e, In (k, v) l -> float v = Err e -> exists e', puts float l r = Err e'.
Proof.
  induction l as [|[k' v'] l IH]; intros r k v e I F; [destruct I|]. cbn [puts].
  destruct (float v') as [x|e'] eqn:F'; cbn [bind]; [|now exists e'].
  destruct I as [E|I]; [injection E as -> ->; congruence|]. eauto.
Qed.
End Puts.

Lemma row_entries_in n cols : forall os k v, In (k, v) (row_entries n cols os) <->
  exists j m, k = (n, m) /\ nth_error cols j = Some m /\ nth_error os j = Some (Some v).
Proof.
  induction cols as [|c cols IH]; intros os k v.
  { cbn. split; [intros []|]. intros (j & m & _ & C & _). destruct j; discriminate. }
  destruct os as [|o os].
  { cbn. split; [intros []|]. intros (j & m & _ & _ & C). destruct j; discriminate. }
  assert (K : In (k, v) (row_entries n cols os) ->
    exists j m, k = (n, m) /\ nth_error (c :: cols) j = Some m /\ nth_error (o :: os) j = Some (Some v)).
  { intros H. apply IH in H as (j & m & H). exists (S j), m. exact H. }
  destruct o as [w|]; cbn [row_entries In].
  - split.
    + intros [E|H]; [injection E as <- <-; exists 0%nat, c; auto|auto].
    + intros (j & m & -> & H1 & H2). destruct j as [|j]; cbn in H1, H2.
      * left. congruence.
      * right. apply IH. eauto.
  - split; [exact K|]. intros (j & m & -> & H1 & H2). destruct j as [|j]; cbn in H1, H2; [discriminate|].
    apply IH. eauto.
Qed.
Lemma all_entries_in cols rws k v : In (k, v) (all_entries cols rws) <->
  exists n m, k = (n, m) /\ entry cols rws n m v.
Proof.
  unfold all_entries. rewrite in_flat_map. split.
  - intros ([n os] & I & H). apply row_entries_in in H as (j & m & -> & H1 & H2).
    exists n, m. split; [reflexivity|]. exists os, j. auto.
  - intros (n & m & -> & os & j & I & H1 & H2). exists (n, os). split; [exact I|].
    apply row_entries_in. eauto.
Qed.

Lemma row_entries_keys n cols : NoDup cols -> forall os, NoDup (map fst (row_entries n cols os)).
Proof.
  intros N. induction N as [|c cols NI _ IH]; intros os; [constructor|].
  destruct os as [|[w|] os]; cbn [row_entries map fst]; [constructor| |apply IH].
  constructor; [|apply IH]. intros C. apply in_map_iff in C as ([k v] & E & I). cbn in E. subst.
  apply row_entries_in in I as (j & m & E & H & _). injection E as <-. apply nth_error_In in H. tauto.
Qed.
Lemma NoDup_app_intro {A} (l1 l2 : list A) : NoDup l1 -> NoDup l2 -> (forall x, In x l1 -> ~ In x l2) -> NoDup (l1 ++ l2).
Proof.
  intros H1 H2 D. induction H1 as [|x l1 NI _ IH]; [exact H2|]. cbn. constructor.
  - intros C. apply in_app_or in C as [C|C]; [tauto|]. apply (D x); [now left|exact C].
  - apply IH. intros y Y. apply D. now right.
Qed.
Lemma all_entries_keys cols rws : NoDup cols -> NoDup (map fst rws) -> NoDup (map fst (all_entries cols rws)).
Proof.
  intros C N. induction rws as [|[n os] rws IH]; [constructor|]. cbn [map fst] in N. inversion N as [|? ? NI N']; subst.
  unfold all_entries in *. cbn [flat_map fst snd]. rewrite map_app. apply NoDup_app_intro.
  - now apply row_entries_keys.
  - now apply IH.
  - intros k K1 K2. apply in_map_iff in K1 as ([k1 v1] & E1 & I1). cbn in E1. subst.
    apply row_entries_in in I1 as (j & m & -> & _). apply in_map_iff in K2 as ([k2 v2] & E2 & I2). cbn in E2. subst.
    apply (all_entries_in cols rws) in I2 as (n' & m' & E & os' & j' & I & _). injection E as <- <-.
    apply NI. apply in_map_iff. exists (n, os'). auto.
Qed.

(* ------------------------------------------------------------------ the log *)

Lemma row_a_line pre fields l n os : row pre fields l n os -> a_line l /\ is_space l = false.
Proof.
  intros (lab & pad & cells & body & rest & -> & N & R & E & LB & _). split; [now exists body|].
  destruct (label_prefix lab n body rest _ LB R E) as (y & ->).
  destruct LB as (a & ds & b & -> & _). apply not_blank with (c := "|"%char).
  - rewrite !in_app_iff. left. left. right. right. right. now left.
  - rewrite <- space_white. discriminate.
Qed.

Lemma log_lines log pre fields cols rws : matrix_log log pre fields cols rws -> cols <> [] ->
  exists h sep ls, matrix_lines false (readlines log) = h :: sep :: ls /\ heading h pre fields cols
    /\ Forall2 (fun l r => row pre fields l (fst r) (snd r)) ls rws.
Proof.
  intros (before & ti & h & sep & ls & after & -> & L & N & Lt & T & NL & H & Ls & S & R & A) NE.
  exists h, sep, ls. split; [|now split]. rewrite matrix_lines_title by assumption.
  replace (h ++ sep ++ concat ls ++ after) with (concat (h :: sep :: ls) ++ after)
    by (cbn [concat]; now rewrite !app_assoc).
  apply matrix_lines_reading; [|exact A|].
  - constructor; [|constructor].
    + destruct H as (-> & _ & _ & F). destruct F as [|f n fields ns F _]; [congruence|].
      destruct F as (b & ds & -> & _ & _ & D). pose proof (numeral_digits _ _ D) as Dg.
      destruct ds as [|d ds]; [now elim (numeral_ne _ _ D)|]. inversion Dg as [|? ? Dd _]; subst.
      apply not_blank with (c := d); [|now apply digit_not_white]. cbn [concat]. rewrite !in_app_iff. cbn [In]. tauto.
    + destruct (Forall_dec (fun c => space c = true) (fun c => bool_dec (space c) true) sep) as [W|W].
      * elim S. revert W. apply Forall_impl. intros c. apply space_white.
      * unfold is_space. destruct sep; [reflexivity|]. destruct (forallb space _) eqn:E; [|reflexivity].
        elim W. apply Forall_forall. intros x. now apply forallb_forall.
    + clear -R. induction R as [|l r ls rws R _ IH]; constructor; [|exact IH]. now apply row_a_line in R.
  - constructor; [|constructor; [exact Ls|]].
    + destruct H as (-> & _). rewrite app_assoc. now exists (pre ++ concat fields).
    + clear -R. induction R as [|l r ls rws R _ IH]; constructor; [|exact IH]. now apply row_a_line in R.
Qed.

Lemma Forall2_len {A B} (R : A -> B -> Prop) l l' : Forall2 R l l' -> length l = length l'.
Proof. intros H. induction H; [reflexivity|cbn; congruence]. Qed.

Lemma extract_entries float log pre fields cols rws :
  matrix_log log pre fields cols rws -> cols <> [] ->
  extract_rssi float log
  = if (length cols =? length rws)%nat then puts float (all_entries cols rws) [] else Err RuntimeError.
Proof.
  intros M NE. destruct (log_lines _ _ _ _ _ M NE) as (h & sep & ls & E & H & R).
  unfold extract_rssi. rewrite E, (heading_columns _ _ _ _ H).
  pose proof (Forall2_len _ _ _ R) as LR. destruct H as (_ & _ & _ & F). pose proof (Forall2_len _ _ _ F) as LF.
  rewrite spans_length by exact LF. cbn [skipn].
  replace (Z.of_nat (length (h :: sep :: ls)) - 2) with (Z.of_nat (length ls)) by (cbn [length]; lia).
  rewrite LR. destruct (Nat.eqb_spec (length cols) (length rws)) as [Q|Q].
  - rewrite Q, Z.eqb_refl. apply rows_read; [now symmetry|exact R].
  - replace (Z.of_nat (length cols) =? Z.of_nat (length rws)) with false; [reflexivity|].
    symmetry. apply Z.eqb_neq. lia.
Qed.

Lemma matrix_read float log pre fields cols rws :
  matrix_log log pre fields cols rws -> cols <> [] -> length rws = length cols ->
  NoDup cols -> NoDup (map fst rws) ->
  (forall n m v, entry cols rws n m v -> exists x, float v = Ok x) ->
  exists d, extract_rssi float log = Ok d /\ NoDup (map fst d)
    /\ forall n m x, In ((n, m), x) d <-> exists v, entry cols rws n m v /\ float v = Ok x.
Proof.
  intros M NE L NC NR F. rewrite (extract_entries _ _ _ _ _ _ M NE), L, Nat.eqb_refl.
  destruct (puts_fresh float (all_entries cols rws) []) as (xs & E & K & S).
  - cbn [map app]. now apply all_entries_keys.
  - intros k v I. apply all_entries_in in I as (n & m & _ & H). eauto.
  - exists xs. split; [exact E|]. split; [rewrite K; now apply all_entries_keys|].
    intros n m x. rewrite S. split.
    + intros (v & I & X). apply all_entries_in in I as (n' & m' & Q & H). injection Q as <- <-. eauto.
    + intros (v & I & X). exists v. split; [|exact X]. apply all_entries_in. eauto.
Qed.
Lemma matrix_bad float log pre fields cols rws n m v e :
  matrix_log log pre fields cols rws -> cols <> [] -> length rws = length cols ->
  entry cols rws n m v -> float v = Err e -> (forall w e', float w = Err e' -> e' = e) ->
  extract_rssi float log = Err e.
Proof.
  intros M NE L EN F U. rewrite (extract_entries _ _ _ _ _ _ M NE), L, Nat.eqb_refl.
  destruct (puts_bad float (all_entries cols rws) [] (n, m) v e) as (e' & E); [|exact F|].
  - apply all_entries_in. eauto.
  - rewrite E. destruct (puts_fail _ _ _ _ E) as (k & w & _ & W). f_equal. eauto.
Qed.
Lemma matrix_uneven float log pre fields cols rws :
  matrix_log log pre fields cols rws -> cols <> [] -> length rws <> length cols ->
  extract_rssi float log = Err RuntimeError.
Proof.
  intros M NE L. rewrite (extract_entries _ _ _ _ _ _ M NE).
  destruct (Nat.eqb_spec (length cols) (length rws)); [congruence|reflexivity].
Qed.
Lemma no_matrix float ls : Forall a_line ls -> Forall (fun l => ~ title l) ls ->
  extract_rssi float (concat ls) = Err IndexError.
Proof.
  intros L N. unfold extract_rssi.
  replace (matrix_lines false (readlines (concat ls))) with (@nil text); [reflexivity|].
  rewrite <- (app_nil_r (concat ls)), readlines_lines, app_nil_r by exact L. clear L. induction N as [|l ls N _ IH]; [reflexivity|].
  cbn [matrix_lines]. destruct (occurs _ _) eqn:E; [|exact IH]. apply title_iff in E. tauto.
Qed.
