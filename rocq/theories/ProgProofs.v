(** Proofs about tasks for programming. *)
From Coq Require Import String Ascii QArith.
From Verif Require Import PyBase FileModel FileSpec FileSysProofs FwModel FwProofs StoModel StoProofs ProgSpec.
Open Scope Z_scope.
Open Scope list_scope.

(** A field of an accepted instance. *)
Definition field_of (fresh : string -> pval) (now : Z) (m : list (string * yval)) (f : string * (ty * dflt)) (r : string * (bool * pval)) : Prop :=
  fst r = fst f /\
  match assoc (fst f) m with
  | Some y => fst (snd r) = true /\ validate fresh now (fst (snd f)) y = Ok (snd (snd r))
  | None => fst (snd r) = false /\ match snd (snd f) with
            | Required => False | Const v => snd (snd r) = v | Factory => snd (snd r) = fresh (fst f) end
  end.

Lemma obj_inv fresh now n pre fields post y p : validate fresh now (TObj n pre fields post) y = Ok p ->
  exists m m' fs, y = YMap m /\ pre m = Ok m' /\ p = PObj fs /\ Forall2 (field_of fresh now m') fields fs /\ post now (values fs) = true.
Proof.
  destruct y as [| | | | | | | m | | | |]; try discriminate. cbn [validate].
  destruct (pre m) as [m'|] eqn:E; [|discriminate]. cbn [bind]. destruct (forallb _ m'); [|discriminate].
  match goal with |- (let* _ := ?X in _) = _ -> _ => destruct X as [fs|] eqn:F end; [|discriminate]. cbn [bind].
  destruct (post now (values fs)) eqn:P; [|discriminate]. intros H. injection H as <-.
  exists m, m', fs. repeat split; auto. apply each_inv in F. clear -F.
  induction F as [|[k [t d]] r l rs H _ IH]; constructor; [|exact IH].
  unfold field_of. cbn [fst snd]. destruct (assoc k m') as [y'|].
  - destruct (validate fresh now t y') as [v|]; [|discriminate]. cbn [bind] in H. injection H as <-. cbn. auto.
  - destruct d; [discriminate| |]; injection H as <-; cbn; auto.
Qed.

Lemma obj_ok fresh now n pre fields post m m' fs : pre m = Ok m' ->
  forallb (fun kv => existsb (String.eqb (fst kv)) (map fst fields)) m' = true ->
  Forall2 (field_of fresh now m') fields fs -> post now (values fs) = true ->
  validate fresh now (TObj n pre fields post) (YMap m) = Ok (PObj fs).
Proof.
  intros H1 H2 H3 H4. cbn [validate]. rewrite H1. cbn [bind]. rewrite H2.
  match goal with |- (let* _ := ?X in _) = _ => replace X with (@Ok (list (string * (bool * pval))) fs) end; [cbn [bind]; rewrite H4; reflexivity|].
  symmetry. apply each_ok. clear -H3. induction H3 as [|[k [t d]] [k' [s v]] l rs H _ IH]; constructor; [|exact IH].
  unfold field_of in H. cbn [fst snd] in H. destruct H as [-> H]. destruct (assoc k m') as [y|].
  - destruct H as [-> H]. rewrite H. reflexivity.
  - destruct H as [-> H]. destruct d; [contradiction| |]; subst v; reflexivity.
Qed.

Lemma attr_here n s v fs : attr n (PObj ((n, (s, v)) :: fs)) = Some v.
Proof. unfold attr. cbn [assoc]. rewrite String.eqb_refl. reflexivity. Qed.
Lemma attr_there n k s v fs : (k =? n)%string = false -> attr n (PObj ((k, (s, v)) :: fs)) = attr n (PObj fs).
Proof. intros E. unfold attr. cbn [assoc]. rewrite E. reflexivity. Qed.

(** Values of a field by its type. *)
Lemma int_value fresh now ok y v : validate fresh now (TInt ok) y = Ok v -> exists z, v = PInt z /\ ok z = true.
Proof. destruct y; try discriminate. cbn [validate]. destruct (ok z) eqn:E; [|discriminate]. intros H. injection H as <-. eauto. Qed.
Lemma float_value fresh now ok y v : validate fresh now (TFloat ok) y = Ok v -> exists q, v = PFloat q /\ ok q = true.
Proof.
  destruct y; try discriminate; cbn [validate].
  - destruct (ok (inject_Z z)) eqn:E; [|discriminate]. intros H. injection H as <-. eauto.
  - destruct (ok q) eqn:E; [|discriminate]. intros H. injection H as <-. eauto.
Qed.
Lemma str_value fresh now ok y v : validate fresh now (TStr ok) y = Ok v -> exists s, v = PStr s /\ ok s = true.
Proof. destruct y; try discriminate. cbn [validate]. destruct (ok (strip s)) eqn:E; [|discriminate]. intros H. injection H as <-. eauto. Qed.
Lemma path_value fresh now y v : validate fresh now TPath y = Ok v -> exists s, v = PPath s.
Proof. destruct y; try discriminate; cbn [validate]; intros H; injection H as <-; eauto. Qed.

Lemma between_iff lo hi z : between lo hi z = true <-> lo <= z <= hi.
Proof. unfold between. rewrite andb_true_iff, !Z.leb_le. reflexivity. Qed.
Lemma member l s : existsb (String.eqb s) l = true -> In s l.
Proof. intros H. apply existsb_exists in H as (x & I & E). apply String.eqb_eq in E. now subst. Qed.
Lemma safe_readable s : safe_str s = true <-> readable s.
Proof.
  unfold readable. destruct s as [|c s]; [split; [discriminate|intros [H _]; now contradiction H]|].
  unfold safe_str. split.
  - intros H. split; [discriminate|]. intros d I. rewrite forallb_forall in H. specialize (H d I). cbv zeta beta in H.
    apply andb_prop in H as [H1 H2]. apply Nat.leb_le in H1, H2. lia.
  - intros [_ H]. apply forallb_forall. intros d I. specialize (H d I). apply andb_true_intro. split; apply Nat.leb_le; lia.
Qed.

(** Last part of a path *)
Lemma base_parts s : exists folder, s = folder ++ base_of s /\
  (forall c, In c (base_of s) -> c <> "/"%char) /\ (folder = [] \/ exists f, folder = f ++ ["/"%char]).
Proof.
  induction s as [|c s IH]; [exists []; cbn; auto|]. cbn [base_of].
  assert (N : existsb (Ascii.eqb "/") s = false -> forall d, In d s -> d <> "/"%char).
  { intros E d I ->. assert (X : existsb (Ascii.eqb "/") s = true) by (apply existsb_exists; exists "/"%char; split; [exact I|reflexivity]). congruence. }
  destruct (existsb (Ascii.eqb "/") s) eqn:E.
  - destruct IH as (f & F1 & F2 & F3). exists (c :: f). split; [cbn; now rewrite <- F1|]. split; [exact F2|].
    right. destruct F3 as [-> | [g ->]]; [|exists (c :: g); reflexivity].
    exfalso. cbn [List.app] in F1. rewrite <- F1 in F2. apply existsb_exists in E as (d & D1 & D2). apply Ascii.eqb_eq in D2. exact (F2 d D1 (eq_sym D2)).
  - destruct (Ascii.eqb_spec c "/").
    + subst c. exists ["/"%char]. split; [reflexivity|]. split; [exact (N eq_refl)|]. right. exists []. reflexivity.
    + exists []. split; [reflexivity|]. split; [|now left]. intros d [<- | I]; [exact n|exact (N eq_refl d I)].
Qed.

Lemma lower_same c d : lower c = d -> same_letter c d.
Proof.
  unfold lower. destruct ((65 <=? nat_of_ascii c)%nat && (nat_of_ascii c <=? 90)%nat) eqn:E; intros <-; [right|now left].
  apply andb_prop in E as [E1 E2]. apply Nat.leb_le in E1, E2. split; [lia|]. apply nat_ascii_embedding. lia.
Qed.

Lemma append_list a b : list_ascii_of_string (a ++ b) = list_ascii_of_string a ++ list_ascii_of_string b.
Proof. induction a as [|c a IH]; cbn; [reflexivity|now rewrite IH]. Qed.
Lemma append_string a b : string_of_list_ascii (a ++ b) = (string_of_list_ascii a ++ string_of_list_ascii b)%string.
Proof. induction a as [|c a IH]; cbn; [reflexivity|now rewrite IH]. Qed.

Lemma stem_full s : suffix s <> EmptyString -> stem s <> EmptyString.
Proof.
  unfold stem, suffix, split_name. destruct (last_dot 0 s) as [k|] eqn:E; [|cbn; congruence].
  destruct ((0 <? k)%nat && (S k <? String.length s)%nat) eqn:C; cbn [fst snd]; [|congruence]. intros _.
  apply andb_prop in C as [C1 C2]. apply Nat.ltb_lt in C1. destruct k as [|k]; [lia|]. destruct s; cbn in *; [discriminate|discriminate].
Qed.

(** The programmer's test of the file name *)
Lemma file_test s : existsb (String.eqb (string_of_list_ascii (map lower (list_ascii_of_string
    (suffix (string_of_list_ascii (base_of (list_ascii_of_string s)))))))) [".hex"; ".ihex"; ".ihx"]%string = true -> hex_file s.
Proof.
  intros H. apply member in H. destruct (base_parts (list_ascii_of_string s)) as (f & F1 & F2 & F3).
  set (name := string_of_list_ascii (base_of (list_ascii_of_string s))) in *.
  assert (N : list_ascii_of_string name = base_of (list_ascii_of_string s)) by apply list_ascii_of_string_of_list_ascii.
  assert (S : s = (string_of_list_ascii f ++ name)%string).
  { rewrite <- (string_of_list_ascii_of_string s), F1, append_string. reflexivity. }
  assert (K : exists e, suffix name = String "." e /\ (same_word e "hex" \/ same_word e "ihex" \/ same_word e "ihx")).
  { assert (G : forall w x, string_of_list_ascii (map lower (list_ascii_of_string w)) = String "." x -> exists e, w = String "." e /\ same_word e x).
    { intros w x E. destruct w as [|c w]; [discriminate|]. cbn in E. injection E as E1 E2. exists w. split.
      - apply lower_same in E1. destruct E1 as [-> | [L E1]]; [reflexivity|]. cbn in E1. lia.
      - unfold same_word. rewrite <- E2, list_ascii_of_string_of_list_ascii. clear.
        induction (list_ascii_of_string w); cbn; constructor; [now apply lower_same|assumption]. }
    destruct H as [H|[H|[H|[]]]]; symmetry in H; apply G in H as (e & -> & W); exists e; auto. }
  destruct K as (e & E & W). pose proof (stem_suffix name) as SS. rewrite E in SS.
  exists (string_of_list_ascii f), (stem name), e. split; [rewrite S; f_equal; symmetry; exact SS|]. split.
  { destruct F3 as [-> | [g ->]]; [now left|]. right. exists (string_of_list_ascii g). apply append_string. }
  split; [apply stem_full; rewrite E; discriminate|]. split; [|exact W].
  intros c I. apply F2. rewrite <- N, <- SS, append_list. apply in_or_app. now left.
Qed.

Theorem programming_limits fresh now y p : validate fresh now programming_task y = Ok p -> fits_programmer p.
Proof.
  unfold programming_task. intros H. apply obj_inv in H as (m & m' & fs & -> & _ & -> & F & P).
  repeat match goal with F : Forall2 _ (_ :: _) _ |- _ => inversion F; clear F; subst end.
  repeat match goal with F : Forall2 _ [] _ |- _ => inversion F; clear F; subst end.
  repeat match goal with r : (string * (bool * pval))%type |- _ => destruct r as [? [? ?]] end.
  unfold flag in *.
  repeat match goal with F : field_of _ _ _ _ (_, _) |- _ => let A := fresh "A" in let B := fresh "B" in destruct F as [A B]; cbn [fst snd] in A, B; subst end.
  constructor;
    repeat (rewrite attr_there by reflexivity); rewrite attr_here.
  all: cbn [assoc String.eqb Ascii.eqb Bool.eqb] in P.
  - clear B. rename B7 into B. destruct (assoc "firmware_file" m') as [z|]; destruct B as [_ B]; [|contradiction].
    apply path_value in B as [s ->]. exists s. split; [reflexivity|]. apply file_test. exact P.
  - clear B. rename B6 into B. destruct (assoc "target_port" m') as [z|]; destruct B as [_ B]; [|subst; auto].
    apply str_value in B as (s & -> & E). apply member in E. destruct E as [<- | [<- | []]]; auto.
  - clear B. rename B5 into B. destruct (assoc "mcu_port" m') as [z|]; destruct B as [_ B]; [|subst; auto].
    apply int_value in B as (k & -> & E). apply between_iff in E. assert (K : k = 1 \/ k = 2) by lia. destruct K as [-> | ->]; auto.
  - clear B. rename B4 into B. destruct (assoc "mcu_type" m') as [z|]; destruct B as [_ B]; [|contradiction].
    apply str_value in B as (s & -> & E). exists s. split; [reflexivity|]. now apply safe_readable.
  - clear B. rename B3 into B. destruct (assoc "voltage" m') as [z|]; destruct B as [_ B]; [|subst; exists 3%Q; split; [reflexivity|split; reflexivity || discriminate]].
    apply float_value in B as (q & -> & E). exists q. split; [reflexivity|]. apply andb_prop in E as [E1 E2]. split; [now apply Qle_bool_iff|].
    apply Qnot_le_lt. intros L. apply Qle_bool_iff in L. rewrite L in E2. discriminate.
  - clear B. rename B2 into B. destruct (assoc "datarate" m') as [z|]; destruct B as [_ B]; [|subst; exists 200000; split; [reflexivity|lia]].
    apply int_value in B as (k & -> & E). apply between_iff in E. exists k. auto.
  - clear B. rename B1 into B. destruct (assoc "protocol" m') as [z|]; destruct B as [_ B]; [|contradiction].
    apply str_value in B as (s & -> & E). exists s. split; [reflexivity|]. now apply member.
  - destruct (assoc "verbose" m') as [z|]; destruct B as [_ B]; [|subst; exists 2; split; [reflexivity|lia]].
    apply int_value in B as (k & -> & E). apply between_iff in E. exists k. auto.
Qed.

(** The converse for file names *)
Lemma base_app f b : (forall c, In c b -> c <> "/"%char) -> f = [] \/ (exists g, f = g ++ ["/"%char]) -> base_of (f ++ b) = b.
Proof.
  intros N. assert (E : existsb (Ascii.eqb "/") b = false).
  { destruct (existsb (Ascii.eqb "/") b) eqn:E; [|reflexivity]. apply existsb_exists in E as (d & D1 & D2). apply Ascii.eqb_eq in D2. exfalso. exact (N d D1 (eq_sym D2)). }
  intros [-> | [g ->]].
  - cbn [List.app]. destruct b as [|c b]; [reflexivity|]. cbn [base_of]. cbn [existsb] in E. apply orb_false_elim in E as [E1 E2]. rewrite E2.
    rewrite Ascii.eqb_sym, E1. reflexivity.
  - rewrite <- app_assoc. induction g as [|c g IH]; cbn [List.app base_of].
    + rewrite E. reflexivity.
    + cbn [List.app] in IH. replace (existsb (Ascii.eqb "/") (g ++ "/"%char :: b)) with true; [exact IH|].
      symmetry. apply existsb_exists. exists "/"%char. split; [apply in_or_app; right; now left|reflexivity].
Qed.

Lemma letter_lower c d : same_letter c d -> (97 <= nat_of_ascii d <= 122)%nat -> lower c = d /\ c <> "/"%char /\ c <> "."%char.
Proof.
  intros S L. unfold lower. destruct S as [-> | [U E]].
  - replace ((65 <=? nat_of_ascii d)%nat && (nat_of_ascii d <=? 90)%nat) with false.
    2:{ symmetry. apply andb_false_iff. right. apply Nat.leb_gt. lia. }
    split; [reflexivity|]. split; intros ->; cbn in L; lia.
  - replace ((65 <=? nat_of_ascii c)%nat && (nat_of_ascii c <=? 90)%nat) with true.
    2:{ symmetry. apply andb_true_intro. split; apply Nat.leb_le; lia. }
    split; [rewrite <- E; apply ascii_nat_embedding|]. split; intros ->; cbn in U; lia.
Qed.

Lemma word_lower s t : same_word s t -> Forall (fun d => 97 <= nat_of_ascii d <= 122)%nat (list_ascii_of_string t) ->
  map lower (list_ascii_of_string s) = list_ascii_of_string t /\ (forall c, In c (list_ascii_of_string s) -> c <> "/"%char) /\ no_dot s.
Proof.
  revert t. induction s as [|c s IH]; intros t; unfold same_word; cbn [list_ascii_of_string].
  - intros W _. inversion W. cbn. repeat split. intros c [].
  - intros W L. destruct t as [|d t]; inversion W as [|? ? ? ? W1 W2]; subst. cbn [list_ascii_of_string] in L. inversion L as [|? ? L1 L2]; subst.
    destruct (IH t W2 L2) as (I1 & I2 & I3). destruct (letter_lower c d W1 L1) as (J1 & J2 & J3). cbn [map list_ascii_of_string].
    rewrite I1, J1. split; [reflexivity|]. split; [|split; assumption]. intros x [<- | X]; auto.
Qed.

Lemma file_passes s : hex_file s -> existsb (String.eqb (string_of_list_ascii (map lower (list_ascii_of_string
    (suffix (string_of_list_ascii (base_of (list_ascii_of_string s)))))))) [".hex"; ".ihex"; ".ihx"]%string = true.
Proof.
  intros (f & st & e & -> & F & S1 & S2 & W).
  assert (K : exists t, In t ["hex"; "ihex"; "ihx"]%string /\ e <> EmptyString /\ map lower (list_ascii_of_string e) = list_ascii_of_string t /\
    (forall c, In c (list_ascii_of_string e) -> c <> "/"%char) /\ no_dot e).
  { assert (G : forall t, In t ["hex"; "ihex"; "ihx"]%string -> same_word e t -> exists t, In t ["hex"; "ihex"; "ihx"]%string /\ e <> EmptyString /\
      map lower (list_ascii_of_string e) = list_ascii_of_string t /\ (forall c, In c (list_ascii_of_string e) -> c <> "/"%char) /\ no_dot e).
    { intros t I X. exists t. split; [exact I|]. assert (L : Forall (fun d => 97 <= nat_of_ascii d <= 122)%nat (list_ascii_of_string t) /\ t <> EmptyString).
      { destruct I as [<- | [<- | [<- | []]]]; (split; [repeat (constructor; [cbn; lia|]); constructor|discriminate]). }
      destruct L as [L1 L2]. destruct (word_lower e t X L1) as (A1 & A2 & A3). repeat split; auto.
      intros ->. destruct t; [now contradiction L2|discriminate]. }
    destruct W as [W|[W|W]]; [apply (G "hex"%string)|apply (G "ihex"%string)|apply (G "ihx"%string)]; cbn; auto. }
  destruct K as (t & T & E0 & E1 & E2 & E3).
  rewrite append_list, base_app.
  - rewrite string_of_list_ascii_of_string. change ("." ++ e)%string with (String "." e). unfold suffix. rewrite (split_plain st e S1 E0 E3). cbn [snd list_ascii_of_string map].
    rewrite E1. change (lower ".") with "."%char. cbn [string_of_list_ascii]. rewrite string_of_list_ascii_of_string.
    destruct T as [<- | [<- | [<- | []]]]; reflexivity.
  - intros c. rewrite append_list. intros I. apply in_app_or in I as [I|[<- | I]]; [auto|discriminate|auto].
  - destruct F as [-> | [g ->]]; [now left|]. right. exists (list_ascii_of_string g). apply append_list.
Qed.

(** What is given within the limits is accepted as it is. *)
Theorem programming_accepts fresh now file tp mp mt q dr pr sim vb :
  hex_file file -> In tp ["A"; "B"]%string -> In mp [1; 2] -> readable (strip mt) -> (1 <= q)%Q -> (q < 5)%Q -> 1 <= dr <= 1000000 ->
  In pr ["SWD"; "SBW"; "JTAG"; "UART"]%string -> 0 <= vb <= 4 ->
  validate fresh now programming_task (YMap [("firmware_file", YStr file); ("target_port", YStr tp); ("mcu_port", YInt mp); ("mcu_type", YStr mt);
    ("voltage", YFloat q); ("datarate", YInt dr); ("protocol", YStr pr); ("simulate", YBool sim); ("verbose", YInt vb)]%string) =
  Ok (PObj [("firmware_file", (true, PPath file)); ("target_port", (true, PStr tp)); ("mcu_port", (true, PInt mp)); ("mcu_type", (true, PStr (strip mt)));
    ("voltage", (true, PFloat q)); ("datarate", (true, PInt dr)); ("protocol", (true, PStr pr)); ("simulate", (true, PBool sim)); ("verbose", (true, PInt vb))]%string).
Proof.
  intros H1 H2 H3 H4 H5 H6 H7 H8 H9. unfold programming_task, one_of, flag.
  assert (B1 : between 1 2 mp = true) by (destruct H3 as [<- | [<- | []]]; reflexivity).
  assert (B2 : between 1 1000000 dr = true) by (apply between_iff; lia).
  assert (B3 : between 0 4 vb = true) by (apply between_iff; lia).
  assert (B4 : (Qle_bool 1 q && negb (Qle_bool 5 q))%bool = true).
  { rewrite (proj2 (Qle_bool_iff _ _) H5). destruct (Qle_bool 5 q) eqn:E; [|reflexivity]. apply Qle_bool_iff in E. exfalso. exact (Qlt_not_le _ _ H6 E). }
  assert (B5 : strip tp = tp /\ existsb (String.eqb tp) ["A"; "B"]%string = true) by (destruct H2 as [<- | [<- | []]]; split; reflexivity).
  assert (B6 : strip pr = pr /\ existsb (String.eqb pr) ["SWD"; "SBW"; "JTAG"; "UART"]%string = true) by (destruct H8 as [<- | [<- | [<- | [<- | []]]]]; split; reflexivity).
  assert (B7 : safe_str (strip mt) = true) by now apply safe_readable.
  destruct B5 as [B5 B5']. destruct B6 as [B6 B6'].
  pose proof (file_passes file H1) as B8.
  apply obj_ok with (m' := [("firmware_file", YStr file); ("target_port", YStr tp); ("mcu_port", YInt mp); ("mcu_type", YStr mt);
    ("voltage", YFloat q); ("datarate", YInt dr); ("protocol", YStr pr); ("simulate", YBool sim); ("verbose", YInt vb)]%string).
  - reflexivity.
  - reflexivity.
  - repeat constructor; cbn [fst snd assoc String.eqb Ascii.eqb Bool.eqb validate]; rewrite ?B1, ?B2, ?B3, ?B4, ?B5, ?B6, ?B7, ?B5', ?B6'; reflexivity.
  - exact B8.
Qed.

(** Sets of tasks *)
Lemma opt_value fresh now t y v : validate fresh now (TOpt t) y = Ok v -> v = PNone \/ validate fresh now t y = Ok v.
Proof. destruct y; cbn [validate]; auto. intros H. injection H as <-. now left. Qed.

Lemma name_value fresh now y v : validate fresh now name_str y = Ok v -> exists s, v = PStr s /\ good_name s.
Proof.
  intros H. apply str_value in H as (s & -> & E). exists s. split; [reflexivity|]. apply andb_prop in E as [E1 E2]. apply between_iff in E1.
  split; [lia|]. intros c I J. rewrite forallb_forall in E2. specialize (E2 c I). unfold name_char in E2. apply negb_true_iff in E2.
  assert (X : existsb (Ascii.eqb c) (list_ascii_of_string "<>:;,?""*|/\") = true); [|congruence].
  apply existsb_exists. exists c. split; [exact J|apply Ascii.eqb_refl].
Qed.

Lemma id_value fresh now y v : validate fresh now (TOpt id_int) y = Ok v -> v = PNone \/ exists z, v = PInt z /\ 0 <= z < 2 ^ 128.
Proof.
  intros H. apply opt_value in H as [-> | H]; [now left|]. right. apply int_value in H as (z & -> & E). apply between_iff in E. exists z. split; [reflexivity|lia].
Qed.

Ltac fields_of F :=
  repeat match goal with F : Forall2 _ (_ :: _) _ |- _ => inversion F; clear F; subst end;
  repeat match goal with F : Forall2 _ [] _ |- _ => inversion F; clear F; subst end;
  repeat match goal with r : (string * (bool * pval))%type |- _ => destruct r as [? [? ?]] end;
  unfold flag in *;
  repeat match goal with F : field_of _ _ _ _ (_, _) |- _ => let A := fresh "A" in let B := fresh "B" in destruct F as [A B]; cbn [fst snd] in A, B; subst end.

Theorem observer_limits fw_mod emulation fresh now y p : validate fresh now (observer_tasks fw_mod emulation) y = Ok p -> fits_observer p.
Proof.
  unfold observer_tasks. intros H. apply obj_inv in H as (m & m' & fs & -> & _ & -> & F & _). fields_of F.
  constructor.
  - rewrite attr_here. destruct (assoc "observer" m') as [z|]; destruct B8 as [_ B8]; [|contradiction].
    apply name_value in B8 as (s & -> & N). exists s. auto.
  - unfold owner. rewrite attr_there, attr_here by reflexivity. destruct (assoc "owner_id" m') as [z|]; destruct B7 as [_ B7]; [|contradiction].
    apply id_value in B7 as [-> | (k & -> & K)]; [now left|]. right. exists k. auto.
  - intros n [-> | ->]; repeat (rewrite attr_there by reflexivity); rewrite attr_here.
    + destruct (assoc "fw1_prog" m') as [z|]; destruct B1 as [_ B1]; [|subst; now left].
      apply opt_value in B1 as [-> | B1]; [now left|]. right. eexists. split; [reflexivity|]. exact (programming_limits _ _ _ _ B1).
    + destruct (assoc "fw2_prog" m') as [z|]; destruct B0 as [_ B0]; [|subst; now left].
      apply opt_value in B0 as [-> | B0]; [now left|]. right. eexists. split; [reflexivity|]. exact (programming_limits _ _ _ _ B0).
Qed.

Theorem testbed_limits fw_mod emulation fresh now y p : validate fresh now (testbed_tasks fw_mod emulation) y = Ok p -> fits_testbed p.
Proof.
  unfold testbed_tasks. intros H. apply obj_inv in H as (m & m' & fs & -> & _ & -> & F & _). fields_of F.
  constructor.
  - rewrite attr_here. destruct (assoc "name" m') as [z|]; destruct B2 as [_ B2]; [|contradiction].
    apply name_value in B2 as (s & -> & N). exists s. auto.
  - unfold owner. repeat (rewrite attr_there by reflexivity). rewrite attr_here. destruct (assoc "owner_id" m') as [z|]; destruct B as [_ B]; [|contradiction].
    apply id_value in B as [-> | (k & -> & K)]; [now left|]. right. exists k. auto.
  - rewrite attr_there, attr_here by reflexivity. destruct (assoc "observer_tasks" m') as [z|]; destruct B1 as [_ B1]; [|contradiction].
    destruct z as [| | | | | | l | | | | |]; try discriminate B1. cbn [validate] in B1.
    match type of B1 with (if ?c then _ else _) = _ => change c with ((1 <=? List.length l)%nat && (List.length l <=? 128)%nat)%bool in B1 end.
    destruct ((1 <=? List.length l)%nat && (List.length l <=? 128)%nat)%bool eqn:L; [|discriminate B1]. apply andb_prop in L as [L1 L2]. apply Nat.leb_le in L1, L2.
    match type of B1 with (let* _ := ?X in _) = _ => destruct X as [r|] eqn:R end; [|discriminate]. cbn [bind] in B1. injection B1 as <-.
    apply each_inv in R. exists r. split; [reflexivity|]. split; [rewrite <- (F2_len _ _ _ R); lia|].
    clear -R. induction R as [|a b l r H _ IH]; constructor; [exact (observer_limits _ _ _ _ _ _ H)|exact IH].
Qed.

(** Every number of observers up to 128 is possible. *)
Theorem testbed_accepts fw_mod emulation fresh now name l r oid : good_name (strip name) -> (1 <= List.length l <= 128)%nat ->
  Forall2 (fun y p => validate fresh now (observer_tasks fw_mod emulation) y = Ok p) l r -> (forall z, oid = Some z -> 0 <= z < 2 ^ 128) ->
  validate fresh now (testbed_tasks fw_mod emulation)
    (YMap [("name", YStr name); ("observer_tasks", YList l); ("owner_id", match oid with Some z => YInt z | None => YNull end)]%string) =
  Ok (PObj [("name", (true, PStr (strip name))); ("observer_tasks", (true, PList r)); ("email_results", (false, PBool false));
    ("owner_id", (true, match oid with Some z => PInt z | None => PNone end))]%string).
Proof.
  intros [N1 N2] L R O. unfold testbed_tasks, flag.
  eapply obj_ok; [reflexivity|reflexivity| |reflexivity].
  assert (B1 : (between 1 32 (Z.of_nat (String.length (strip name))) && forallb name_char (list_ascii_of_string (strip name)))%bool = true).
  { apply andb_true_intro. split; [apply between_iff; lia|]. apply forallb_forall. intros c I. unfold name_char. apply negb_true_iff.
    destruct (existsb (Ascii.eqb c) _) eqn:E; [|reflexivity]. exfalso. apply existsb_exists in E as (d & D1 & D2). apply Ascii.eqb_eq in D2. subst d. exact (N2 c I D1). }
  assert (B2 : ((1 <=? List.length l)%nat && (List.length l <=? 128)%nat)%bool = true) by (apply andb_true_intro; split; apply Nat.leb_le; lia).
  constructor; [|constructor; [|constructor; [|constructor; [|constructor]]]]; unfold field_of; cbn [fst snd assoc String.eqb Ascii.eqb Bool.eqb].
  - split; [reflexivity|]. split; [reflexivity|]. cbn [validate name_str]. unfold name_str. cbn [validate]. rewrite B1. reflexivity.
  - split; [reflexivity|]. split; [reflexivity|]. cbn [validate]. rewrite B2. rewrite (each_ok _ _ _ R). reflexivity.
  - auto.
  - split; [reflexivity|]. split; [reflexivity|]. destruct oid as [z|]; [|reflexivity]. unfold id_int. cbn [validate].
    assert (B3 : between 0 (2 ^ 128 - 1) z = true) by (apply between_iff; specialize (O z eq_refl); lia). rewrite B3. reflexivity.
Qed.

Lemma assoc_in {A} k (m : list (string * A)) v : assoc k m = Some v -> In k (map fst m).
Proof.
  induction m as [|[k' v'] m IH]; [discriminate|]. cbn [assoc map fst]. destruct (String.eqb_spec k' k) as [->|]; intros H; [left; reflexivity|right; auto].
Qed.

Lemma required_given fresh now n fields post m p k t : validate fresh now (TObj n no_pre fields post) (YMap m) = Ok p ->
  In (k, (t, Required)) fields -> In k (map fst m).
Proof.
  intros H I. apply obj_inv in H as (m0 & m' & fs & E & P & _ & F & _). injection E as <-. injection P as <-.
  induction F as [|f r l rs B F IH]; [destruct I|]. destruct I as [->|I]; [|auto].
  destruct B as [_ B]. cbn [fst snd] in B. destruct (assoc k m) eqn:G; [exact (assoc_in _ _ _ G)|]. destruct B as [_ []].
Qed.

Theorem needed fw_mod emulation fresh now m p :
  (validate fresh now programming_task (YMap m) = Ok p -> incl ["firmware_file"; "mcu_type"; "protocol"]%string (map fst m)) /\
  (validate fresh now (observer_tasks fw_mod emulation) (YMap m) = Ok p ->
    incl ["observer"; "owner_id"; "time_prep"; "root_path"; "abort_on_error"]%string (map fst m)) /\
  (validate fresh now (testbed_tasks fw_mod emulation) (YMap m) = Ok p -> incl ["name"; "observer_tasks"; "owner_id"]%string (map fst m)).
Proof.
  split; [|split]; intros H k I; unfold incl in *; cbn [In] in I;
    repeat match type of I with _ \/ _ => destruct I as [<- | I] | False => destruct I end;
    (eapply required_given; [exact H|]); cbn [In]; repeat (first [left; reflexivity | right]).
Qed.

Theorem observer_accepts fw_mod emulation fresh now name oid us off root ab y p : good_name (strip name) -> (forall z, oid = Some z -> 0 <= z < 2 ^ 128) ->
  validate fresh now programming_task y = Ok p ->
  validate fresh now (observer_tasks fw_mod emulation)
    (YMap [("observer", YStr name); ("owner_id", match oid with Some z => YInt z | None => YNull end); ("time_prep", YDate us off);
      ("root_path", YStr root); ("abort_on_error", YBool ab); ("fw2_prog", y)]%string) =
  Ok (PObj [("observer", (true, PStr (strip name))); ("owner_id", (true, match oid with Some z => PInt z | None => PNone end));
    ("time_prep", (true, PDate us off)); ("root_path", (true, PPath root)); ("abort_on_error", (true, PBool ab));
    ("fw1_mod", (false, PNone)); ("fw2_mod", (false, PNone)); ("fw1_prog", (false, PNone)); ("fw2_prog", (true, p)); ("emulation", (false, PNone))]%string).
Proof.
  intros [N1 N2] O R. unfold observer_tasks. 
  eapply obj_ok; [reflexivity|reflexivity| |reflexivity].
  assert (B1 : (between 1 32 (Z.of_nat (String.length (strip name))) && forallb name_char (list_ascii_of_string (strip name)))%bool = true).
  { apply andb_true_intro. split; [apply between_iff; lia|]. apply forallb_forall. intros c I. unfold name_char. apply negb_true_iff.
    destruct (existsb (Ascii.eqb c) _) eqn:E; [|reflexivity]. exfalso. apply existsb_exists in E as (d & D1 & D2). apply Ascii.eqb_eq in D2. subst d. exact (N2 c I D1). }
  repeat constructor; unfold field_of; cbn [fst snd assoc String.eqb Ascii.eqb Bool.eqb]; try reflexivity; try (split; reflexivity).
  - unfold name_str. cbn [validate]. rewrite B1. reflexivity.
  - destruct oid as [z|]; [|reflexivity]. unfold id_int. cbn [validate].
    assert (B3 : between 0 (2 ^ 128 - 1) z = true) by (apply between_iff; specialize (O z eq_refl); lia). rewrite B3. reflexivity.
  - destruct y; try discriminate R; exact R.
Qed.

(** ** Experiments *)
Lemma good_name_b name : good_name name ->
  (between 1 32 (Z.of_nat (String.length name)) && forallb name_char (list_ascii_of_string name))%bool = true.
Proof.
  intros [N1 N2]. apply andb_true_intro. split; [apply between_iff; lia|]. apply forallb_forall. intros c I. unfold name_char. apply negb_true_iff.
  destruct (existsb (Ascii.eqb c) _) eqn:E; [|reflexivity]. exfalso. apply existsb_exists in E as (d & D1 & D2). apply Ascii.eqb_eq in D2. subst d. exact (N2 c I D1).
Qed.
Lemma text_value fresh now y v : validate fresh now (TOpt (TStr safe_str)) y = Ok v -> v = PNone \/ exists s, v = PStr s /\ readable s.
Proof.
  intros H. apply opt_value in H as [-> | H]; [now left|]. right. destruct y; try discriminate H. cbn [validate] in H.
  destruct (safe_str (strip s)) eqn:S; [|discriminate]. injection H as <-. eexists. split; [reflexivity|now apply safe_readable].
Qed.
Theorem experiment_limits version fresh now y p : validate fresh now (experiment version) y = Ok p -> fits_experiment p.
Proof.
  unfold experiment. intros H. apply obj_inv in H as (m & m' & fs & -> & _ & -> & F & PO). fields_of F.
  constructor.
  - repeat (rewrite attr_there by reflexivity). rewrite attr_here. repeat match goal with B : context [assoc "name" m'] |- _ => revert B end.
    destruct (assoc "name" m') as [z|]; intros [_ B']; [|contradiction]. apply name_value in B' as (s & -> & N). exists s. auto.
  - unfold owner. repeat (rewrite attr_there by reflexivity). rewrite attr_here. repeat match goal with B : context [assoc "owner_id" m'] |- _ => revert B end.
    destruct (assoc "owner_id" m') as [z|]; intros [_ B']; [|left; now rewrite B']. apply id_value in B' as [-> | (q & -> & K)]; [now left|]. right. exists q. auto.
  - intros n [<- | [<- | []]]; repeat (rewrite attr_there by reflexivity); rewrite attr_here.
    + repeat match goal with B : context [assoc "description" m'] |- _ => revert B end.
      destruct (assoc "description" m') as [z|]; intros [_ B']; [|left; now rewrite B']. apply text_value in B' as [-> | (s & -> & S)]; [now left|right; eauto].
    + repeat match goal with B : context [assoc "comment" m'] |- _ => revert B end.
      destruct (assoc "comment" m') as [z|]; intros [_ B']; [|left; now rewrite B']. apply text_value in B' as [-> | (s & -> & S)]; [now left|right; eauto].
  - repeat (rewrite attr_there by reflexivity). rewrite attr_here. revert PO. unfold values. cbn [map fst snd assoc String.eqb Ascii.eqb Bool.eqb].
    repeat match goal with B : context [assoc "duration" m'] |- _ => revert B end.
    destruct (assoc "duration" m') as [z|]; intros [_ B'] PO; [|left; now rewrite B']. apply opt_value in B' as [-> | B']; [now left|]. right.
    destruct z; try discriminate B'; cbn [validate] in B'; injection B' as <-; cbn [plain not_negative] in PO; apply Z.leb_le in PO; eauto.
Qed.

Theorem experiment_accepts version fresh now id name d c us off oid em l1 l2 l3 us' off' dur ab :
  good_name (strip name) -> readable (strip d) -> readable (strip c) -> (forall z, oid = Some z -> 0 <= z < 2 ^ 128) -> 0 <= dur ->
  validate fresh now (experiment version) (YMap [("id", YStr id); ("name", YStr name); ("description", YStr d); ("comment", YStr c); ("created", YDate us off);
    ("owner_id", match oid with Some z => YInt z | None => YNull end); ("email_results", YBool em);
    ("sys_logging", YMap [("dmesg", YBool l1); ("ptp", YBool l2); ("shepherd", YBool l3)]); ("time_start", YDate us' off'); ("duration", YTime dur);
    ("abort_on_error", YBool ab)]%string) =
  Ok (PObj [("id", (true, PUuid id)); ("name", (true, PStr (strip name))); ("description", (true, PStr (strip d))); ("comment", (true, PStr (strip c)));
    ("created", (true, PDate us off)); ("owner_id", (true, match oid with Some z => PInt z | None => PNone end)); ("email_results", (true, PBool em));
    ("sys_logging", (true, PObj [("dmesg", (true, PBool l1)); ("ptp", (true, PBool l2)); ("shepherd", (true, PBool l3))]));
    ("time_start", (true, PDate us' off')); ("duration", (true, PTime dur)); ("abort_on_error", (true, PBool ab)); ("lib_ver", (false, PStr version))]%string).
Proof.
  intros N D C O L. unfold experiment, flag. eapply obj_ok; [reflexivity|reflexivity| |cbn; now apply Z.leb_le].
  apply good_name_b in N. apply safe_readable in D, C.
  repeat constructor; unfold field_of; cbn [fst snd assoc String.eqb Ascii.eqb Bool.eqb]; try reflexivity; try (split; reflexivity).
  - unfold name_str. cbn [validate]. rewrite N. reflexivity.
  - cbn [validate]. rewrite D. reflexivity.
  - cbn [validate]. rewrite C. reflexivity.
  - destruct oid as [z|]; [|reflexivity]. unfold id_int. cbn [validate].
    assert (B3 : between 0 (2 ^ 128 - 1) z = true) by (apply between_iff; specialize (O z eq_refl); lia). rewrite B3. reflexivity.
Qed.
