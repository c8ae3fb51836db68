(** Proofs about collected inventories. *)
From Coq Require Import String Ascii QArith Qround Lqa Lia.
From Verif Require Import PyBase InvModel InvSpec.
Open Scope Z_scope.
Open Scope list_scope.

(** ** Stripping *)
Lemma lstrip_split t : exists a, t = repeat " "%char a ++ lstrip t /\ hd "x"%char (lstrip t) <> " "%char.
Proof.
  induction t as [|c t (a & E & H)]; [exists 0%nat; split; [reflexivity|discriminate]|]. cbn [lstrip].
  destruct (Ascii.eqb_spec c " ") as [->|N].
  - exists (S a). cbn [repeat app]. split; [congruence|exact H].
  - exists 0%nat. split; [reflexivity|exact N].
Qed.
Lemma lstrip_app a t : lstrip (repeat " "%char a ++ t) = lstrip t.
Proof. induction a as [|a IH]; [reflexivity|exact IH]. Qed.
Lemma lstrip_id t : hd "x"%char t <> " "%char -> lstrip t = t.
Proof. destruct t as [|c t]; [reflexivity|]. cbn. intros H. destruct (Ascii.eqb_spec c " "); [contradiction|reflexivity]. Qed.
Lemma rev_spaces n : rev (repeat " "%char n) = repeat " "%char n.
Proof. induction n as [|n IH]; [reflexivity|]. cbn [repeat rev]. rewrite IH. clear. induction n as [|n IH]; [reflexivity|]. cbn. now rewrite IH. Qed.
Lemma last_rev (t : text) d : last (rev t) d = hd d t.
Proof.
  destruct t as [|c t]; [reflexivity|]. cbn [rev hd]. rewrite last_last. reflexivity.
Qed.
Lemma hd_rev (t : text) d : hd d (rev t) = last t d.
Proof. rewrite <- (rev_involutive t) at 2. now rewrite last_rev. Qed.
Lemma hd_app_ne (a b : text) d : a <> [] -> hd d (a ++ b) = hd d a.
Proof. destruct a; [contradiction|reflexivity]. Qed.

Lemma strip_same t : exists a b, t = repeat " "%char a ++ strip t ++ repeat " "%char b /\ trimmed (strip t).
Proof.
  destruct (lstrip_split t) as (a & E & H). destruct (lstrip_split (rev (lstrip t))) as (b & E2 & H2).
  exists a, b. assert (X : lstrip t = strip t ++ repeat " "%char b).
  { unfold strip. rewrite <- (rev_involutive (lstrip t)) at 1. rewrite E2 at 1. now rewrite rev_app_distr, rev_spaces. }
  split; [rewrite <- X; exact E|]. split.
  - destruct (strip t) as [|c s] eqn:Es; [discriminate|]. rewrite X in H. exact H.
  - unfold strip. rewrite last_rev. exact H2.
Qed.
Lemma strip_unique a t b : trimmed t -> strip (repeat " "%char a ++ t ++ repeat " "%char b) = t.
Proof.
  intros [H1 H2]. unfold strip. rewrite lstrip_app.
  destruct t as [|c t]; [cbn [app]; rewrite <- (app_nil_r (repeat _ b)), lstrip_app; reflexivity|].
  rewrite (lstrip_id ((c :: t) ++ _)) by exact H1. rewrite rev_app_distr, rev_spaces, lstrip_app.
  rewrite lstrip_id by (rewrite hd_rev; exact H2). apply rev_involutive.
Qed.
Lemma text_field_ok t r : text_field t = Ok r <-> same_text t r.
Proof.
  unfold text_field. split.
  - destruct (Nat.leb_spec (List.length (strip t)) 512) as [L|L]; [|discriminate]. intros H. injection H as <-.
    destruct (strip_same t) as (a & b & E & T). exists a, b. repeat split; auto; apply T.
  - intros (a & b & -> & T & S). rewrite (strip_unique a r b T). unfold short in S. destruct (Nat.leb_spec (List.length r) 512); [reflexivity|lia].
Qed.
Lemma strip_short t : (List.length (strip t) <= List.length t)%nat.
Proof. destruct (strip_same t) as (a & b & E & _). rewrite E at 2. rewrite !app_length. lia. Qed.
Lemma text_field_short t : short t -> exists r, text_field t = Ok r.
Proof. unfold short, text_field. intros H. pose proof (strip_short t). destruct (Nat.leb_spec (List.length (strip t)) 512); [eauto|lia]. Qed.
Lemma text_fields_ok l r : text_fields l = Ok r <-> Forall2 same_text l r.
Proof.
  revert r. induction l as [|t l IH]; intros r; cbn [text_fields].
  - split; [intros H; injection H as <-; constructor|]. intros H. inversion H. reflexivity.
  - split.
    + destruct (text_field t) as [t'|] eqn:E; [|discriminate]. cbn [bind]. destruct (text_fields l) as [r'|] eqn:F; [|discriminate].
      cbn [bind]. intros H. injection H as <-. constructor; [now apply text_field_ok|now apply IH].
    + intros H. inversion H as [|? t' ? r' A B]; subst. apply text_field_ok in A. apply IH in B. rewrite A. cbn [bind]. rewrite B. reflexivity.
Qed.
Lemma text_fields_short l : Forall short l -> exists r, text_fields l = Ok r.
Proof.
  induction 1 as [|t l S _ (r & IH)]; [exists []; reflexivity|]. destruct (text_field_short t S) as (t' & E).
  cbn [text_fields]. rewrite E. cbn [bind]. rewrite IH. cbn [bind]. eauto.
Qed.
Lemma platform_ok l r : platform_fields l = Ok r <-> Forall2 same_field l r.
Proof.
  revert r. induction l as [|[n t] l IH]; intros r; cbn [platform_fields].
  - split; [intros H; injection H as <-; constructor|]. intros H. inversion H. reflexivity.
  - split.
    + destruct (text_field t) as [t'|] eqn:E; [|discriminate]. cbn [bind]. destruct (platform_fields l) as [r'|] eqn:F; [|discriminate].
      cbn [bind]. intros H. injection H as <-. constructor; [split; [reflexivity|now apply text_field_ok]|now apply IH].
    + intros H. inversion H as [|? [n' t'] ? r' [A0 A] B]; subst. cbn [fst snd] in *. subst n'. apply text_field_ok in A. apply IH in B. rewrite A. cbn [bind]. rewrite B. reflexivity.
Qed.
Lemma platform_short l : Forall (fun g => short (snd g)) l -> exists r, platform_fields l = Ok r.
Proof.
  induction 1 as [|[n t] l S _ (r & IH)]; [exists []; reflexivity|]. destruct (text_field_short t S) as (t' & E).
  cbn [platform_fields]. rewrite E. cbn [bind]. rewrite IH. cbn [bind]. eauto.
Qed.

(** ** Lines *)
Lemma repr_plain t : plain t -> flat_map (repr_byte apostrophe) t = t.
Proof.
  induction t as [|c t IH]; intros H; [reflexivity|]. cbn [flat_map]. rewrite IH by (intros d I; apply H; now right).
  assert (X : repr_byte apostrophe c = [c]); [|rewrite X; reflexivity].
  destruct (H c (or_introl eq_refl)) as ((A & B) & C & D). unfold repr_byte.
  destruct (Ascii.eqb_spec c apostrophe) as [->|_]; [exfalso; apply C; reflexivity|].
  destruct (Ascii.eqb_spec c backslash) as [->|_]; [exfalso; apply D; reflexivity|]. cbn [orb].
  destruct (Nat.eqb_spec (nat_of_ascii c) 9); [lia|]. destruct (Nat.eqb_spec (nat_of_ascii c) 10); [lia|]. destruct (Nat.eqb_spec (nat_of_ascii c) 13); [lia|].
  destruct (Nat.ltb_spec (nat_of_ascii c) 32); [lia|]. destruct (Nat.leb_spec 127 (nat_of_ascii c)); [lia|]. reflexivity.
Qed.
Lemma split_plain t : plain t -> forall acc rest, split_from acc (t ++ rest) = split_from (rev t ++ acc) rest.
Proof.
  induction t as [|c t IH]; intros H acc rest; [reflexivity|].
  destruct (H c (or_introl eq_refl)) as (_ & _ & D). assert (N : Ascii.eqb c backslash = false).
  { destruct (Ascii.eqb_spec c backslash) as [->|]; [exfalso; apply D; reflexivity|reflexivity]. }
  cbn [rev]. rewrite <- app_assoc. cbn [app]. rewrite <- IH by (intros d I; apply H; now right). cbn [split_from]. rewrite N. cbn [andb].
  destruct (t ++ rest); reflexivity.
Qed.
Lemma no_apostrophe ls : Forall plain ls -> quote (join [newline] ls) = apostrophe.
Proof.
  intros H. unfold quote. replace (existsb (Ascii.eqb apostrophe) (join [newline] ls)) with false; [reflexivity|]. symmetry.
  induction H as [|t ls P _ IH]; [reflexivity|].
  assert (T : existsb (Ascii.eqb apostrophe) t = false).
  { destruct (existsb _ t) eqn:E; [|reflexivity]. apply existsb_exists in E as (c & I & E). apply Ascii.eqb_eq in E. subst c.
    destruct (P _ I) as (_ & C & _). exfalso. apply C. reflexivity. }
  destruct ls as [|u ls]; [exact T|]. change (join [newline] (t :: u :: ls)) with (t ++ [newline] ++ join [newline] (u :: ls)).
  rewrite !existsb_app, T, IH. reflexivity.
Qed.
Lemma split_lines ls : ls <> [] -> Forall plain ls -> forall acc,
  split_from acc (flat_map (repr_byte apostrophe) (join [newline] ls) ++ [apostrophe]) = at_first (fun t => rev acc ++ t) (at_last (fun t => t ++ tx "'") ls).
Proof.
  intros N H. induction H as [|t ls P H IH]; [contradiction|]. intros acc. destruct ls as [|u ls].
  - cbn [join at_last at_first]. rewrite repr_plain by exact P. rewrite split_plain by exact P. cbn [split_from rev]. rewrite rev_app_distr, rev_involutive, <- app_assoc. reflexivity.
  - change (join [newline] (t :: u :: ls)) with (t ++ newline :: join [newline] (u :: ls)).
    rewrite flat_map_app. cbn [flat_map]. change (repr_byte apostrophe newline) with [backslash; "n"%char].
    rewrite repr_plain by exact P. rewrite <- app_assoc. rewrite split_plain by exact P. cbn [app split_from].
    change (Ascii.eqb backslash backslash && Ascii.eqb "n" "n")%bool with true. cbv iota.
    rewrite IH by discriminate. rewrite rev_app_distr, rev_involutive.
    change (at_last (fun t => t ++ tx "'") (t :: u :: ls)) with (t :: at_last (fun t => t ++ tx "'") (u :: ls)). cbn [at_first].
    f_equal. destruct (at_last _ (u :: ls)); reflexivity.
Qed.
Lemma shown_lines ls : ls <> [] -> Forall plain ls -> split_nl (str_bytes (join [newline] ls)) = shown ls.
Proof.
  intros N H. unfold split_nl, str_bytes. rewrite no_apostrophe by exact H.
  change (split_from [] ("b"%char :: apostrophe :: flat_map (repr_byte apostrophe) (join [newline] ls) ++ [apostrophe]))
    with (split_from [] (tx "b'" ++ flat_map (repr_byte apostrophe) (join [newline] ls) ++ [apostrophe])).
  replace (split_from [] (tx "b'" ++ flat_map (repr_byte apostrophe) (join [newline] ls) ++ [apostrophe]))
    with (split_from (rev (tx "b'")) (flat_map (repr_byte apostrophe) (join [newline] ls) ++ [apostrophe])).
  - rewrite split_lines by assumption. reflexivity.
  - destruct ls as [|t ls]; [contradiction|]. cbn [tx list_ascii_of_string app rev split_from].
    change (Ascii.eqb "b" backslash) with false. change (Ascii.eqb "'" backslash) with false. cbn [andb].
    destruct (flat_map _ _ ++ [apostrophe]) eqn:E; [destruct (flat_map _ _); discriminate E|reflexivity].
Qed.

Lemma lines_shows p l : lines p = Ok l -> forall told, text_fields l = Ok told -> shows p told.
Proof.
  destruct p as [[[out err]|e]|]; cbn [lines bind]; intros H told T; [|discriminate|].
  - injection H as <-. exists out, err. split; [reflexivity|]. intros ls N P ->. rewrite shown_lines in T by assumption. now apply text_fields_ok.
  - injection H as <-. injection T as <-. reflexivity.
Qed.

(** ** Rounding *)
Lemma qround_near u : seconds u (qround u).
Proof.
  unfold seconds, qround. pose proof (Qfloor_le u) as A. pose proof (Qlt_floor u) as B.
  rewrite inject_Z_plus in B. change (inject_Z 1) with 1%Q in B.
  destruct (Qcompare (u - inject_Z (Qfloor u)) (1 # 2)) eqn:E.
  - apply Qeq_alt in E. destruct (Z.even (Qfloor u)); [|rewrite inject_Z_plus; change (inject_Z 1) with 1%Q]; split; lra.
  - apply Qlt_alt in E. split; lra.
  - apply Qgt_alt in E. rewrite inject_Z_plus. change (inject_Z 1) with 1%Q. split; lra.
Qed.

(** ** Modules *)
Lemma imports_in m names l : imports m names = Ok l ->
  (forall n v, In (n, v) l <-> In n names /\ m_import m n = v /\ v <> Missing).
Proof.
  revert l. induction names as [|n names IH]; intros l; cbn [imports].
  - intros H. injection H as <-. cbn [In]. tauto.
  - assert (G : forall v, v <> Missing -> m_import m n = v -> (let* r := imports m names in Ok ((n, v) :: r)) = Ok l ->
      forall n' v', In (n', v') l <-> In n' (n :: names) /\ m_import m n' = v' /\ v' <> Missing).
    { intros v Nv Ev H. destruct (imports m names) as [r|]; [|discriminate]. cbn [bind] in H. injection H as <-. intros n' v'. cbn [In]. rewrite (IH r eq_refl).
      split.
      - intros [X|X]; [injection X as <- <-; auto|tauto].
      - intros ([->|I] & E & N'); [left; congruence|right; auto]. }
    destruct (m_import m n) eqn:E; try discriminate.
    + intros H n' v'. rewrite (IH l H). cbn [In]. split; [tauto|]. intros ([<-|I] & E' & N'); [congruence|auto].
    + apply G; [discriminate|reflexivity].
    + apply G; [discriminate|reflexivity].
Qed.
Lemma versions_in l r : version_fields l = Ok r -> forall n t, In (n, t) r <-> exists v, In (n, Version v) l /\ same_text v t.
Proof.
  revert r. induction l as [|[n v] l IH]; intros r; cbn [version_fields].
  - intros H. injection H as <-. intros n t. split; [intros []|]. intros (v & [] & _).
  - destruct v; try discriminate. destruct (text_field v) as [t'|] eqn:E; [|discriminate]. cbn [bind].
    destruct (version_fields l) as [r'|]; [|discriminate]. cbn [bind]. intros H. injection H as <-. intros n' t. cbn [In]. rewrite (IH r' eq_refl). split.
    + intros [X|(w & I & S)]; [injection X as <- <-; exists v; split; [auto|now apply text_field_ok]|exists w; auto].
    + intros (w & [X|I] & S); [injection X as -> ->; left; apply text_field_ok in S; congruence|right; eauto].
Qed.

(** ** All *)
Theorem collected m i : collect m = Ok i ->
  n_created i = m_now m /\
  (exists u l, m_psutil m = Some (u, l) /\ seconds u (s_uptime (n_system i)) /\ 1 <= s_uptime (n_system i) /\
     s_interfaces (n_system i) = interfaces l) /\
  Forall2 same_field (m_platform m) (s_platform (n_system i)) /\
  shows (m_df m) (s_fs_root (n_system i)) /\ shows (m_beagle m) (s_beagle (n_system i)) /\
  exists v r, n_versions i = ("python"%string, v) :: r /\ same_text (m_python m) v /\ installed m r.
Proof.
  unfold collect. destruct (collect_system m) as [s|] eqn:ES; [|discriminate]. cbn [bind].
  destruct (collect_python m) as [v|] eqn:EP; [|discriminate]. cbn [bind]. intros H. injection H as <-. cbn [n_created n_system n_versions].
  unfold collect_system in ES.
  destruct (lines (m_df m)) as [fs|] eqn:L1; [|discriminate]. cbn [bind] in ES.
  destruct (lines (m_beagle m)) as [bg|] eqn:L2; [|discriminate]. cbn [bind] in ES.
  destruct (ptp_text (m_ptp m)) as [pt|]; [|discriminate]. cbn [bind] in ES.
  match type of ES with (if ?c then _ else _) = _ => destruct c eqn:U; [|discriminate] end.
  destruct (platform_fields (m_platform m)) as [pf|] eqn:PF; [|discriminate]. cbn [bind] in ES.
  match type of ES with (let* _ := ?X in _) = _ => destruct X as [pt'|]; [|discriminate] end. cbn [bind] in ES.
  destruct (text_fields fs) as [fs'|] eqn:T1; [|discriminate]. cbn [bind] in ES.
  destruct (text_fields bg) as [bg'|] eqn:T2; [|discriminate]. cbn [bind] in ES. injection ES as <-.
  cbn [s_timestamp s_uptime s_interfaces s_platform s_fs_root s_beagle].
  split; [reflexivity|]. split.
  { destruct (m_psutil m) as [[u l]|]; [|discriminate]. exists u, l. split; [reflexivity|]. split; [apply qround_near|]. split; [|reflexivity]. apply Z.ltb_lt in U. lia. }
  split; [now apply platform_ok|]. split; [exact (lines_shows _ _ L1 _ T1)|]. split; [exact (lines_shows _ _ L2 _ T2)|].
  unfold collect_python in EP. destruct (imports m module_names) as [l|] eqn:EI; [|discriminate]. cbn [bind version_fields] in EP.
  destruct (text_field (m_python m)) as [tp|] eqn:ET; [|discriminate]. cbn [bind] in EP.
  destruct (version_fields l) as [r|] eqn:EV; [|discriminate]. cbn [bind] in EP. injection EP as <-.
  exists tp, r. split; [reflexivity|]. split; [now apply text_field_ok|]. intros n t. rewrite (versions_in _ _ EV n t). split.
  - intros (w & I & S). apply (imports_in _ _ _ EI) in I as (I & E & _). split; [exact I|]. eauto.
  - intros (I & w & E & S). exists w. split; [|exact S]. apply (imports_in _ _ _ EI). repeat split; auto. discriminate.
Qed.

(** Interfaces: those with more than one address, in their order. *)
Theorem interfaces_told l n p : In (n, p) (interfaces l) <-> exists a0 a1 r, In (n, a0 :: a1 :: r) l /\ p = (snd a1, snd a0).
Proof.
  unfold interfaces. rewrite in_flat_map. split.
  - intros ([n' as_] & I & H). cbn [fst snd] in H. destruct as_ as [|a0 [|a1 r]]; try (destruct H; fail). destruct H as [H|[]]. injection H as <- <-. eauto 6.
  - intros (a0 & a1 & r & I & ->). exists (n, a0 :: a1 :: r). split; [exact I|left; reflexivity].
Qed.

Lemma shown_short ls : ls <> [] -> Forall (fun t => List.length t <= 509)%nat ls -> Forall short (shown ls).
Proof.
  intros N H. unfold shown.
  assert (G : Forall (fun t => List.length t <= 510)%nat (at_last (fun t => t ++ tx "'") ls)).
  { clear N. induction H as [|t ls L H IH]; [constructor|]. destruct ls as [|u ls].
    - constructor; [|constructor]. rewrite app_length. change (List.length (tx "'")) with 1%nat. lia.
    - change (at_last (fun t => t ++ tx "'") (t :: u :: ls)) with (t :: at_last (fun t => t ++ tx "'") (u :: ls)). constructor; [lia|exact IH]. }
  destruct G as [|t l L G]; [constructor|]. cbn [at_first]. constructor; [unfold short; rewrite app_length; cbn; lia|].
  eapply Forall_impl; [|exact G]. unfold short. intros. lia.
Qed.
Lemma lines_ordinary p : ordinary p -> exists l r, lines p = Ok l /\ text_fields l = Ok r.
Proof.
  destruct p as [q|]; [|intros _; exists [], []; split; reflexivity]. intros (ls & err & -> & N & P & L). cbn [lines bind].
  rewrite shown_lines by assumption. destruct (text_fields_short (shown ls) (shown_short ls N L)) as (r & E). eauto.
Qed.
Lemma str_plain t : plain t -> str_bytes t = tx "b'" ++ t ++ tx "'".
Proof.
  intros P. unfold str_bytes. assert (Q : quote t = apostrophe) by (apply (no_apostrophe [t]); constructor; [exact P|constructor]).
  rewrite Q, repr_plain by exact P. reflexivity.
Qed.
Lemma ptp_ordinary p : ordinary_ptp p -> exists t r, ptp_text p = Ok t /\ match t with None => Ok None | Some t => let* t := text_field t in Ok (Some t) end = Ok r.
Proof.
  destruct p as [q|]; [|intros _; exists None, None; split; reflexivity]. intros (out & err & -> & P1 & P2 & L). cbn [ptp_text bind].
  rewrite !str_plain by assumption. set (t := (tx "b'" ++ out ++ tx "'") ++ tx ", " ++ tx "b'" ++ err ++ tx "'").
  destruct (text_field_short t) as (r & E); [unfold short, t; rewrite !app_length; cbn; lia|]. exists (Some t), (Some r). split; [reflexivity|]. rewrite E. reflexivity.
Qed.
Lemma qround_pos u : (1 # 2 < u)%Q -> 0 < qround u.
Proof.
  intros H. destruct (qround_near u) as [_ B]. destruct (Z_lt_le_dec 0 (qround u)) as [|L]; [assumption|].
  exfalso. assert (X : (inject_Z (qround u) <= inject_Z 0)%Q) by (rewrite <- Zle_Qle; exact L). change (inject_Z 0) with 0%Q in X. lra.
Qed.
Lemma qround_zero u : (u <= 1 # 2)%Q -> qround u <= 0.
Proof.
  intros H. unfold qround. pose proof (Qfloor_le u) as A. 
  assert (F : Qfloor u <= 0).
  { apply Z.le_ngt. intros L. assert (X : (inject_Z 1 <= inject_Z (Qfloor u))%Q) by (rewrite <- Zle_Qle; lia). change (inject_Z 1) with 1%Q in X. lra. }
  destruct (Z.eq_dec (Qfloor u) 0) as [E|N].
  - rewrite E. change (inject_Z 0) with 0%Q. destruct (Qcompare (u - 0) (1 # 2)) eqn:C; [reflexivity|lia|]. apply Qgt_alt in C. exfalso. lra.
  - destruct (Qcompare _ _); [destruct (Z.even _)| |]; lia.
Qed.

Definition importable (i : import) : Prop := i = Missing \/ exists v, i = Version v /\ short v.
Lemma imports_fine m names : (forall n, In n names -> importable (m_import m n)) ->
  exists l r, imports m names = Ok l /\ version_fields l = Ok r.
Proof.
  induction names as [|n names IH]; intros H; [exists [], []; split; reflexivity|].
  destruct IH as (l & r & E1 & E2); [intros k I; apply H; now right|]. cbn [imports].
  destruct (H n (or_introl eq_refl)) as [->|(v & -> & S)]; [eauto|]. rewrite E1. cbn [bind]. destruct (text_field_short v S) as (t & T).
  exists ((n, Version v) :: l), ((n, t) :: r). split; [reflexivity|]. cbn [version_fields]. rewrite T. cbn [bind]. rewrite E2. reflexivity.
Qed.
Theorem collects m u l : m_psutil m = Some (u, l) -> (1 # 2 < u)%Q -> Forall (fun g => short (snd g)) (m_platform m) ->
  ordinary (m_df m) -> ordinary (m_beagle m) -> ordinary_ptp (m_ptp m) -> short (m_python m) ->
  (forall n, m_import m n = Missing \/ exists v, m_import m n = Version v /\ short v) ->
  exists i, collect m = Ok i.
Proof.
  intros P U PF O1 O2 O3 SP I. unfold collect, collect_system. rewrite P.
  destruct (lines_ordinary _ O1) as (l1 & r1 & -> & E1). destruct (lines_ordinary _ O2) as (l2 & r2 & -> & E2). destruct (ptp_ordinary _ O3) as (t & r3 & -> & E3).
  cbn [bind]. replace (0 <? qround u) with true by (symmetry; apply Z.ltb_lt, qround_pos, U).
  destruct (platform_short _ PF) as (pf & ->). cbn [bind]. rewrite E3. cbn [bind]. rewrite E1. cbn [bind]. rewrite E2. cbn [bind].
  unfold collect_python. destruct (imports_fine m module_names (fun n _ => I n)) as (li & ri & -> & E4). cbn [bind version_fields].
  destruct (text_field_short _ SP) as (tp & ->). cbn [bind]. rewrite E4. cbn [bind]. eauto.
Qed.

(** A version that is not a text. *)
Lemma field_error t : match text_field t with Ok _ => True | Err e => e = ValueError end.
Proof. unfold text_field. destruct (_ <=? _)%nat; [exact I|reflexivity]. Qed.
Lemma versions_error l n : In (n, OtherVersion) l -> version_fields l = Err ValueError.
Proof.
  induction l as [|[k v] l IH]; intros H; [destruct H|]. destruct H as [H|H]; [injection H as -> ->; reflexivity|]. specialize (IH H). cbn [version_fields].
  destruct v; try reflexivity. pose proof (field_error v) as F. destruct (text_field v); cbn [bind]; [|now subst]. rewrite IH. reflexivity.
Qed.
Lemma imports_told m names : (forall k, In k names -> m_import m k <> Unversioned /\ forall e, m_import m k <> Raises e) ->
  exists l, imports m names = Ok l /\ forall n, In n names -> m_import m n = OtherVersion -> In (n, OtherVersion) l.
Proof.
  induction names as [|k names IH]; intros H; [exists []; split; [reflexivity|intros n []]|].
  destruct IH as (l & E & T); [intros n I; apply H; now right|]. destruct (H k (or_introl eq_refl)) as [U R]. cbn [imports]. rewrite E.
  destruct (m_import m k) eqn:K; cbn [bind].
  - exists l. split; [reflexivity|]. intros n [->|I] O; [congruence|now apply T].
  - exfalso. now apply (R e).
  - now contradiction U.
  - eexists. split; [reflexivity|]. intros n [->|I] O; [congruence|right; now apply T].
  - eexists. split; [reflexivity|]. intros n [->|I] O; [now left|right; now apply T].
Qed.
Theorem other_version m n : (forall k, m_import m k <> Unversioned /\ forall e, m_import m k <> Raises e) -> In n module_names -> m_import m n = OtherVersion ->
  collect_python m = Err ValueError.
Proof.
  intros H I O. unfold collect_python. destruct (imports_told m module_names (fun k _ => H k)) as (l & -> & T). cbn [bind].
  apply (versions_error _ n). right. exact (T n I O).
Qed.

(** A machine that runs for half a second or less, or without psutil. *)
Theorem too_early m : (m_psutil m = None \/ exists u l, m_psutil m = Some (u, l) /\ (u <= 1 # 2)%Q) -> forall i, collect m <> Ok i.
Proof.
  intros H i E. destruct (collected m i E) as (_ & (u & l & P & [S1 S2] & L & _) & _). destruct H as [H|(u' & l' & H & B)]; [congruence|].
  rewrite P in H. injection H as <- <-. unfold collect, collect_system in E. rewrite P in E.
  destruct (lines (m_df m)); [|discriminate]. cbn [bind] in E. destruct (lines (m_beagle m)); [|discriminate]. cbn [bind] in E.
  destruct (ptp_text (m_ptp m)); [|discriminate]. cbn [bind] in E. pose proof (qround_zero u B) as Z0.
  destruct (Z.ltb_spec 0 (qround u)) as [L0|_]; [lia|]. discriminate E.
Qed.

(** The notation of bytes can be undone. *)
Fixpoint undo (l : text) : text :=
  match l with
  | [] => []
  | c :: l' =>
      if Ascii.eqb c backslash then
        match l' with
        | d :: l2 =>
            if Ascii.eqb d "n" then newline :: undo l2
            else if Ascii.eqb d "t" then ascii_of_nat 9 :: undo l2
            else if Ascii.eqb d "r" then ascii_of_nat 13 :: undo l2
            else if Ascii.eqb d "x" then
              match l2 with
              | h :: k :: l4 =>
                  let v c := (if Nat.ltb (nat_of_ascii c) 58 then nat_of_ascii c - 48 else nat_of_ascii c - 87)%nat in
                  ascii_of_nat (v h * 16 + v k) :: undo l4
              | _ => []
              end
            else d :: undo l2
        | [] => []
        end
      else c :: undo l'
  end.
Lemma undo_byte q b l : q = apostrophe \/ q = quotes -> undo (repr_byte q b ++ l) = b :: undo l.
Proof. intros [-> | ->]; destruct b as [[] [] [] [] [] [] [] []]; reflexivity. Qed.
Lemma undo_bytes q o l : q = apostrophe \/ q = quotes -> undo (flat_map (repr_byte q) o ++ l) = o ++ undo l.
Proof. intros H. induction o as [|b o IH]; [reflexivity|]. cbn [flat_map]. rewrite <- app_assoc, undo_byte by exact H. rewrite IH. reflexivity. Qed.
Lemma quote_kind o : quote o = apostrophe \/ quote o = quotes.
Proof. unfold quote. destruct (_ && _); auto. Qed.
Theorem str_bytes_inj o1 o2 : str_bytes o1 = str_bytes o2 -> o1 = o2.
Proof.
  unfold str_bytes. intros H. injection H as Q H. apply app_inj_tail in H as [H _]. rewrite <- Q in H.
  assert (X : undo (flat_map (repr_byte (quote o1)) o1 ++ []) = undo (flat_map (repr_byte (quote o1)) o2 ++ [])) by (rewrite !app_nil_r, H; reflexivity).
  rewrite !undo_bytes in X by apply quote_kind. cbn [undo] in X. now rewrite !app_nil_r in X.
Qed.
Lemma split_join l : forall acc, join (tx "\n") (split_from acc l) = rev acc ++ l.
Proof.
  assert (G : forall n l acc, (List.length l <= n)%nat -> join (tx "\n") (split_from acc l) = rev acc ++ l /\ split_from acc l <> []).
  { clear l. induction n as [|n IH]; intros l acc L.
    - destruct l; [|cbn in L; lia]. cbn. split; [now rewrite app_nil_r|discriminate].
    - destruct l as [|c [|d l]]; cbn [split_from].
      + cbn. split; [now rewrite app_nil_r|discriminate].
      + cbn. split; [reflexivity|discriminate].
      + destruct (Ascii.eqb_spec c backslash) as [->|]; [destruct (Ascii.eqb_spec d "n") as [->|]|]; cbn [andb].
        * split; [|discriminate]. cbn in L. destruct (IH l [] ltac:(lia)) as [E N]. cbn [join]. destruct (split_from [] l) eqn:F; [contradiction|].
          rewrite E. reflexivity.
        * cbn in L. destruct (IH (d :: l) (backslash :: acc) ltac:(cbn; lia)) as [E N]. split; [|exact N]. etransitivity; [exact E|]. cbn [rev]. rewrite <- app_assoc. reflexivity.
        * cbn in L. destruct (IH (d :: l) (c :: acc) ltac:(cbn; lia)) as [E N]. split; [|exact N]. etransitivity; [exact E|]. cbn [rev]. rewrite <- app_assoc. reflexivity. }
  intros acc. apply (G (List.length l) l acc). lia.
Qed.
Theorem lines_inj o1 e1 o2 e2 l : lines (Some (Ok (o1, e1))) = Ok l -> lines (Some (Ok (o2, e2))) = Ok l -> o1 = o2.
Proof.
  cbn [lines bind]. intros H1 H2. injection H1 as H1. injection H2 as H2. apply str_bytes_inj.
  pose proof (split_join (str_bytes o1) []) as A. pose proof (split_join (str_bytes o2) []) as B. unfold split_nl in *. rewrite H1 in A. rewrite H2 in B. cbn [rev app] in *. congruence.
Qed.

(** Only printable characters. *)
Lemma byte_printable : forall b q, q = apostrophe \/ q = quotes -> forallb (fun c => (32 <=? nat_of_ascii c)%nat && (nat_of_ascii c <=? 126)%nat) (repr_byte q b) = true.
Proof. intros [[] [] [] [] [] [] [] []] q [-> | ->]; reflexivity. Qed.
Theorem str_printable o c : In c (str_bytes o) -> (32 <= nat_of_ascii c <= 126)%nat.
Proof.
  unfold str_bytes. assert (Q : quote o = apostrophe \/ quote o = quotes) by (unfold quote; destruct (_ && _); auto).
  assert (QP : (32 <= nat_of_ascii (quote o) <= 126)%nat).
  { destruct Q as [-> | ->]; cbn; lia. }
  intros [<- | [<- | I]]; [cbn; lia|exact QP|]. apply in_app_iff in I as [I | [<- | []]]; [|exact QP].
  apply in_flat_map in I as (b & _ & I). pose proof (byte_printable b (quote o) Q) as P. rewrite forallb_forall in P.
  specialize (P c I). apply Bool.andb_true_iff in P as [A B]. apply PeanoNat.Nat.leb_le in A, B. lia.
Qed.
