(** Proofs about LayModel. *)
From Coq Require Import ZArith String Ascii List Bool Lia.
From Verif Require Import PyBase TbModel DumpModel DumpProofs LayModel LaySpec.
Import ListNotations.
Open Scope Z_scope.
Open Scope list_scope.

Lemma has_connected p id : has_target (p_obs p) id = true <-> connected p id.
Proof.
  unfold has_target, active_with, connected. rewrite orb_true_iff. split.
  - intros [H|H].
    + destruct (o_target_a (p_obs p)) as [t|]; [|discriminate]. apply andb_prop in H. destruct H as [H A]. apply Z.eqb_eq in H. exists t. auto.
    + destruct (o_target_b (p_obs p)) as [t|]; [|discriminate]. apply andb_prop in H. destruct H as [H A]. apply Z.eqb_eq in H. exists t. auto.
  - intros [t [[E|E] [<- A]]]; rewrite E, Z.eqb_refl, A; auto.
Qed.

(** * Finding the place *)
Lemma find_place_same ps id : match find_place ps id with
  | Ok p => find_observer (map p_obs ps) id = Ok (p_obs p)
  | Err e => find_observer (map p_obs ps) id = Err e
  end.
Proof.
  induction ps as [|p ps IH]; cbn [find_place find_observer map]; [reflexivity|].
  destruct (negb (o_active (p_obs p))); [exact IH|]. destruct (o_cape (p_obs p)) as [c|]; [|reflexivity].
  destruct (negb (c_active c)); [exact IH|]. destruct (has_target (p_obs p) id); [reflexivity|exact IH].
Qed.
Lemma find_place_ok ps id p : find_place ps id = Ok p -> In p ps /\ connected p id /\ exists c, in_use p c.
Proof.
  induction ps as [|q ps IH]; cbn [find_place]; [discriminate|].
  destruct (o_active (p_obs q)) eqn:A; cbn [negb]; [|intros H; destruct (IH H) as [? ?]; cbn; tauto].
  destruct (o_cape (p_obs q)) as [c|] eqn:C; [|discriminate].
  destruct (c_active c) eqn:Ca; cbn [negb]; [|intros H; destruct (IH H) as [? ?]; cbn; tauto].
  destruct (has_target (p_obs q) id) eqn:T; [|intros H; destruct (IH H) as [? ?]; cbn; tauto].
  intros [= ->]. split; [left; reflexivity|]. split; [apply has_connected, T|]. exists c. repeat split; assumption.
Qed.
Lemma find_place_all ps id : (forall p, In p ps -> o_active (p_obs p) = true -> o_cape (p_obs p) <> None) ->
  (exists p, find_place ps id = Ok p) \/ (find_place ps id = Err ValueError /\ forall p c, In p ps -> in_use p c -> ~ connected p id).
Proof.
  induction ps as [|q ps IH]; intros E; cbn [find_place].
  - right. split; [reflexivity|]. intros p c [].
  - assert (E' : forall p, In p ps -> o_active (p_obs p) = true -> o_cape (p_obs p) <> None) by (intros p I; apply E; right; exact I).
    specialize (IH E').
    assert (Step : (forall c, in_use q c -> ~ connected q id) ->
      (exists p, find_place ps id = Ok p) \/ (find_place ps id = Err ValueError /\ forall p c, In p (q :: ps) -> in_use p c -> ~ connected p id)).
    { intros Hq. destruct IH as [IH|[IH N]]; [left; exact IH|right]. split; [exact IH|]. intros p c [-> |I] U; [apply Hq with c, U|apply N with c; assumption]. }
    destruct (o_active (p_obs q)) eqn:A; cbn [negb]; [|apply Step; intros c [U _]; congruence].
    destruct (o_cape (p_obs q)) as [c|] eqn:C; [|destruct (E q (or_introl eq_refl) A C)].
    destruct (c_active c) eqn:Ca; cbn [negb]; [|apply Step; intros d [_ [U V]]; congruence].
    destruct (has_target (p_obs q) id) eqn:T; [left; eauto|]. apply Step. intros d _ H. apply has_connected in H. congruence.
Qed.

(** * Rows *)
Lemma row_iff b u : equipped b -> exclusive b ->
  exists r, row b u = Ok r /\ (forall l, r = Some l <-> exists p c, In p (b_places b) /\ in_use p c /\ connected p (u_id u) /\ shows b u p c l).
Proof.
  intros E X. unfold row. destruct (find_place_all (b_places b) (u_id u) E) as [[p F]|[F N]]; rewrite F.
  - destruct (find_place_ok _ _ _ F) as [I [T [c U]]]. unfold elements. destruct U as [U1 [U2 U3]]. rewrite U2. cbn [bind]. eexists. split; [reflexivity|].
    intros l. split.
    + intros [= <-]. exists p, c. repeat split; assumption.
    + intros [q [d [I' [V [T' S]]]]]. assert (q = p) by (apply (X q p d c (u_id u)); repeat split; try assumption; apply V). subst q. destruct V as [_ [V _]]. assert (d = c) by congruence. subst d.
      rewrite S. reflexivity.
  - exists None. split; [reflexivity|]. intros l. split; [discriminate|]. intros [p [c [I [U [T _]]]]]. destruct (N p c I U T).
Qed.
Lemma rows_of_iff b : equipped b -> exclusive b -> forall us, exists rs, rows_of b us = (rs, None)
  /\ forall l, In l rs <-> exists u p c, In u us /\ In p (b_places b) /\ in_use p c /\ connected p (u_id u) /\ shows b u p c l.
Proof.
  intros E X. induction us as [|u us IH]; cbn [rows_of].
  - exists []. split; [reflexivity|]. intros l. split; [intros []|intros [u [p [c [[] _]]]]].
  - destruct (row_iff b u E X) as [r [Er Hr]]. destruct IH as [rs [Ers Hrs]]. rewrite Er, Ers. eexists. split; [reflexivity|].
    intros l. transitivity (r = Some l \/ In l rs).
    + destruct r as [x|]; cbn [In].
      * split; (intros [H|H]; [left; congruence|right; exact H]).
      * split; [intros H; right; exact H|intros [H|H]; [discriminate H|exact H]].
    + rewrite Hr, Hrs. split.
      * intros [[p [c H]]|[v [p [c [I H]]]]]; [exists u, p, c; cbn; tauto|exists v, p, c; cbn; tauto].
      * intros [v [p [c [[-> |I] H]]]]; [left; exists p, c; exact H|right; exists v, p, c; tauto].
Qed.
Lemma rows_iff us : forall bs, Forall equipped bs -> Forall exclusive bs -> exists rs, rows bs us = (rs, None)
  /\ forall l, In l rs <-> exists b u p c, In b bs /\ In u us /\ In p (b_places b) /\ in_use p c /\ connected p (u_id u) /\ shows b u p c l.
Proof.
  induction bs as [|b bs IH]; intros E X; cbn [rows].
  - exists []. split; [reflexivity|]. intros l. split; [intros []|intros [b [u [p [c [[] _]]]]]].
  - destruct (rows_of_iff b (Forall_inv E) (Forall_inv X) us) as [r [Er Hr]]. destruct (IH (Forall_inv_tail E) (Forall_inv_tail X)) as [rs [Ers Hrs]].
    rewrite Er, Ers. eexists. split; [reflexivity|]. intros l. rewrite in_app_iff, Hr, Hrs. split.
    + intros [[u [p [c H]]]|[b' [u [p [c [I H]]]]]]; [exists b, u, p, c; cbn; tauto|exists b', u, p, c; cbn; tauto].
    + intros [b' [u [p [c [[-> |I] H]]]]]; [left; exists u, p, c; exact H|right; exists b', u, p, c; tauto].
Qed.

(** No row twice. *)
Lemma row_ids b u l : row b u = Ok (Some l) -> nth_error l 0 = Some (show_int (b_id b)) /\ nth_error l 2 = Some (show_int (u_id u)).
Proof.
  unfold row. destruct (find_place _ _) as [p|[]]; try discriminate. unfold elements. destruct (o_cape (p_obs p)) as [c|]; [|discriminate]. cbn [bind].
  intros [= <-]. split; reflexivity.
Qed.
Lemma rows_of_ids b us : forall l, In l (fst (rows_of b us)) -> nth_error l 0 = Some (show_int (b_id b)) /\ exists u, In u us /\ nth_error l 2 = Some (show_int (u_id u)).
Proof.
  induction us as [|u us IH]; cbn [rows_of]; [intros l []|]. intros l. destruct (row b u) as [r|e] eqn:R; [|intros []].
  destruct (rows_of b us) as [rs e]. cbn [fst] in *. destruct r as [x|].
  - intros [<- |I]; [destruct (row_ids b u x R); split; [assumption|exists u; cbn; auto]|]. destruct (IH l I) as [A [v [B C]]]. split; [exact A|exists v; cbn; auto].
  - intros I. destruct (IH l I) as [A [v [B C]]]. split; [exact A|exists v; cbn; auto].
Qed.
Lemma rows_of_nodup b us : NoDup (map u_id us) -> NoDup (fst (rows_of b us)).
Proof.
  induction us as [|u us IH]; cbn [rows_of map]; intros N; [constructor|]. inversion N as [|? ? Nu N']; subst.
  destruct (row b u) as [r|e] eqn:R; [|constructor]. specialize (IH N'). pose proof (rows_of_ids b us) as K. destruct (rows_of b us) as [rs e]. cbn [fst] in *.
  destruct r as [x|]; [|exact IH]. constructor; [|exact IH]. intros I. destruct (K x I) as [_ [v [Iv Ev]]]. destruct (row_ids b u x R) as [_ Eu].
  rewrite Eu in Ev. injection Ev as Ev. apply show_int_inj in Ev. apply Nu. rewrite Ev. apply in_map, Iv.
Qed.
Lemma rows_ids us : forall bs l, In l (fst (rows bs us)) -> exists b, In b bs /\ nth_error l 0 = Some (show_int (b_id b)).
Proof.
  induction bs as [|b bs IH]; cbn [rows]; [intros l []|]. intros l. pose proof (rows_of_ids b us) as K. destruct (rows_of b us) as [r [e|]]; cbn [fst] in *.
  - intros I. exists b. split; [left; reflexivity|]. apply K, I.
  - destruct (rows bs us) as [rs e]. cbn [fst] in *. intros I. apply in_app_or in I. destruct I as [I|I].
    + exists b. split; [left; reflexivity|]. apply K, I.
    + destruct (IH l I) as [b' [Ib Eb]]. exists b'. cbn. auto.
Qed.
Lemma nodup_app {A} (l m : list A) : NoDup l -> NoDup m -> (forall x, In x l -> In x m -> False) -> NoDup (l ++ m).
Proof.
  induction l as [|x l IH]; intros Nl Nm D; [exact Nm|]. inversion Nl as [|? ? Nx Nl']; subst. cbn. constructor.
  - intros I. apply in_app_or in I. destruct I as [I|I]; [auto|]. apply (D x); [left; reflexivity|exact I].
  - apply IH; auto. intros y Iy. apply D. right. exact Iy.
Qed.
Lemma rows_nodup us : NoDup (map u_id us) -> forall bs, NoDup (map b_id bs) -> NoDup (fst (rows bs us)).
Proof.
  intros Nu. induction bs as [|b bs IH]; cbn [rows map]; intros N; [constructor|]. inversion N as [|? ? Nb N']; subst.
  pose proof (rows_of_nodup b us Nu) as R. pose proof (rows_of_ids b us) as K. destruct (rows_of b us) as [r [e|]]; cbn [fst] in *; [exact R|].
  specialize (IH N'). pose proof (rows_ids us bs) as K'. destruct (rows bs us) as [rs e]. cbn [fst] in *.
  apply nodup_app; auto. intros x I I'. destruct (K x I) as [E _]. destruct (K' x I') as [b' [Ib Eb]]. rewrite E in Eb. injection Eb as Eb.
  apply show_int_inj in Eb. apply Nb. rewrite Eb. apply in_map, Ib.
Qed.

(** * Reading the table *)
Lemma split_nonempty c s : split_at c s <> [].
Proof. destruct s as [|x s]; cbn; [discriminate|]. destruct (Ascii.eqb x c); [discriminate|]. destruct (split_at c s); discriminate. Qed.
Lemma split_app c a : ~ In c a -> forall b, split_at c (a ++ c :: b) = a :: split_at c b.
Proof.
  induction a as [|x a IH]; intros N b; cbn [app split_at].
  - rewrite Ascii.eqb_refl. reflexivity.
  - destruct (Ascii.eqb_spec x c) as [-> |_]; [destruct N; left; reflexivity|]. rewrite IH; [reflexivity|]. intros I. apply N. right. exact I.
Qed.
Lemma split_none c a : ~ In c a -> split_at c a = [a].
Proof.
  induction a as [|x a IH]; intros N; cbn [split_at]; [reflexivity|]. destruct (Ascii.eqb_spec x c) as [-> |_]; [destruct N; left; reflexivity|].
  rewrite IH; [reflexivity|]. intros I. apply N. right. exact I.
Qed.
Lemma join_split l : l <> [] -> Forall (fun s => ~ In ";"%char s) l -> split_at ";"%char (join separator l) = match l with [] => [] | x :: l' => x :: map (cons " "%char) l' end.
Proof.
  induction l as [|x l IH]; intros N F; [congruence|]. inversion F as [|? ? Fx Fl]; subst. destruct l as [|y l]; [apply split_none, Fx|].
  change (join separator (x :: y :: l)) with (x ++ ";"%char :: " "%char :: join separator (y :: l)). rewrite (split_app ";"%char x Fx). f_equal.
  cbn [split_at]. replace (Ascii.eqb " " ";") with false by reflexivity. rewrite IH by (assumption || discriminate). reflexivity.
Qed.
Lemma columns_join l : l <> [] -> Forall (fun s => ~ In ";"%char s) l -> columns (join separator l) = l.
Proof.
  intros N F. unfold columns. rewrite (join_split l N F). destruct l as [|x l]; [congruence|]. f_equal. rewrite map_map. rewrite <- (map_id l) at 2. apply map_ext. reflexivity.
Qed.
Lemma in_join c l : ~ In c separator -> In c (join separator l) -> exists s, In s l /\ In c s.
Proof.
  intros Ns. induction l as [|x l IH]; [intros []|]. destruct l as [|y l]; [intros I; exists x; cbn; auto|].
  change (join separator (x :: y :: l)) with (x ++ separator ++ join separator (y :: l)). intros I. apply in_app_or in I. destruct I as [I|I]; [exists x; cbn; auto|].
  apply in_app_or in I. destruct I as [I|I]; [destruct (Ns I)|]. destruct (IH I) as [s [A B]]. exists s. cbn in *. tauto.
Qed.
Lemma read_lines ls : Forall (fun l => l <> [] /\ Forall plain l) ls -> read (flat_map line ls) = ls.
Proof.
  unfold read. intros F. assert (S : split_at "010"%char (flat_map line ls) = map (join separator) ls ++ [[]]).
  { induction F as [|l ls [N Fl] F IH]; [reflexivity|]. cbn [flat_map map app]. unfold line at 1. rewrite <- app_assoc.
    change (newline ++ flat_map line ls) with ("010"%char :: flat_map line ls). rewrite split_app; [rewrite IH; reflexivity|].
    intros I. apply in_join in I; [|cbn; intros [H|[H|[]]]; discriminate]. destruct I as [s [Is Ic]]. rewrite Forall_forall in Fl. destruct (Fl s Is) as [_ P]. exact (P Ic). }
  rewrite S, removelast_last. rewrite map_map. rewrite <- (map_id ls) at 2. apply map_ext_in. intros l I. rewrite Forall_forall in F. destruct (F l I) as [N Fl].
  apply columns_join; [exact N|]. revert Fl. apply Forall_impl. intros s [P _]. exact P.
Qed.

Lemma digit_plain s : forallb numeric s = true -> plain s.
Proof. rewrite forallb_forall. intros H. split; intros I; discriminate (H _ I). Qed.
Lemma show_int_plain z : plain (show_int z).
Proof. apply digit_plain, show_int_numeric. Qed.
Lemma plainb s : existsb (fun c => Ascii.eqb c ";" || Ascii.eqb c "010") s = false -> plain s.
Proof.
  intros H. split; intros I; assert (T : existsb (fun c => Ascii.eqb c ";" || Ascii.eqb c "010") s = true) by (apply existsb_exists; eexists; split; [exact I|reflexivity]); congruence.
Qed.
Lemma header_plain : header <> [] /\ Forall plain header.
Proof. split; [discriminate|]. unfold header. cbn [map]. repeat (apply Forall_cons; [apply plainb; reflexivity|]). apply Forall_nil. Qed.
Lemma row_plain b u l : plain_bed b -> plain (u_name u) -> row b u = Ok (Some l) -> l <> [] /\ Forall plain l /\ length l = 13%nat.
Proof.
  intros [Pb Pp] Pu. unfold row. destruct (find_place _ _) as [p|[]] eqn:F; try discriminate. unfold elements. destruct (o_cape (p_obs p)) as [c|]; [|discriminate]. cbn [bind].
  apply find_place_ok in F. destruct F as [I _]. rewrite Forall_forall in Pp. destruct (Pp p I) as [P1 [P2 [P3 [P4 [P5 [P6 P7]]]]]].
  intros [= <-]. split; [discriminate|]. split; [|reflexivity].
  repeat (apply Forall_cons; [assumption || apply show_int_plain|]). apply Forall_nil.
Qed.
Lemma rows_of_plain b us : plain_bed b -> Forall (fun u => plain (u_name u)) us -> Forall (fun l => l <> [] /\ Forall plain l /\ length l = 13%nat) (fst (rows_of b us)).
Proof.
  intros Pb. induction 1 as [|u us Pu F IH]; cbn [rows_of]; [constructor|]. destruct (row b u) as [r|e] eqn:R; [|constructor].
  destruct (rows_of b us) as [rs e]. cbn [fst] in *. destruct r as [x|]; [|exact IH]. constructor; [|exact IH]. eapply row_plain; eassumption.
Qed.
Lemma rows_plain us bs : Forall plain_bed bs -> Forall (fun u => plain (u_name u)) us -> Forall (fun l => l <> [] /\ Forall plain l /\ length l = 13%nat) (fst (rows bs us)).
Proof.
  intros Pb Pu. induction Pb as [|b bs P F IH]; cbn [rows]; [constructor|]. pose proof (rows_of_plain b us P Pu) as R. destruct (rows_of b us) as [r [e|]]; cbn [fst] in *; [exact R|].
  destruct (rows bs us) as [rs e]. cbn [fst] in *. apply Forall_app. auto.
Qed.
Lemma read_table bs us : Forall plain_bed bs -> Forall (fun u => plain (u_name u)) us ->
  read (fst (table bs us)) = header :: fst (rows bs us) /\ Forall (fun l => length l = length header) (fst (rows bs us)).
Proof.
  intros Pb Pu. pose proof (rows_plain us bs Pb Pu) as R. unfold table. destruct (rows bs us) as [rs e]. cbn [fst] in *. split.
  - change (line header ++ flat_map line rs) with (flat_map line (header :: rs)). apply read_lines. constructor; [exact header_plain|].
    revert R. apply Forall_impl. tauto.
  - revert R. apply Forall_impl. intros l [_ [_ L]]. exact L.
Qed.
