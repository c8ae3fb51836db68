(** Proofs about the structure check (C58) and about appending SI values (C61). *)
From Coq Require Import QArith Qround Qabs Lqa String.
From Verif Require Import PyBase UartModel UartProofs FileModel FileSpec FileSysProofs FileDataProofs.
Open Scope Z_scope.

(* ------------------------------------------------------------------ structure *)

Lemma dset_complete_iff d : dset_complete d = true <-> has_part d.
Proof.
  unfold has_part. destruct d as [[[g|] [o|] l]|]; cbn; split; try discriminate.
  - intros _. eauto.
  - reflexivity.
  - intros (? & ? & ? & [=]).
  - intros (? & ? & ? & [=]).
  - intros (? & ? & ? & [=]).
  - intros (? & ? & ? & [=]).
Qed.

Lemma mode_dtypes_iff m l : mode_dtypes m = Some l <->
  (m = "harvester"%string /\ l = [ivsample; ivcurve; isc_voc])
  \/ (m = "emulator"%string /\ l = [ivsample]).
Proof.
  unfold mode_dtypes.
  destruct (String.eqb_spec m "harvester"); [|destruct (String.eqb_spec m "emulator")].
  - subst. split; [intros [= <-]; auto | intros [[_ ->]|[C _]]; [reflexivity | discriminate C]].
  - subst. split; [intros [= <-]; auto | intros [[C _]|[_ ->]]; [discriminate C | reflexivity]].
  - split; [discriminate | intros [[C _]|[C _]]; contradiction].
Qed.

Lemma dtype_of_name_iff s d : dtype_of_name s = Some d <->
  In s (match d with
        | ivsample => ["ivsample"; "ivsamples"]%string
        | ivcurve => ["ivcurve"; "ivcurves"; "ivsurface"]%string
        | isc_voc => ["isc_voc"]%string
        end).
Proof.
  split.
  - unfold dtype_of_name.
    destruct (String.eqb_spec s "ivsample"); [intros [= <-]; cbn; auto|].
    destruct (String.eqb_spec s "ivsamples"); [intros [= <-]; cbn; auto|].
    destruct (String.eqb_spec s "ivcurve"); [intros [= <-]; cbn; auto|].
    destruct (String.eqb_spec s "ivcurves"); [intros [= <-]; cbn; auto|].
    destruct (String.eqb_spec s "ivsurface"); [intros [= <-]; cbn; auto 6|].
    destruct (String.eqb_spec s "isc_voc"); [intros [= <-]; cbn; auto|]. discriminate.
  - destruct d; cbn; intros H; repeat destruct H as [H|H]; subst; reflexivity || contradiction.
Qed.

Lemma valid_structure f : is_valid f = true <-> well_structured f.
Proof.
  unfold is_valid, well_structured. split.
  - destruct (f_data f) as [g|] eqn:Eg; [|discriminate].
    destruct (f_mode f) as [m|] eqn:Em; [|discriminate].
    destruct (mode_dtypes m) as [l|] eqn:El; [|discriminate].
    destruct (g_window g) as [w|] eqn:Ew; [|discriminate].
    destruct (g_datatype g) as [s|] eqn:Es; [|discriminate].
    intros H. apply andb_true_iff in H as [H Hw]. apply andb_true_iff in H as [H Hd].
    apply andb_true_iff in H as [H H3]. apply andb_true_iff in H as [H1 H2].
    exists g, m, s, w. rewrite <- !dset_complete_iff. repeat (split; [assumption || reflexivity|]).
    unfold get_datatype in *. rewrite Es in *. unfold get_window_samples in Hw. rewrite Ew in Hw.
    destruct (dtype_of_name s) as [d|] eqn:Ed; [|discriminate].
    apply dtype_of_name_iff in Ed.
    apply mode_dtypes_iff in El as [[-> ->]|[-> ->]]; destruct d; cbn in Hd; try discriminate; cbn in Ed.
    + left. split; [exact Ed | cbn; auto].
    + right; right. split; [exact Ed|]. split; [reflexivity|].
      destruct (Z.ltb_spec w 1); [discriminate | lia].
    + right; left. intuition.
    + left. split; [exact Ed | cbn; auto].
  - intros (g & m & s & w & -> & -> & Es & Ew & Ht & Hv & Hi & Hd).
    apply dset_complete_iff in Ht, Hv, Hi. rewrite Ew.
    assert (K : exists l d, mode_dtypes m = Some l /\ dtype_of_name s = Some d
                            /\ dtype_in (Some d) l = true /\ (d = ivcurve -> 1 <= w)).
    { destruct Hd as [[Hs Hm]|[[Hs Hm]|(Hs & Hm & Hw)]].
      - destruct Hm as [<-|[<-|[]]];
          (eexists; exists ivsample; split; [reflexivity|]; split; [now apply dtype_of_name_iff|]).
        + split; [reflexivity | discriminate].
        + split; [reflexivity | discriminate].
      - subst. do 2 eexists. split; [reflexivity|]. split; [reflexivity|]. split; [reflexivity | discriminate].
      - subst. eexists. exists ivcurve. split; [reflexivity|]. split; [now apply dtype_of_name_iff|].
        split; [reflexivity | auto]. }
    destruct K as (l & d & -> & Ed & Hin & Hw).
    rewrite Es. unfold get_datatype, get_window_samples. rewrite Es, Ed, Ew, Ht, Hv, Hi, Hin.
    cbn [andb]. destruct d; try reflexivity.
    destruct (Z.ltb_spec w 1); [specialize (Hw eq_refl); lia | reflexivity].
Qed.

(* ------------------------------------------------------------------ SI values *)

Lemma qround_half q : (Qabs (inject_Z (qround q) - q) <= 1 # 2)%Q.
Proof.
  unfold qround.
  pose proof (Qfloor_le q) as F1. pose proof (Qlt_floor q) as F2.
  rewrite inject_Z_plus in F2. set (f := Qfloor q) in *. clearbody f.
  change (inject_Z 1) with 1%Q in F2.
  apply Qabs_Qle_condition.
  destruct (Qle_bool (1 # 2) (q - inject_Z f)) eqn:E1.
  - apply Qle_bool_iff in E1.
    destruct (Qle_bool (q - inject_Z f) (1 # 2)) eqn:E2; [apply Qle_bool_iff in E2; destruct (Z.even f)|];
      rewrite ?inject_Z_plus; change (inject_Z 1) with 1%Q; lra.
  - assert (Hn : ~ (1 # 2 <= q - inject_Z f)%Q) by (intros C; apply Qle_bool_iff in C; congruence). lra.
Qed.

Lemma si_to_raw_stored p si : (0 < gain p)%Q -> stored_as p si (si_to_raw p si).
Proof.
  intros Hg. unfold stored_as, si_to_raw.
  set (target := if Qlt_le_dec si (offset p) then offset p else si).
  set (r := ((si - offset p) / gain p)%Q).
  assert (Hr : (r * gain p == si - offset p)%Q) by (unfold r; field; lra).
  assert (Ht : ((if Qle_bool r 0 then 0 else r) * gain p == target - offset p)%Q).
  { unfold target. clearbody r. destruct (Qlt_le_dec si (offset p)) as [L|L]; destruct (Qle_bool r 0) eqn:E.
    - lra.
    - assert (~ (r <= 0)%Q) by (intros C; apply Qle_bool_iff in C; congruence).
      assert (0 < r)%Q by lra. pose proof (Qmult_lt_0_compat _ _ H0 Hg). lra.
    - apply Qle_bool_iff in E.
      assert (r * gain p <= 0)%Q. { setoid_replace 0%Q with (0 * gain p)%Q by lra. apply Qmult_le_compat_r; lra. }
      lra.
    - exact Hr. }
  set (x := if Qle_bool r 0 then 0%Q else r) in *. clearbody x target. clear r Hr.
  pose proof (qround_half x) as H.
  setoid_replace (inject_Z (qround x) * gain p + offset p - target)%Q
    with ((inject_Z (qround x) - x) * gain p)%Q by (ring_simplify; lra).
  rewrite Qabs_Qmult, (Qabs_pos (gain p)) by lra.
  setoid_replace (gain p / 2)%Q with ((1 # 2) * gain p)%Q by field.
  apply Qmult_le_compat_r; lra.
Qed.

(** The raw form of an append. *)
Definition conv (c : series) (b : buffer_si) : buffer :=
  let '(ts, v, i) := b in
  (match ts with
   | SiScalar t => TsScalar (si_to_raw (c_time c) t)
   | SiArray t => TsArray (map (si_to_raw (c_time c)) t)
   end, map (si_to_raw (c_voltage c)) v, map (si_to_raw (c_current c)) i).

Lemma append_raw_cal w ts v i w' : append_raw w ts v i = Ok w' -> r_cal w' = r_cal w.
Proof.
  unfold append_raw. destruct (expand_ts _ _ _); [|discriminate]. cbn [bind]. intros [= <-]. reflexivity.
Qed.

Lemma appends_si_conv bs : forall w, appends_si w bs = appends w (map (conv (r_cal w)) bs).
Proof.
  induction bs as [|[[ts v] i] bs IH]; intros w; [reflexivity|].
  cbn [map appends_si conv appends]. unfold append_si.
  destruct (append_raw _ _ _ _) as [w'|] eqn:E; [|reflexivity]. cbn [bind].
  rewrite IH. now rewrite (append_raw_cal _ _ _ _ _ E).
Qed.

Lemma conv_usable c bs : Forall usable (map (conv c) bs).
Proof. induction bs as [|[[[t|t] v] i] bs IH]; constructor; try assumption; cbn; discriminate. Qed.

Lemma rows_stored_aux c (time : list Q) (traw : list Z) v i :
  pos_series c -> Forall2 (stored_as (c_time c)) time traw ->
  Forall2 (row_stored c) (combine (combine time v) i)
    (combine (combine traw (map (si_to_raw (c_voltage c)) v)) (map (si_to_raw (c_current c)) i)).
Proof.
  intros (Hv & Hi & _) H. revert v i.
  induction H as [|x y l l' Hxy Hl IH]; intros v i; [constructor|].
  destruct v as [|a v]; [constructor|]. destruct i as [|b i]; [constructor|].
  cbn. constructor; [|apply IH]. repeat split; [exact Hxy | now apply si_to_raw_stored..].
Qed.

Lemma scalar_stored p t n : (0 < gain p)%Q ->
  Forall2 (stored_as p)
    (map (fun k => (if Qlt_le_dec t (offset p) then offset p else t)
                   + 10000 * inject_Z (Z.of_nat k) * gain p)%Q (seq 0 n))
    (map (fun k => si_to_raw p t + 10000 * Z.of_nat k) (seq 0 n)).
Proof.
  intros Hg. pose proof (si_to_raw_stored p t Hg) as H. unfold stored_as in H.
  set (t0 := if Qlt_le_dec t (offset p) then offset p else t) in *.
  assert (Ht0 : (offset p <= t0)%Q) by (unfold t0; destruct (Qlt_le_dec t (offset p)); lra).
  clearbody t0. generalize (seq 0 n) as l.
  induction l as [|k l IH]; [constructor|]. cbn [map]. constructor; [|exact IH].
  unfold stored_as.
  assert (Hk : (0 <= 10000 * inject_Z (Z.of_nat k) * gain p)%Q).
  { assert (0 <= inject_Z (Z.of_nat k))%Q.
    { change 0%Q with (inject_Z 0). rewrite <- Zle_Qle. lia. }
    apply Qmult_le_0_compat; [|lra]. apply Qmult_le_0_compat; [lra | assumption]. }
  destruct (Qlt_le_dec _ _) as [L|_]; [exfalso; lra|].
  rewrite inject_Z_plus, inject_Z_mult. change (inject_Z 10000) with 10000%Q.
  setoid_replace ((inject_Z (si_to_raw p t) + 10000 * inject_Z (Z.of_nat k)) * gain p + offset p
    - (t0 + 10000 * inject_Z (Z.of_nat k) * gain p))%Q
    with (inject_Z (si_to_raw p t) * gain p + offset p - t0)%Q by ring.
  exact H.
Qed.

Lemma row_conv c b : pos_series c -> Forall2 (row_stored c) (rows_si (c_time c) b) (rows (conv c b)).
Proof.
  intros Hc. destruct b as [[ts v] i]. unfold rows_si, conv, rows.
  destruct ts as [t|t]; (apply rows_stored_aux; [exact Hc|]).
  - rewrite map_length. apply scalar_stored. apply Hc.
  - induction t as [|x t IH]; constructor; [apply si_to_raw_stored, Hc | exact IH].
Qed.

Lemma si_rows w c bs : newborn w -> r_cal w = c ->
  exists w' rs, appends_si w bs = Ok w' /\ holds_rows (r_file w') rs
    /\ Forall2 (row_stored c) (flat_map (rows_si (c_time c)) bs) rs.
Proof.
  intros Hn Hc. rewrite appends_si_conv.
  destruct (newborn_rows w (map (conv (r_cal w)) bs) Hn (conv_usable _ _)) as (w' & H1 & _ & _ & _ & H2 & _).
  exists w'. eexists. split; [exact H1|]. split; [exact H2|]. rewrite Hc.
  assert (Hp : pos_series c).
  { destruct Hn as (? & ? & ? & ? & -> & _ & _ & Hp). cbn in Hc. congruence. }
  clear - Hp. induction bs as [|b bs IH]; [constructor|]. cbn. apply Forall2_app; [now apply row_conv | exact IH].
Qed.

Lemma writer_cal a d p d' q w :
  a_modify a = false -> writer_init a d p = (d', Ok (q, w)) ->
  r_cal w = match a_cal a with Some c => c | None => series_default end.
Proof.
  intros Hm H. destruct (writer_init_fresh _ _ _ _ _ _ Hm H) as [K _].
  destruct (configure_skeleton _ _ _ K) as (m & dt & wn & Hf & Hr & _).
  now rewrite Hr.
Qed.
