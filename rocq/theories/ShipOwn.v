(** Own sources on top of the shipped ones. *)
From Coq Require Import String ZArith Bool List Reals Lia Lra.
From Verif Require Import PyBase F64 CalModel FixModel FixSpec FixProofs CfgModel CfgSpec CfgHrvProofs CfgSrcProofs ShipData ShipModel ShipSpec ShipProofs.
Import ListNotations.
Open Scope Z_scope.
Open Scope list_scope.

(** What follows the completion of the dictionary. *)
Definition make_from (depth : nat) (x : fixtures) (d : dict) : res vsrc :=
  let d := fill_in_user_data d in
  let* r := field reference_of "harvester" [("name"%string, VStr "mppt_opt")] d in
  let* h := make_harvester depth x r in
  let* v := source_in d h in
  let* v := check_vsrc v in
  let* _ := content_validation source_fields d in
  Ok v.
Lemma make_split depth x values : make_source depth x values =
  let* (d, _) := try_completing_model depth x "VirtualSourceConfig" values in make_from depth x d.
Proof. reflexivity. Qed.

(** The dictionary of a shipped source as base of another one. *)
Definition base_dict (k : nat) (n base : string) : res dict :=
  let* f := component db "VirtualSourceConfig" in
  let* b := getitem f (VStr base) in
  let* r := inheritance (10 + k) f (dput "name" (VStr base) b) ([VStr n] ++ [VStr base]) in
  Ok (fst r).

Lemma own_dict k n base values d : python_dict values -> entry "inherit_from" values = Some (VStr base) ->
  entry "name" values = Some (VStr n) -> n <> base -> base_dict k n base = Ok d ->
  exists c, try_completing_model (11 + k) db "VirtualSourceConfig" values = Ok (fill d (ddel "inherit_from" values), c).
Proof.
  intros D I N NB B. unfold base_dict in B. remember db as x eqn:X. clear X. unfold try_completing_model.
  assert (Q : match values with [(k0, _)] => String.eqb k0 "id" || String.eqb k0 "name" | _ => false end = false).
  { destruct values as [|[k0 v0] [|]]; try reflexivity. rewrite entry_cons in I, N.
    destruct (String.eqb "inherit_from" k0) eqn:E1; [|discriminate]. destruct (String.eqb "name" k0) eqn:E2; [|discriminate].
    apply String.eqb_eq in E1, E2. congruence. }
  rewrite Q. cbn [bind]. destruct (component x "VirtualSourceConfig") as [f|]; cbn [bind] in *; [|discriminate].
  change (11 + k)%nat with (S (10 + k)). cbn [inheritance]. rewrite dget_entry, I.
  assert (NM : dget "name" (ddel "inherit_from" values) = Some (VStr n)) by (rewrite dget_entry, entry_del; exact N).
  unfold start_chain. rewrite NM. cbn [List.length Nat.ltb Nat.leb existsb value_eqb].
  destruct (String.eqb n base) eqn:E; [apply String.eqb_eq in E; congruence|]. cbn [bind app].
  destruct (getitem f (VStr base)) as [b|]; cbn [bind] in *; [|discriminate].
  cbn [app] in B. destruct (inheritance (10 + k) f (dput "name" (VStr base) b) [VStr n; VStr base]) as [r|]; cbn [bind] in *; [|discriminate].
  injection B as <-. eauto.
Qed.

Definition reading (d : dict) : list (option FixModel.value) := map (fun key => dget key (fill_in_user_data d)) ("harvester"%string :: source_keys).

(** As base a shipped source is what it is by itself. *)
Lemma bases k n : Forall (fun base => exists d, base_dict k n base = Ok d /\
    told "VirtualSourceConfig" ("harvester"%string :: source_keys) (11 + k) db base = Ok (reading d) /\
    described d = true) (map fst source_names).
Proof.
  unfold source_names. cbn [map fst].
  repeat (apply Forall_cons; [eexists; split; [vm_compute; reflexivity|split; vm_compute; reflexivity]|]); apply Forall_nil.
Qed.

Lemma user_data key d : key <> "owner"%string -> key <> "group"%string -> dget key (fill_in_user_data d) = dget key d.
Proof.
  intros A B. apply String.eqb_neq in A, B. unfold fill_in_user_data. rewrite !dget_entry.
  destruct (match entry "owner" d with None => _ | _ => _ end);
    destruct (match entry "group" _ with None => _ | _ => _ end); rewrite ?dget_entry, ?entry_put, ?A, ?B; reflexivity.
Qed.

(** The completed dictionary of an own source. *)
Definition merged (d values : dict) : dict := fill_in_user_data (fill d (ddel "inherit_from" values)).
Lemma merged_get key d values : python_dict values -> key <> "owner"%string -> key <> "group"%string -> key <> "inherit_from"%string ->
  dget key (merged d values) = match entry key values with Some v => Some v | None => dget key (fill_in_user_data d) end.
Proof.
  intros D A B C. unfold merged. rewrite !user_data by assumption. rewrite !dget_entry, entry_fill by (apply del_dict; exact D).
  rewrite entry_del. apply String.eqb_neq in C. rewrite C. reflexivity.
Qed.
Lemma field_merged A (f : FixModel.value -> res A) (P : A -> Prop) key dflt d values x0 : python_dict values ->
  key <> "owner"%string -> key <> "group"%string -> key <> "inherit_from"%string ->
  field f key dflt (fill_in_user_data d) = Ok x0 -> P x0 ->
  (forall v, entry key values = Some v -> exists x, f v = Ok x /\ P x) ->
  exists x, field f key dflt (merged d values) = Ok x /\ P x /\ match entry key values with Some v => f v = Ok x | None => x = x0 end.
Proof.
  intros D N1 N2 N3 E P0 N. unfold field in *. rewrite merged_get by assumption. destruct (entry key values) as [v|].
  - destruct (N v eq_refl) as (x & F & X). eauto.
  - eauto.
Qed.

Lemma in_range_intro hi x : Z.abs hi <= 2 ^ 53 -> fin x = true -> (0 <= fR x <= IZR hi)%R -> in_range (fz 0) (fz hi) x = true.
Proof.
  intros H F [L U]. destruct (fz_ok 0 ltac:(lia)) as [F0 R0]. destruct (fz_ok hi H) as [F1 R1]. unfold in_range.
  rewrite !andb_true_iff. split; [split; [exact F|]|]; apply fle_R; try assumption; rewrite ?R0, ?R1; assumption.
Qed.

Lemma truth_bool v b : truth v b -> bool_of v = Ok b.
Proof. unfold truth. intros ->. destruct b; reflexivity. Qed.
Lemma bool_truth v b : bool_of v = Ok b -> truth v b.
Proof.
  unfold bool_of, truth. destruct v as [s|z|s]; try discriminate.
  destruct (String.eqb s "True") eqn:E; [apply String.eqb_eq in E; subst; intros H; injection H as <-; reflexivity|].
  destruct (String.eqb s "False") eqn:E'; [apply String.eqb_eq in E'; subst; intros H; injection H as <-; reflexivity|discriminate].
Qed.

Lemma own_in d values h s : python_dict values -> chosen values -> no_tables values -> source_in (fill_in_user_data d) h = Ok s -> fields_vsrc s = true ->
  exists w, source_in (merged d values) h = Ok w /\ fields_vsrc w = true /\ takes values s w.
Proof.
  intros D (_ & FL & BL & IL) NO S F. unfold no_tables in NO.
  unfold source_in in S.
  repeat match type of S with bind (field ?f ?k ?x ?dd) _ = _ => let E := fresh "E" in let y := fresh "y" in
    destruct (field f k x dd) as [y|] eqn:E; cbn [bind] in S; [|discriminate] end.
  injection S as <-. unfold fields_vsrc in F. cbn [vs_drain_ms vs_Vin_max vs_Iin_max vs_Vin_drop vs_R_in vs_C_mid vs_V_init vs_I_leak vs_V_en vs_V_dis vs_check_ms
    vs_pg_en vs_pg_dis vs_C_out vs_V_log vs_V_boost vs_V_mid_max vs_LUT_in vs_LUT_in_V vs_LUT_in_I vs_V_out vs_V_buck vs_LUT_out vs_LUT_out_I] in F.
  rewrite !andb_true_iff in F.
  repeat match goal with H : _ /\ _ |- _ => destruct H end.
  Ltac inlist := first [left; reflexivity | right; inlist].
  Ltac no := let H := fresh in intros H; vm_compute in H; discriminate H.
  repeat match goal with
  | E : field float_of ?key ?x (fill_in_user_data d) = Ok ?y, U : in_range (fz 0) (fz ?hi) ?y = true |- _ =>
      let z := fresh "z" in let E' := fresh "E'" in let U' := fresh "U'" in let T := fresh "T" in
      destruct (field_merged _ float_of (fun z => in_range (fz 0) (fz hi) z = true) key x d values y D ltac:(no) ltac:(no) ltac:(no) E U) as (z & E' & U' & T);
      [let v := fresh "v" in let V := fresh "V" in intros v V; unshelve edestruct (FL key hi) as (? & ? & ? & ?); [|exact v|unfold float_limits; inlist|exact V|];
       eexists; split; [eassumption|apply in_range_intro; [lia|assumption|assumption]]|];
      clear E U
  end.
  repeat match goal with
  | E : field int_of ?key ?x (fill_in_user_data d) = Ok ?y, U : in_rangeZ ?lo ?hi ?y = true |- _ =>
      let z := fresh "z" in let E' := fresh "E'" in let U' := fresh "U'" in let T := fresh "T" in
      destruct (field_merged _ int_of (fun z => in_rangeZ lo hi z = true) key x d values y D ltac:(no) ltac:(no) ltac:(no) E U) as (z & E' & U' & T);
      [let v := fresh "v" in let V := fresh "V" in intros v V; unshelve edestruct (IL key lo hi) as (? & ? & ?); [|exact v|unfold int_limits; inlist|exact V|]; subst v;
       eexists; split; [reflexivity|unfold in_rangeZ; rewrite andb_true_iff, !Z.leb_le; assumption]|];
      clear E U
  end.
  repeat match goal with
  | E : field bool_of ?key ?x (fill_in_user_data d) = Ok ?y |- _ =>
      let z := fresh "z" in let E' := fresh "E'" in let U' := fresh "U'" in let T := fresh "T" in
      destruct (field_merged _ bool_of (fun _ => True) key x d values y D ltac:(no) ltac:(no) ltac:(no) E I) as (z & E' & U' & T);
      [let v := fresh "v" in let V := fresh "V" in intros v V; destruct (BL key v ltac:(cbn [map fst flags]; inlist) V) as [? ?]; eexists; split; [apply truth_bool; eassumption|exact I]|];
      clear E U'
  end.
  repeat match goal with
  | E : field ?f ?key ?x (fill_in_user_data d) = Ok ?y |- _ =>
      let E' := fresh "E'" in
      assert (E' : field f key x (merged d values) = Ok y);
      [unfold field; rewrite merged_get by first [exact D|no]; rewrite Forall_forall in NO; rewrite (NO key ltac:(inlist)); exact E|];
      clear E
  end.
  unfold source_in.
  repeat match goal with E' : field ?f ?k ?x (merged d values) = Ok _ |- context [field ?f ?k ?x (merged d values)] => rewrite E'; clear E'; cbn [bind] end.
  eexists. split; [reflexivity|]. split.
  - unfold fields_vsrc. cbn [vs_drain_ms vs_Vin_max vs_Iin_max vs_Vin_drop vs_R_in vs_C_mid vs_V_init vs_I_leak vs_V_en vs_V_dis vs_check_ms
      vs_pg_en vs_pg_dis vs_C_out vs_V_log vs_V_boost vs_V_mid_max vs_LUT_in vs_LUT_in_V vs_LUT_in_I vs_V_out vs_V_buck vs_LUT_out vs_LUT_out_I].
    rewrite !andb_true_iff. repeat split; assumption.
  - unfold takes. repeat split.
    + intros key hi f J. unfold float_limits in J. repeat (destruct J as [J|J]; [injection J as <- _ <-; cbn; assumption|]). destruct J.
    + intros key f J. unfold flags in J. repeat (destruct J as [J|J]; [injection J as <- <-; cbn;
        match goal with T : match entry ?q values with _ => _ end |- match entry ?q values with _ => _ end => destruct (entry q values); [apply bool_truth|]; assumption end|]). destruct J.
    + intros key l f J. unfold int_limits in J. repeat (destruct J as [J|J]; [injection J as <- _ <-; cbn;
        match goal with T : match entry ?q values with _ => _ end |- match entry ?q values with _ => _ end => destruct (entry q values) as [[?|?|?]|]; cbn [int_of] in T; congruence end|]). destruct J.
Qed.

Lemma bool_field key dflt d values : python_dict values -> key <> "owner"%string -> key <> "group"%string -> key <> "inherit_from"%string ->
  (forall v, entry key values = Some v -> exists b, truth v b) -> (exists b, field bool_of key dflt (fill_in_user_data d) = Ok b) ->
  exists b, field bool_of key dflt (merged d values) = Ok b.
Proof.
  intros D N1 N2 N3 N [b E].
  destruct (field_merged _ bool_of (fun _ => True) key dflt d values b D N1 N2 N3 E I) as (c & E' & _); [|eauto].
  intros v V. destruct (N v V) as [c C]. exists c. split; [apply truth_bool; exact C|exact I].
Qed.

(** Only known fields. *)
Lemma only_in fields d : only fields d = true <-> forall k, In k (map fst d) -> In k fields.
Proof.
  unfold only. rewrite forallb_forall. split.
  - intros H k I. apply in_map_iff in I as [e [<- I]]. specialize (H e I). apply existsb_exists in H as [x [X E]]. apply String.eqb_eq in E. now subst.
  - intros H e I. apply existsb_exists. exists (fst e). split; [apply H; now apply in_map|apply String.eqb_refl].
Qed.
Lemma fill_keys values : forall d k, In k (map fst (fill d values)) -> In k (map fst d) \/ In k (map fst values).
Proof.
  induction values as [|[k0 v0] values IH]; intros d k H; [now left|]. unfold fill in H. cbn [fold_left fst snd] in H. apply IH in H as [H|H]; [|right; now right].
  unfold dput in H. apply (put_keys _ String.eqb_eq) in H as [->|H]; [right; now left|now left].
Qed.
Lemma user_keys d k : In k (map fst (fill_in_user_data d)) -> k = "owner"%string \/ k = "group"%string \/ In k (map fst d).
Proof.
  unfold fill_in_user_data. destruct (match dget "owner" d with None => _ | Some _ => _ end);
    destruct (match dget "group" _ with None => _ | Some _ => _ end); unfold dput; rewrite ?(put_keys _ String.eqb_eq); tauto.
Qed.
Lemma del_keys key d k : In k (map fst (ddel key d)) -> k <> key /\ In k (map fst d).
Proof.
  unfold ddel. induction d as [|[k0 v0] d IH]; cbn [del map In fst]; [tauto|]. destruct (String.eqb key k0) eqn:E.
  - intros H. apply IH in H. tauto.
  - cbn [map In fst]. intros [<-|H]; [|apply IH in H; tauto]. split; [|now left]. intros ->. rewrite String.eqb_refl in E. discriminate.
Qed.
Lemma entry_key k (d : dict) : In k (map fst d) -> entry k d <> None.
Proof.
  induction d as [|[k0 v0] d IH]; cbn [map In fst]; [tauto|]. rewrite entry_cons. intros [->|H]; [rewrite String.eqb_refl; discriminate|].
  destruct (String.eqb k k0); [discriminate|now apply IH].
Qed.
Lemma own_known k : In k own_keys -> k <> "inherit_from"%string -> In k source_fields.
Proof.
  unfold own_keys. cbn [map app fst float_limits flags int_limits]. intros H N.
  repeat (destruct H as [<-|H]; [first [congruence|vm_compute; tauto]|]). destruct H.
Qed.
Lemma only_merged d values : (forall k, entry k values <> None -> In k own_keys) -> only source_fields (fill_in_user_data d) = true ->
  only source_fields (merged d values) = true.
Proof.
  intros K O. rewrite only_in in *. intros k H. unfold merged in H. apply user_keys in H as [->|[->|H]]; [vm_compute; tauto|vm_compute; tauto|].
  apply fill_keys in H as [H|H].
  - apply O. clear - H. unfold fill_in_user_data. destruct (match dget "owner" d with None => _ | Some _ => _ end);
      destruct (match dget "group" _ with None => _ | Some _ => _ end); unfold dput; rewrite ?(put_keys _ String.eqb_eq); tauto.
  - apply del_keys in H as [N H]. apply own_known; [|exact N]. apply K. now apply entry_key.
Qed.

Definition seen (d : dict) : bool := match visible (fill_in_user_data d) with Ok _ => only source_fields (fill_in_user_data d) | Err _ => false end.
Lemma bases_seen k n : Forall (fun base => match base_dict k n base with Ok d => seen d | Err _ => false end = true) (map fst source_names).
Proof. unfold source_names. cbn [map fst]. repeat (apply Forall_cons; [vm_cast_no_check (eq_refl true)|]); apply Forall_nil. Qed.

Lemma own_visible base d values : own_source base values -> described d = true -> seen d = true ->
  content_validation source_fields (merged d values) = Ok tt.
Proof.
  intros (D & _ & _ & (KN & _ & BL & _) & DE0 & _) DD S.
  assert (DE : entry "description" values <> Some none_) by (destruct DE0 as [E|(t & E & _)]; rewrite E; discriminate).
  assert (X : described (merged d values) = true).
  { unfold described in *. rewrite merged_get by first [exact D|no]. rewrite user_data by no.
    destruct (entry "description" values) as [v|]; [|exact DD].
    destruct (value_eqb v none_) eqn:V; [|reflexivity]. exfalso. apply DE. f_equal.
    destruct v as [s|z|s]; cbn in V; try discriminate. apply String.eqb_eq in V. now subst. }
  unfold content_validation. rewrite X. unfold seen, visible in S.
  destruct (field bool_of "visible2group" false (fill_in_user_data d)) as [g|] eqn:G; cbn [bind] in S; [|discriminate].
  destruct (field bool_of "visible2all" false (fill_in_user_data d)) as [a|] eqn:A; cbn [bind] in S; [|discriminate].
  destruct (bool_field "visible2group" false d values D ltac:(no) ltac:(no) ltac:(no) (fun v => BL "visible2group"%string v ltac:(inlist)) ltac:(eauto)) as [b1 E1].
  destruct (bool_field "visible2all" false d values D ltac:(no) ltac:(no) ltac:(no) (fun v => BL "visible2all"%string v ltac:(inlist)) ltac:(eauto)) as [b2 E2].
  unfold visible. rewrite E1. cbn [bind]. rewrite E2. cbn [bind]. rewrite orb_true_r. rewrite (only_merged d values KN S). reflexivity.
Qed.

Lemma own k base a values s : In (base, a) source_names -> own_source base values -> make_source (11 + k) db (by_name base) = Ok s ->
  exists w, make_source (11 + k) db values = Ok w /\ check_vsrc w = Ok w /\ takes values s w.
Proof.
  intros I OS M. assert (I' : In base (map fst source_names)) by (change base with (fst (base, a)); now apply in_map).
  pose proof OS as (D & IF & (n & N & _ & NB) & _).
  pose proof (bases k n) as BB. pose proof (bases_seen k n) as BS. rewrite Forall_forall in BB, BS.
  destruct (BB _ I') as (d & BD & TO & DE). specialize (BS _ I'). rewrite BD in BS. clear BB I I'.
  destruct (own_dict k n base values d D IF N NB BD) as [c T]. clear BD.
  generalize dependent db. intros x M TO T. rewrite make_split in *. rewrite T. cbn [bind]. unfold told in TO.
  destruct (try_completing_model (11 + k) x "VirtualSourceConfig" (by_name base)) as [[d0 c0]|]; cbn [bind] in *; [|discriminate].
  assert (TT : reading d0 = reading d) by (apply (f_equal (fun r => match r with Ok l => l | Err _ => [] end)) in TO; exact TO). clear TO.
  unfold reading in TT. rewrite !map_cons in TT. pose proof (f_equal (@tl _) TT) as TK. pose proof (f_equal (hd None) TT) as TH. cbn [tl hd] in TK, TH. clear TT.
  unfold make_from in *. fold (merged d values).
  assert (FH : field reference_of "harvester" [("name"%string, VStr "mppt_opt")] (merged d values)
    = field reference_of "harvester" [("name"%string, VStr "mppt_opt")] (fill_in_user_data d0)).
  { unfold field. rewrite merged_get by first [exact D|no]. destruct OS as (_ & _ & _ & _ & _ & NO). unfold no_tables in NO. rewrite Forall_forall in NO.
    rewrite (NO "harvester"%string ltac:(inlist)), TH. reflexivity. }
  rewrite FH. destruct (field reference_of _ _ (fill_in_user_data d0)) as [r|]; cbn [bind] in *; [|discriminate].
  destruct (make_harvester (11 + k) x r) as [h|]; cbn [bind] in *; [|discriminate].
  rewrite (source_same _ _ h TK) in M. destruct (source_in (fill_in_user_data d) h) as [s0|] eqn:SI; cbn [bind] in M; [|discriminate].
  destruct (check_vsrc s0) as [s1|] eqn:C; cbn [bind] in M; [|discriminate].
  destruct (content_validation source_fields (fill_in_user_data d0)); cbn [bind] in M; [|discriminate].
  unfold check_vsrc in C. destruct (check_vhrv (vs_harvester s0)) as [h'|] eqn:C1; cbn [bind] in C; [|discriminate].
  destruct (fields_vsrc s0) eqn:FS; [|discriminate]. destruct (from_vhrv _ _ _ _ _) as [hr|] eqn:C2; cbn [bind] in C; [|discriminate].
  assert (s0 = s) by congruence. subst s0.
  pose proof OS as (_ & _ & _ & CH & _ & NO). destruct (own_in d values h s D CH NO SI FS) as (w & SW & FW & TW).
  assert (CW : check_vsrc w = Ok w).
  { unfold check_vsrc. destruct TW as (_ & _ & _ & TWH & _). rewrite TWH, C1. cbn [bind]. rewrite FW, C2. reflexivity. }
  exists w. rewrite SW. cbn [bind]. rewrite CW. cbn [bind]. rewrite (own_visible base d values OS DE BS). cbn [bind]. auto.
Qed.

