(** Proofs about the shipped harvesters and sources. *)
From Coq Require Import String ZArith Bool List Reals Lia Lra.
From Verif Require Import PyBase F64 CalModel FixModel FixSpec FixProofs CfgModel CfgSpec CfgHrvProofs CfgSrcProofs ShipData ShipModel ShipSpec.
Import ListNotations.
Open Scope Z_scope.
Open Scope list_scope.

Definition db : fixtures := match shipped with Ok x => x | Err _ => [] end.
Lemma shipped_ok : match shipped with Ok _ => true | Err _ => false end = true.
Proof. vm_cast_no_check (eq_refl true). Qed.
Lemma shipped_db : shipped = Ok db.
Proof. unfold db. pose proof shipped_ok as H. destruct shipped; [reflexivity|discriminate H]. Qed.

(** Names are found in every spelling. *)
Lemma spelling depth x ty s t : same_text s t ->
  try_completing_model depth x ty (by_name s) = try_completing_model depth x ty (by_name t).
Proof.
  intros H. apply lower_same in H. unfold try_completing_model, by_name, query_item. cbn [String.eqb orb dget FixModel.get].
  change (String.eqb "name" "id" || String.eqb "name" "name") with true. cbn [value_eqb none_ negb].
  destruct (component x ty) as [f|e]; cbn [bind]; [|reflexivity]. unfold dget. cbn [FixModel.get String.eqb]. cbn. now rewrite H.
Qed.

Lemma harvester_spelling depth x s t : same_text s t -> make_harvester depth x (by_name s) = make_harvester depth x (by_name t).
Proof. intros H. unfold make_harvester. now rewrite (spelling depth x _ s t H). Qed.
Lemma source_spelling depth x s t : same_text s t -> make_source depth x (by_name s) = make_source depth x (by_name t).
Proof. intros H. unfold make_source. now rewrite (spelling depth x _ s t H). Qed.

(** What was made was checked. *)
Lemma made_harvester depth x d v : make_harvester depth x d = Ok v -> check_vhrv v = Ok v.
Proof.
  unfold make_harvester. destruct (try_completing_model _ _ _ _) as [[d' ?]|]; cbn [bind]; [|discriminate].
  destruct (harvester_in _) as [i|]; cbn [bind]; [|discriminate]. unfold make_vhrv.
  destruct (complete_vhrv i) as [w|]; cbn [bind]; [|discriminate].
  destruct (check_vhrv w) as [w'|] eqn:E; cbn [bind]; [|discriminate].
  destruct (content_validation _ _); cbn [bind]; [|discriminate]. intros H. injection H as ->.
  assert (v = w) as ->; [|exact E].
  unfold check_vhrv, post_vhrv in E.
  repeat match type of E with (if ?c then _ else _) = _ => destruct c; [|discriminate] end. congruence.
Qed.
Lemma made_source depth x d v : make_source depth x d = Ok v -> check_vsrc v = Ok v.
Proof.
  unfold make_source. destruct (try_completing_model _ _ _ _) as [[d' ?]|]; cbn [bind]; [|discriminate].
  destruct (field reference_of _ _ _) as [r|]; cbn [bind]; [|discriminate].
  destruct (make_harvester _ _ _) as [h|]; cbn [bind]; [|discriminate].
  destruct (source_in _ _) as [w|]; cbn [bind]; [|discriminate].
  destruct (check_vsrc w) as [w'|] eqn:E; cbn [bind]; [|discriminate].
  destruct (content_validation _ _); cbn [bind]; [|discriminate]. intros H. injection H as ->.
  pose proof (proj1 (check_vsrc_ok _ _ E)) as ->. exact E.
Qed.

Definition algo_eqb (a b : algo) : bool := (algo_to_num a =? algo_to_num b).
Lemma algo_eqb_ok a b : algo_eqb a b = true -> a = b.
Proof. destruct a, b; (reflexivity || discriminate). Qed.

(** All harvesters at once. *)
Definition harvester_as (k : nat) (na : string * algo) : bool :=
  match make_harvester (10 + k) db (by_name (fst na)) with Ok v => algo_eqb (vh_algorithm v) (snd na) | Err _ => false end.
Lemma all_harvesters k : forallb (harvester_as k) harvester_names = true.
Proof. vm_cast_no_check (eq_refl true). Qed.
Lemma harvesters_made k s n a : In (n, a) harvester_names -> same_text s n ->
  exists v, make_harvester (10 + k) db (by_name s) = Ok v /\ check_vhrv v = Ok v /\ vh_algorithm v = a.
Proof.
  intros I S. pose proof (all_harvesters k) as A. rewrite forallb_forall in A. specialize (A _ I). unfold harvester_as in A. cbn [fst snd] in A.
  rewrite (harvester_spelling _ _ _ _ S). destruct (make_harvester (10 + k) db (by_name n)) as [v|] eqn:E; [|discriminate].
  exists v. split; [reflexivity|]. split; [exact (made_harvester _ _ _ _ E)|exact (algo_eqb_ok _ _ A)].
Qed.

Definition voltage_as (k : nat) (nv : string * Z) : bool :=
  match make_harvester (10 + k) db (by_name (fst nv)) with Ok v => fle (vh_voltage v) (fz (snd nv)) && fle (fz (snd nv)) (vh_voltage v) | Err _ => false end.
Lemma all_voltages k : forallb (voltage_as k) cv_names = true.
Proof. vm_cast_no_check (eq_refl true). Qed.
Lemma cv_named k n z v : In (n, z) cv_names -> make_harvester (10 + k) db (by_name n) = Ok v -> fR (vh_voltage v) = IZR z.
Proof.
  intros I E. pose proof (all_voltages k) as A. rewrite forallb_forall in A. specialize (A _ I). unfold voltage_as in A. cbn [fst snd] in A.
  rewrite E in A. apply andb_prop in A as [A B].
  assert (Z : Z.abs z <= 2 ^ 53) by (cbn [In cv_names] in I; repeat destruct I as [I|I]; try (injection I as <- <-; lia); destruct I).
  destruct (fz_ok z Z) as [F R]. pose proof (made_harvester _ _ _ _ E) as C.
  assert (O : hrv_ok v) by (apply check_vhrv_ok; eauto).
  assert (Fv : fin (vh_voltage v) = true).
  { apply check_vhrv_ok in O. destruct O as [w C']. unfold check_vhrv in C'. destruct (fields_vhrv v) eqn:U; [|discriminate].
    unfold fields_vhrv in U. repeat match type of U with (_ && _) = true => apply andb_prop in U as [U ?] end.
    match goal with H : in_range _ _ (vh_voltage v) = true |- _ => unfold in_range in H; apply andb_prop in H as [H _]; apply andb_prop in H as [H _]; exact H end. }
  apply (fle_R _ _ Fv F) in A. apply (fle_R _ _ F Fv) in B. rewrite R in A, B. lra.
Qed.

Definition rate_as (k : nat) (nv : string * Z) : bool :=
  match make_harvester (10 + k) db (by_name (fst nv)) with Ok v => vh_samples v * (1 + vh_wait v) =? snd nv | Err _ => false end.
Lemma all_rates k : forallb (rate_as k) iv_names = true.
Proof. vm_cast_no_check (eq_refl true). Qed.
Lemma iv_named k n z v : In (n, z) iv_names -> make_harvester (10 + k) db (by_name n) = Ok v -> vh_samples v * (1 + vh_wait v) = z.
Proof.
  intros I E. pose proof (all_rates k) as A. rewrite forallb_forall in A. specialize (A _ I). unfold rate_as in A. cbn [fst snd] in A.
  rewrite E in A. now apply Z.eqb_eq.
Qed.

(** All sources at once. *)
Definition usable (x : f64) : bool := fle (fdec 1 3) x.
Definition source_as (k : nat) (na : string * (bool * bool * bool)) : bool :=
  match make_source (10 + k) db (by_name (fst na)) with
  | Ok v => Bool.eqb (vs_boost v) (fst (fst (snd na))) && Bool.eqb (vs_buck v) (snd (fst (snd na))) && Bool.eqb (vs_pg_immediate v) (snd (snd na))
            && forallb usable (vs_LUT_out v)
  | Err _ => false
  end.
Lemma all_sources k : forallb (source_as k) source_names = true.
Proof. vm_cast_no_check (eq_refl true). Qed.

Lemma usable_ok x : rng x 1 -> usable x = true -> usable_efficiency x.
Proof.
  intros [F _] U. right. destruct dec3 as [F3 [L _]]. unfold usable in U. apply (fle_R _ _ F3 F) in U.
  apply Rlt_le_trans with (/ 1000)%R; [|lra].
  apply Rlt_trans with (Flocq.Core.Raux.bpow Flocq.Core.Zaux.radix2 (-10)); [apply Flocq.Core.Raux.bpow_lt; lia|].
  change (Flocq.Core.Raux.bpow Flocq.Core.Zaux.radix2 (-10)) with (/ 1024)%R. lra.
Qed.
Lemma sources_made k s n a b g : In (n, (a, b, g)) source_names -> same_text s n ->
  exists v, make_source (10 + k) db (by_name s) = Ok v /\ check_vsrc v = Ok v /\ Forall usable_efficiency (vs_LUT_out v) /\
    vs_boost v = a /\ vs_buck v = b /\ vs_pg_immediate v = g.
Proof.
  intros I S. pose proof (all_sources k) as A. rewrite forallb_forall in A. specialize (A _ I). unfold source_as in A. cbn [fst snd] in A.
  rewrite (source_spelling _ _ _ _ S). destruct (make_source (10 + k) db (by_name n)) as [v|] eqn:E; [|discriminate].
  exists v. split; [reflexivity|]. pose proof (made_source _ _ _ _ E) as C. split; [exact C|].
  apply andb_prop in A as [A U]. apply andb_prop in A as [A A3]. apply andb_prop in A as [A1 A2].
  apply eqb_prop in A1, A2, A3. split; [|auto].
  destruct (check_vsrc_ok _ _ C) as (_ & O & _). destruct (so_LUT_out _ O) as [_ R]. rewrite forallb_forall in U. rewrite Forall_forall in *.
  intros x X. apply usable_ok; auto.
Qed.

(** The harvester of a valid source can be emulated. *)
Lemma emulates v v' : check_vsrc v = Ok v' -> emulable (vh_algorithm (vs_harvester v)) /\ check_vhrv (vs_harvester v) = Ok (vs_harvester v).
Proof.
  intros H. destruct (check_vsrc_ok _ _ H) as (_ & O & [r E]). split.
  - unfold from_vhrv in E. cbn [andb negb] in E. destruct (calc_timings_ms _ _); cbn [bind] in E; [|discriminate].
    unfold calc_algorithm_num in E. unfold emulable. destruct (vh_algorithm (vs_harvester v)); cbn in E; try discriminate; split; discriminate.
  - unfold check_vsrc in H. destruct (check_vhrv (vs_harvester v)) as [h|] eqn:E1; [|discriminate].
    unfold check_vhrv, post_vhrv in E1. repeat match type of E1 with (if ?c then _ else _) = _ => destruct c; [|discriminate] end. congruence.
Qed.

(** Synonyms: what is compared are the completed dictionaries. *)
Definition harvester_keys : list string :=
  ["algorithm"; "samples_n"; "voltage_mV"; "voltage_min_mV"; "voltage_max_mV"; "current_limit_uA"; "voltage_step_mV"; "setpoint_n"; "interval_ms";
   "duration_ms"; "rising"; "enable_linear_extrapolation"; "wait_cycles"]%string.
Definition source_keys : list string :=
  ["enable_boost"; "enable_buck"; "enable_feedback_to_hrv"; "interval_startup_delay_drain_ms"; "V_input_max_mV"; "I_input_max_mA"; "V_input_drop_mV";
   "R_input_mOhm"; "C_intermediate_uF"; "V_intermediate_init_mV"; "I_intermediate_leak_nA"; "V_intermediate_enable_threshold_mV";
   "V_intermediate_disable_threshold_mV"; "interval_check_thresholds_ms"; "V_pwr_good_enable_threshold_mV"; "V_pwr_good_disable_threshold_mV";
   "immediate_pwr_good_signal"; "C_output_uF"; "V_output_log_gpio_threshold_mV"; "V_input_boost_threshold_mV"; "V_intermediate_max_mV";
   "LUT_input_efficiency"; "LUT_input_V_min_log2_uV"; "LUT_input_I_min_log2_nA"; "V_output_mV"; "V_buck_drop_mV"; "LUT_output_efficiency";
   "LUT_output_I_min_log2_nA"]%string.
Definition told (ty : string) (keys : list string) (depth : nat) (x : fixtures) (n : string) : res (list (option FixModel.value)) :=
  let* (d, _) := try_completing_model depth x ty (by_name n) in Ok (map (fun key => dget key (fill_in_user_data d)) keys).

Lemma source_same d1 d2 h : map (fun key => dget key d1) source_keys = map (fun key => dget key d2) source_keys -> source_in d1 h = source_in d2 h.
Proof.
  unfold source_keys. cbn [map]. intros H. injection H; clear H; intros. unfold source_in, field.
  repeat match goal with H : dget _ d1 = dget _ d2 |- _ => rewrite H; clear H end. reflexivity.
Qed.
Definition renamed (n : string) (i : vhrv_in) : vhrv_in :=
  mkVhrvIn n (vi_algorithm i) (vi_samples i) (vi_voltage i) (vi_vmin i) (vi_vmax i) (vi_ilimit i) (vi_step i) (vi_setpoint i) (vi_interval i)
    (vi_duration i) (vi_rising i) (vi_extrapolate i) (vi_wait i).
Lemma harvester_same d1 d2 i1 i2 : map (fun key => dget key d1) harvester_keys = map (fun key => dget key d2) harvester_keys ->
  dget "algorithm" d1 <> None -> harvester_in d1 = Ok i1 -> harvester_in d2 = Ok i2 -> exists n, i2 = renamed n i1.
Proof.
  unfold harvester_keys. cbn [map]. intros H N H1 H2. injection H; clear H; intros.
  unfold harvester_in, optional in H1, H2.
  repeat match goal with H : dget ?k d1 = dget ?k d2 |- _ => rewrite <- H in H2; clear H end.
  destruct (dget "name" d1) as [[n1| |]|]; try discriminate. destruct (dget "name" d2) as [[n2| |]|]; try discriminate.
  destruct (dget "algorithm" d1) as [a|]; [clear N|destruct (N eq_refl)].
  destruct (algorithm_of a); cbn [bind] in *; [|discriminate].
  repeat match type of H1 with
  | bind ?r _ = _ => let R := fresh in remember r as R; destruct R; cbn [bind] in H1, H2; [|discriminate H1]
  end.
  injection H1 as <-. injection H2 as <-. exists n2. reflexivity.
Qed.
Lemma make_same n i v1 v2 : make_vhrv i = Ok v1 -> make_vhrv (renamed n i) = Ok v2 -> v1 = v2.
Proof.
  unfold make_vhrv, complete_vhrv. destruct (negb (String.eqb (vi_name i) "neutral")); [|discriminate].
  destruct (negb (String.eqb (vi_name (renamed n i)) "neutral")); [|discriminate]. intros A B.
  change (default_step (renamed n i)) with (default_step i) in B. unfold renamed in B.
  cbn [vi_algorithm vi_samples vi_voltage vi_vmin vi_vmax vi_ilimit vi_setpoint vi_interval vi_duration vi_rising vi_extrapolate vi_wait] in B.
  rewrite A in B. congruence.
Qed.
Lemma harvester_synonym depth x a b v1 v2 l : told "VirtualHarvesterConfig" harvester_keys depth x a = Ok l -> told "VirtualHarvesterConfig" harvester_keys depth x b = Ok l ->
  nth_error l 0 <> Some None -> make_harvester depth x (by_name a) = Ok v1 -> make_harvester depth x (by_name b) = Ok v2 -> v1 = v2.
Proof.
  unfold told, make_harvester. destruct (try_completing_model depth x _ (by_name a)) as [[d1 c1]|]; cbn [bind]; [|discriminate].
  destruct (try_completing_model depth x _ (by_name b)) as [[d2 c2]|]; cbn [bind]; [|discriminate]. intros A B N.
  assert (AB : map (fun key => dget key (fill_in_user_data d1)) harvester_keys = map (fun key => dget key (fill_in_user_data d2)) harvester_keys) by congruence.
  assert (NN : dget "algorithm" (fill_in_user_data d1) <> None).
  { intros U. apply N. injection A as <-. unfold harvester_keys. cbn [map nth_error]. now rewrite U. }
  destruct (harvester_in (fill_in_user_data d1)) as [i1|] eqn:E1; cbn [bind]; [|discriminate].
  destruct (harvester_in (fill_in_user_data d2)) as [i2|] eqn:E2; cbn [bind]; [|discriminate].
  destruct (harvester_same _ _ _ _ AB NN E1 E2) as [n ->].
  destruct (make_vhrv i1) as [w1|] eqn:M1; cbn [bind]; [|discriminate]. destruct (make_vhrv (renamed n i1)) as [w2|] eqn:M2; cbn [bind]; [|discriminate].
  destruct (content_validation _ _); [|discriminate]. destruct (content_validation _ _); [|discriminate]. cbn [bind].
  intros U V. injection U as <-. injection V as <-. exact (make_same _ _ _ _ M1 M2).
Qed.
Lemma source_synonym depth x a b v1 v2 l : told "VirtualSourceConfig" ("harvester"%string :: source_keys) depth x a = Ok l ->
  told "VirtualSourceConfig" ("harvester"%string :: source_keys) depth x b = Ok l ->
  make_source depth x (by_name a) = Ok v1 -> make_source depth x (by_name b) = Ok v2 -> v1 = v2.
Proof.
  unfold told, make_source. destruct (try_completing_model depth x _ (by_name a)) as [[d1 c1]|]; cbn [bind]; [|discriminate].
  destruct (try_completing_model depth x _ (by_name b)) as [[d2 c2]|]; cbn [bind]; [|discriminate]. intros A B.
  assert (AB : map (fun key => dget key (fill_in_user_data d1)) ("harvester"%string :: source_keys)
    = map (fun key => dget key (fill_in_user_data d2)) ("harvester"%string :: source_keys)) by congruence.
  rewrite !map_cons in AB. pose proof (f_equal (@tl _) AB) as AB'. pose proof (f_equal (hd None) AB) as H. cbn [tl hd] in AB', H. clear A B AB. 
  assert (F : field reference_of "harvester" [("name"%string, VStr "mppt_opt")] (fill_in_user_data d1)
    = field reference_of "harvester" [("name"%string, VStr "mppt_opt")] (fill_in_user_data d2)) by (unfold field; now rewrite H).
  rewrite F. destruct (field reference_of _ _ (fill_in_user_data d2)) as [r|]; cbn [bind]; [|discriminate].
  destruct (make_harvester depth x r) as [h|]; cbn [bind]; [|discriminate].
  rewrite (source_same (fill_in_user_data d1) (fill_in_user_data d2) h AB'). destruct (source_in _ h) as [w|]; cbn [bind]; [|discriminate].
  destruct (check_vsrc w); cbn [bind]; [|discriminate].
  destruct (content_validation _ _); [|discriminate]. destruct (content_validation _ _); [|discriminate]. cbn [bind]. congruence.
Qed.
Lemma told_same k : Forall (fun p => exists l, told "VirtualHarvesterConfig" harvester_keys (10 + k) db (fst p) = Ok l /\
    told "VirtualHarvesterConfig" harvester_keys (10 + k) db (snd p) = Ok l /\ nth_error l 0 <> Some None) harvester_synonyms /\
  Forall (fun p => exists l, told "VirtualSourceConfig" ("harvester"%string :: source_keys) (10 + k) db (fst p) = Ok l /\
    told "VirtualSourceConfig" ("harvester"%string :: source_keys) (10 + k) db (snd p) = Ok l) source_synonyms.
Proof.
  split; unfold harvester_synonyms, source_synonyms.
  - repeat (apply Forall_cons; [eexists; split; [vm_compute; reflexivity|split; [vm_compute; reflexivity|discriminate]]|]); apply Forall_nil.
  - repeat (apply Forall_cons; [eexists; split; vm_compute; reflexivity|]); apply Forall_nil.
Qed.
Lemma synonyms k : (forall a b v1 v2, In (a, b) harvester_synonyms -> make_harvester (10 + k) db (by_name a) = Ok v1 -> make_harvester (10 + k) db (by_name b) = Ok v2 -> v1 = v2) /\
  (forall a b v1 v2, In (a, b) source_synonyms -> make_source (10 + k) db (by_name a) = Ok v1 -> make_source (10 + k) db (by_name b) = Ok v2 -> v1 = v2).
Proof.
  destruct (told_same k) as [A B]. rewrite Forall_forall in A, B. split; intros a b v1 v2 I.
  - destruct (A _ I) as (l & E1 & E2 & N). exact (harvester_synonym (10 + k) db a b v1 v2 l E1 E2 N).
  - destruct (B _ I) as (l & E1 & E2). exact (source_synonym (10 + k) db a b v1 v2 l E1 E2).
Qed.

(** Numbers. *)
Definition ids_agree (ty : string) (w : wrapper) : Prop :=
  forall i n, entry "id" (w_params w) = Some (VInt i) -> entry "name" (w_params w) = Some (VStr n) -> i <> 2102 ->
    query_item db ty (Some (VInt i)) None = query_item db ty None (Some (VStr n)).
Lemma all_ids : Forall (ids_agree "VirtualHarvesterConfig") harvesters /\ Forall (ids_agree "VirtualSourceConfig") sources.
Proof.
  split; repeat (apply Forall_cons; [intros i n I N D; injection I as <-; injection N as <-; first [destruct (D eq_refl)|
    match goal with |- _ = ?r => vm_cast_no_check (eq_refl r) end]|]); apply Forall_nil.
Qed.
Lemma complete_id depth x ty i n : query_item x ty (Some (VInt i)) None = query_item x ty None (Some (VStr n)) ->
  try_completing_model depth x ty (by_id i) = try_completing_model depth x ty (by_name n).
Proof. intros H. unfold try_completing_model, by_id, by_name. change (dget "name" [("id"%string, VInt i)]) with (@None FixModel.value). change (dget "id" [("id"%string, VInt i)]) with (Some (VInt i)).
  change (dget "name" [("name"%string, VStr n)]) with (Some (VStr n)). change (dget "id" [("name"%string, VStr n)]) with (@None FixModel.value).
  change (String.eqb "name" "id" || String.eqb "name" "name") with true. change (String.eqb "id" "id" || String.eqb "id" "name") with true. cbv iota. now rewrite H. Qed.
Lemma ids_find depth w i n : (In w harvesters \/ In w sources) -> entry "id" (w_params w) = Some (VInt i) -> entry "name" (w_params w) = Some (VStr n) -> i <> 2102 ->
  (In w harvesters -> make_harvester depth db (by_id i) = make_harvester depth db (by_name n)) /\
  (In w sources -> make_source depth db (by_id i) = make_source depth db (by_name n)).
Proof.
  intros _ I N D. destruct all_ids as [A B]. rewrite Forall_forall in A, B. split; intros W.
  - unfold make_harvester. now rewrite (complete_id depth db _ i n (A w W i n I N D)).
  - unfold make_source. now rewrite (complete_id depth db _ i n (B w W i n I N D)).
Qed.
