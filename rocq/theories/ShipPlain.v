(** Sources and harvesters without a base, and the reading of tables. *)
From Coq Require Import String Ascii ZArith Bool List Reals Lia Lra.
From Verif Require Import PyBase F64 CalModel FixModel FixSpec FixProofs CfgModel CfgSpec CfgHrvProofs CfgSrcProofs ShipData ShipModel ShipSpec ShipProofs ShipOwn.
Import ListNotations.
Open Scope Z_scope.
Open Scope list_scope.

(** * The dictionary stays as it is *)

Definition known (f : fixture) (l : list string) : Prop :=
  FixModel.get value_eqb none_ (x_ids f) = None /\ forallb (fun p => existsb (fun n => String.eqb (fst p) (lower n)) l) (x_names f) = true.
Lemma source_file : exists f, component db "VirtualSourceConfig" = Ok f /\ known f (map fst source_names).
Proof. eexists. split; [vm_compute; reflexivity|]. split; vm_compute; reflexivity. Qed.
Lemma harvester_file : exists f, component db "VirtualHarvesterConfig" = Ok f /\ known f ("neutral"%string :: map fst harvester_names).
Proof. eexists. split; [vm_compute; reflexivity|]. split; vm_compute; reflexivity. Qed.

Lemma get_key {A : Set} n (l : list (string * A)) d : FixModel.get String.eqb n l = Some d -> exists p, In p l /\ fst p = n.
Proof.
  induction l as [|[k a] l IH]; cbn; [discriminate|]. destruct (String.eqb n k) eqn:E.
  - apply String.eqb_eq in E. intros _. exists (k, a). split; [now left|now symmetry].
  - intros H. destruct (IH H) as [p [I P]]. exists p. split; [now right|exact P].
Qed.

Lemma stays depth x ty f l n values : component x ty = Ok f -> known f l -> entry "inherit_from" values = None -> entry "id" values = None ->
  entry "name" values = Some (VStr n) -> (forall m, In m l -> ~ same_text n m) -> (2 <= List.length values)%nat ->
  try_completing_model (S depth) x ty values = Ok (values, []).
Proof.
  intros C [KI KN] I D N NN L. unfold try_completing_model.
  assert (Q : match values with [(k0, _)] => String.eqb k0 "id" || String.eqb k0 "name" | _ => false end = false).
  { destruct values as [|[] [|]]; cbn [List.length] in L; try reflexivity; lia. }
  rewrite Q. cbn [bind]. rewrite C. cbn [bind inheritance]. rewrite dget_entry, I. unfold self_base. rewrite !dget_entry, D, N.
  destruct (FixModel.get String.eqb (lower n) (x_names f)) as [d|] eqn:G.
  - exfalso. apply get_key in G as [p [P E]]. rewrite forallb_forall in KN. specialize (KN p P). apply existsb_exists in KN as [m [M E']].
    apply String.eqb_eq in E'. apply (NN m M). apply same_lower. congruence.
  - cbn [bind]. rewrite KI. reflexivity.
Qed.

Lemma own_name n : (forall m a, In (m, a) source_names -> ~ same_text n m) -> forall m, In m (map fst source_names) -> ~ same_text n m.
Proof. intros H m I. apply in_map_iff in I as [[m' a] [<- I]]. exact (H m' a I). Qed.

(** * Defaults *)

Lemma basic h : exists s, source_in (fill_in_user_data []) h = Ok s /\ fields_vsrc s = true /\ vs_harvester s = h /\ basic_source s.
Proof.
  eexists. split; [reflexivity|]. split; [vm_compute; reflexivity|]. split; [reflexivity|].
  assert (O : is_one (fz 1)) by (split; [apply fz_ok|apply (fz_ok 1)]; lia).
  repeat split.
  - intros; unfold float_limits in *. repeat (destruct H as [H|H]; [injection H as <- _ <-; unfold float_defaults in H0;
      repeat (destruct H0 as [H0|H0]; [try discriminate H0; injection H0 as <-; apply fz_ok; lia|]); destruct H0|]). destruct H.
  - unfold float_limits in H. repeat (destruct H as [H|H]; [injection H as <- _ <-; unfold float_defaults in H0;
      repeat (destruct H0 as [H0|H0]; [try discriminate H0; injection H0 as <-; apply fz_ok; lia|]); destruct H0|]). destruct H.
  - intros k f b H H0. unfold flags in H. repeat (destruct H as [H|H]; [injection H as <- <-; unfold flag_defaults in H0;
      repeat (destruct H0 as [H0|H0]; [try discriminate H0; injection H0 as <-; reflexivity|]); destruct H0|]). destruct H.
  - intros k l f z H H0. unfold int_limits in H. repeat (destruct H as [H|H]; [injection H as <- _ <-; unfold int_defaults in H0;
      repeat (destruct H0 as [H0|H0]; [try discriminate H0; injection H0 as <-; reflexivity|]); destruct H0|]). destruct H.
  - cbn [vs_LUT_in repeat ones]. repeat (apply Forall_cons; [split; [reflexivity|repeat (apply Forall_cons; [exact O|]); apply Forall_nil]|]). apply Forall_nil.
  - cbn [vs_LUT_out repeat ones]. repeat (apply Forall_cons; [exact O|]); apply Forall_nil.
Qed.

Definition opt_check (k : nat) : bool :=
  match make_harvester (11 + k) db (by_name "mppt_opt") with
  | Ok h => match from_vhrv h (Some D_ivsample) None None true with Ok _ => true | Err _ => false end
  | Err _ => false
  end.
Lemma opt_checked k : opt_check k = true.
Proof. vm_cast_no_check (eq_refl true). Qed.

Lemma merged_nil key values : python_dict values -> key <> "owner"%string -> key <> "group"%string -> key <> "inherit_from"%string ->
  dget key (merged [] values) = dget key (fill_in_user_data values).
Proof.
  intros D A B C. rewrite merged_get, !user_data by assumption. rewrite !dget_entry. destruct (entry key values); reflexivity.
Qed.
Lemma field_plain A (f : FixModel.value -> res A) key dflt values : key <> "owner"%string -> key <> "group"%string ->
  field f key dflt (fill_in_user_data values) = match entry key values with Some v => f v | None => Ok dflt end.
Proof. intros N1 N2. unfold field. rewrite user_data, dget_entry by assumption. reflexivity. Qed.

Lemma none_eq v : value_eqb v none_ = true -> v = none_.
Proof. destruct v as [s|z|s]; cbn; try discriminate. intros H. apply String.eqb_eq in H. now subst. Qed.
Lemma plain_visible values : (forall k v, In k ["visible2group"; "visible2all"]%string -> entry k values = Some v -> exists b, truth v b) ->
  (content_validation source_fields (fill_in_user_data values) = Ok tt <-> only source_fields (fill_in_user_data values) = true /\ shown_with_text values).
Proof.
  intros B. unfold content_validation, visible. rewrite !field_plain by no.
  assert (DE : described (fill_in_user_data values) = true <-> exists t, entry "description" values = Some t /\ t <> none_).
  { unfold described. rewrite user_data, dget_entry by no. destruct (entry "description" values) as [t|].
    - split.
      + intros H. exists t. split; [reflexivity|]. intros ->. discriminate H.
      + intros (u & E & N). injection E as <-. destruct (value_eqb t none_) eqn:V; [|reflexivity]. exfalso. exact (N (none_eq t V)).
    - split; [discriminate|]. intros (t & E & _). discriminate E. }
  assert (K : forall k, In k ["visible2group"; "visible2all"]%string -> exists b, match entry k values with Some v => bool_of v | None => Ok false end = Ok b /\
              (b = true <-> entry k values = Some (VOther "True"))).
  { intros k I. destruct (entry k values) as [v|] eqn:E.
    - destruct (B k v I E) as [b T]. exists b. split; [apply truth_bool; exact T|]. unfold truth in T. subst v. destruct b; split; congruence.
    - exists false. split; [reflexivity|]. split; discriminate. }
  destruct (K "visible2group"%string ltac:(inlist)) as (g & -> & G). destruct (K "visible2all"%string ltac:(inlist)) as (a & -> & A). cbn [bind].
  unfold shown_with_text. split.
  - intros H. split; [destruct (negb (g || a) || described _); [destruct (only _ _); [reflexivity|discriminate]|discriminate]|].
    intros k I T. apply DE. destruct (described (fill_in_user_data values)); [reflexivity|].
    destruct I as [<-|[<-|[]]]; [rewrite (proj2 G T) in H|rewrite (proj2 A T), orb_true_r in H]; discriminate H.
  - intros [-> H0]. assert (H : forall k, In k ["visible2group"; "visible2all"]%string -> entry k values = Some (VOther "True") -> described (fill_in_user_data values) = true) by (intros k I T; apply DE; exact (H0 k I T)).
    destruct (described (fill_in_user_data values)); [rewrite orb_true_r; reflexivity|].
    destruct g; [discriminate (H "visible2group"%string ltac:(inlist) (proj1 G eq_refl))|].
    destruct a; [discriminate (H "visible2all"%string ltac:(inlist) (proj1 A eq_refl))|]. reflexivity.
Qed.

Lemma plain_from k values : plain_source values ->
  make_source (11 + k) db values = make_from (11 + k) db values.
Proof.
  intros (D & I & ID & (n & N & _ & NN) & _ & L & _). destruct source_file as (f & C & K). rewrite make_split.
  change (11 + k)%nat with (S (10 + k)) at 1. rewrite (stays (10 + k) db _ f _ n values C K I ID N (own_name n NN) L). reflexivity.
Qed.
Lemma plain_harvester_field values : no_tables values ->
  field reference_of "harvester" [("name"%string, VStr "mppt_opt")] (fill_in_user_data values) = Ok (by_name "mppt_opt").
Proof. intros NO. unfold no_tables in NO. rewrite Forall_forall in NO. rewrite field_plain by no. rewrite (NO "harvester"%string ltac:(inlist)). reflexivity. Qed.

Lemma plain k values h : plain_source values -> chosen values -> shown_with_text values -> make_harvester (11 + k) db (by_name "mppt_opt") = Ok h ->
  exists s w, basic_source s /\ vs_harvester s = h /\ make_source (11 + k) db values = Ok w /\ check_vsrc w = Ok w /\ takes values s w.
Proof.
  intros P CH SH M. rewrite (plain_from k values P). destruct P as (D & NI & _ & _ & _ & _ & NO).
  pose proof (opt_checked k) as OC. unfold opt_check in OC. rewrite M in OC.
  pose proof (made_harvester _ _ _ _ M) as CV. generalize dependent db. intros x M.
  unfold make_from. rewrite (plain_harvester_field values NO). cbn [bind]. rewrite M. cbn [bind].
  destruct (basic h) as (s & SI & FS & HS & BS). destruct (own_in [] values h s D CH NO SI FS) as (w & SW & FW & TW).
  assert (SP : source_in (fill_in_user_data values) h = Ok w).
  { rewrite <- SW. apply source_same. unfold source_keys. cbn [map]. rewrite !merged_nil by first [exact D|no]. reflexivity. }
  assert (CW : check_vsrc w = Ok w).
  { unfold check_vsrc. pose proof TW as (_ & _ & _ & TH & _). rewrite TH, HS, CV. cbn [bind]. rewrite FW.
    destruct (from_vhrv h _ _ _ _); [reflexivity|discriminate]. }
  exists s, w. rewrite SP. cbn [bind]. rewrite CW. cbn [bind].
  destruct CH as (KN & _ & BL & _).
  assert (ON : only source_fields (fill_in_user_data values) = true).
  { rewrite only_in. intros q Q. apply user_keys in Q as [->|[->|Q]]; [vm_compute; tauto|vm_compute; tauto|].
    apply own_known; [apply KN; now apply entry_key|]. intros ->. exact (entry_key _ _ Q NI). }
  rewrite (proj2 (plain_visible values (fun k v I => BL k v ltac:(destruct I as [<-|[<-|[]]]; inlist))) (conj ON SH)). cbn [bind]. auto.
Qed.

Lemma key_entry k (d : dict) : entry k d <> None -> In k (map fst d).
Proof.
  induction d as [|[k0 v0] d IH]; [intros H; now contradiction H|]. rewrite entry_cons. cbn [map In fst].
  destruct (String.eqb k k0) eqn:E; [apply String.eqb_eq in E; subst; now left|]. intros H. right. now apply IH.
Qed.
Lemma plain_fields values : content_validation source_fields (fill_in_user_data values) = Ok tt -> forall key, entry key values <> None -> In key source_fields.
Proof.
  unfold content_validation. destruct (visible _); cbn [bind]; [|discriminate]. destruct (negb _ || _); [|discriminate].
  destruct (only _ _) eqn:O; [|discriminate]. intros _ key K. rewrite only_in in O. apply O. apply key_entry in K.
  unfold fill_in_user_data. destruct (match dget "owner" values with None => _ | Some _ => _ end);
    destruct (match dget "group" _ with None => _ | Some _ => _ end); unfold dput; rewrite ?(put_keys _ String.eqb_eq); tauto.
Qed.

(** What is accepted is inside the limits. *)
Lemma plain_limits k values w : plain_source values -> make_source (11 + k) db values = Ok w ->
  (forall key hi f v x, In (key, hi, f) float_limits -> entry key values = Some v -> float_of v = Ok x -> fin x = true /\ (0 <= fR x <= IZR hi)%R) /\
  (forall key lo hi f z, In (key, (lo, hi), f) int_limits -> entry key values = Some (VInt z) -> lo <= z <= hi) /\
  ((forall k v, In k ["visible2group"; "visible2all"]%string -> entry k values = Some v -> exists b, truth v b) -> shown_with_text values) /\
  (forall key, entry key values <> None -> In key source_fields).
Proof.
  intros P M. rewrite (plain_from k values P) in M. destruct P as (D & _ & _ & _ & _ & _ & NO). generalize dependent db. intros x M.
  unfold make_from in M. rewrite (plain_harvester_field values NO) in M. cbn [bind] in M.
  destruct (make_harvester _ _ _) as [h|]; cbn [bind] in M; [|discriminate].
  destruct (source_in (fill_in_user_data values) h) as [s|] eqn:S; cbn [bind] in M; [|discriminate].
  destruct (check_vsrc s) as [s1|] eqn:C; cbn [bind] in M; [|discriminate].
  destruct (content_validation source_fields (fill_in_user_data values)) as [[]|] eqn:CV; cbn [bind] in M; [|discriminate].
  split; [|split; [|split]]; [| |intros B; exact (proj2 (proj1 (plain_visible values B) CV))|exact (plain_fields values CV)].
  - unfold check_vsrc in C. destruct (check_vhrv (vs_harvester s)); cbn [bind] in C; [|discriminate]. destruct (fields_vsrc s) eqn:F; [|discriminate]. clear C CV M.
    unfold source_in in S.
    repeat match type of S with bind (field ?f ?k ?x ?dd) _ = _ => let E := fresh "E" in let y := fresh "y" in
      destruct (field f k x dd) as [y|] eqn:E; cbn [bind] in S; [|discriminate]; rewrite field_plain in E by no end.
    injection S as <-. unfold fields_vsrc in F. cbn [vs_drain_ms vs_Vin_max vs_Iin_max vs_Vin_drop vs_R_in vs_C_mid vs_V_init vs_I_leak vs_V_en vs_V_dis vs_check_ms
      vs_pg_en vs_pg_dis vs_C_out vs_V_log vs_V_boost vs_V_mid_max vs_LUT_in vs_LUT_in_V vs_LUT_in_I vs_V_out vs_V_buck vs_LUT_out vs_LUT_out_I] in F.
    rewrite !andb_true_iff in F. repeat match goal with H : _ /\ _ |- _ => destruct H end.
    intros key hi f v z I V E'. unfold float_limits in I.
    repeat (destruct I as [I|I]; [injection I as <- <- _; 
      match goal with E : match entry ?q values with _ => _ end = Ok ?y, U : in_range (fz 0) (fz _) ?y = true |- _ =>
        rewrite V in E; assert (y = z) by congruence; subst y; apply in_range_R in U; [exact U|lia|lia] end|]). destruct I.
  - unfold check_vsrc in C. destruct (check_vhrv (vs_harvester s)); cbn [bind] in C; [|discriminate]. destruct (fields_vsrc s) eqn:F; [|discriminate]. clear C CV M.
    unfold source_in in S.
    repeat match type of S with bind (field ?f ?k ?x ?dd) _ = _ => let E := fresh "E" in let y := fresh "y" in
      destruct (field f k x dd) as [y|] eqn:E; cbn [bind] in S; [|discriminate]; rewrite field_plain in E by no end.
    injection S as <-. unfold fields_vsrc in F. cbn [vs_drain_ms vs_Vin_max vs_Iin_max vs_Vin_drop vs_R_in vs_C_mid vs_V_init vs_I_leak vs_V_en vs_V_dis vs_check_ms
      vs_pg_en vs_pg_dis vs_C_out vs_V_log vs_V_boost vs_V_mid_max vs_LUT_in vs_LUT_in_V vs_LUT_in_I vs_V_out vs_V_buck vs_LUT_out vs_LUT_out_I] in F.
    rewrite !andb_true_iff in F. repeat match goal with H : _ /\ _ |- _ => destruct H end.
    intros key lo hi f z I V. unfold int_limits in I.
    repeat (destruct I as [I|I]; [injection I as <- <- <- _;
      match goal with E : match entry ?q values with _ => _ end = Ok ?y, U : in_rangeZ _ _ ?y = true |- _ =>
        rewrite V in E; cbn [int_of] in E; assert (y = z) by congruence; subst y; apply in_rangeZ_ok in U; exact U end|]). destruct I.
Qed.

(** * Harvesters *)

Lemma post_same v w : check_vhrv v = Ok w -> w = v.
Proof. unfold check_vhrv, post_vhrv. intros E. repeat match type of E with (if ?c then _ else _) = _ => destruct c; [|discriminate] end. congruence. Qed.

Lemma optional_plain A (f : FixModel.value -> res A) key values : key <> "owner"%string -> key <> "group"%string ->
  optional f key (fill_in_user_data values) = match entry key values with Some v => let* x := f v in Ok (Some x) | None => Ok None end.
Proof. intros N1 N2. unfold optional. rewrite user_data, dget_entry by assumption. reflexivity. Qed.

Lemma algorithm_named s a : algorithm_of (VStr s) = Ok a -> In (s, a) algorithm_names.
Proof.
  cbn [algorithm_of]. unfold algorithm_names.
  repeat match goal with |- context [String.eqb s ?t] => let E := fresh "E" in destruct (String.eqb s t) eqn:E; [apply String.eqb_eq in E; subst s; intros H; injection H as <-; inlist|] end.
  discriminate.
Qed.

Lemma opt_back A (f : FixModel.value -> res A) o y d : match o with Some v => let* x := f v in Ok (Some x) | None => Ok None end = Ok y ->
  match o with Some u => f u = Ok (CfgModel.get y d) | None => CfgModel.get y d = d end.
Proof.
  destruct o as [u|]; [destruct (f u); cbn [bind]|]; intros E; try discriminate; injection E as <-; reflexivity.
Qed.

Lemma harvester_taken k values v : plain_harvester values -> make_harvester (11 + k) db values = Ok v -> takes_harvester values v.
Proof.
  intros (D & I & ID & (n & N & NN & NM) & L) M. destruct harvester_file as (f & C & K).
  assert (NA : forall m, In m ("neutral"%string :: map fst harvester_names) -> ~ same_text n m).
  { intros m [<-|J]; [exact NN|]. apply in_map_iff in J as [[m' a] [<- J]]. exact (NM m' a J). }
  assert (T : try_completing_model (11 + k) db "VirtualHarvesterConfig" values = Ok (values, [])) by exact (stays (10 + k) db _ f _ n values C K I ID N NA L).
  unfold make_harvester in M.
  generalize dependent db. intros x M C T. rewrite T in M. cbn [bind] in M.
  destruct (harvester_in (fill_in_user_data values)) as [i|] eqn:HI; cbn [bind] in M; [|discriminate].
  destruct (make_vhrv i) as [v'|] eqn:MV; cbn [bind] in M; [|discriminate].
  destruct (content_validation _ _); cbn [bind] in M; [|discriminate]. assert (v' = v) by congruence. subst v'. clear M T C.
  unfold make_vhrv in MV. destruct (complete_vhrv i) as [c|] eqn:CO; cbn [bind] in MV; [|discriminate]. apply post_same in MV. subst v.
  unfold complete_vhrv in CO. destruct (negb (String.eqb (vi_name i) "neutral")); [|discriminate].
  destruct default_hrv as [cal|]; cbn [bind] in CO; [|discriminate]. destruct (default_step i) as [st|]; cbn [bind] in CO; [|discriminate].
  apply (f_equal (fun r => match r with Ok a => a | Err _ => c end)) in CO. cbn beta iota in CO.
  unfold harvester_in in HI. rewrite user_data, dget_entry, N in HI by no.
  destruct (match dget "algorithm" _ with Some v => algorithm_of v | None => _ end) as [al|] eqn:AL; cbn [bind] in HI; [|discriminate].
  rewrite !optional_plain in HI by no.
  repeat match type of HI with bind ?m _ = _ => let E := fresh "E" in let y := fresh "y" in destruct m as [y|] eqn:E; cbn [bind] in HI; [|discriminate HI] end.
  injection HI as <-. cbn [vi_samples vi_voltage vi_vmin vi_vmax vi_ilimit vi_step vi_setpoint vi_interval vi_duration vi_rising vi_extrapolate vi_wait vi_algorithm] in CO.
  subst c. split; [|split; [|split]].
  - intros s A. cbn [vh_algorithm]. rewrite user_data, dget_entry, A in AL by no. exact (algorithm_named s al AL).
  - intros key d g J. unfold harvester_floats in J.
    repeat (destruct J as [J|J]; [injection J as <- <- <-; cbn [vh_voltage vh_vmin vh_vmax vh_setpoint vh_interval vh_duration]; apply (opt_back _ float_of); assumption|]). destruct J.
  - intros key d g J. unfold harvester_ints in J.
    repeat (destruct J as [J|J]; [injection J as <- <- <-; cbn [vh_samples vh_wait];
      match goal with |- match ?o with Some u => u = VInt (CfgModel.get ?y ?dd) | None => _ end =>
        assert (Q : match o with Some u => int_of u = Ok (CfgModel.get y dd) | None => CfgModel.get y dd = dd end) by (apply (opt_back _ int_of); assumption);
        destruct o as [[?|?|?]|]; cbn [int_of] in Q; congruence end|]). destruct J.
  - intros key g J. unfold harvester_flags in J.
    repeat (destruct J as [J|J]; [injection J as <- <-; cbn [vh_rising vh_extrapolate];
      match goal with |- match ?o with Some u => truth u (CfgModel.get ?y ?dd) | None => _ end =>
        assert (Q : match o with Some u => bool_of u = Ok (CfgModel.get y dd) | None => CfgModel.get y dd = dd end) by (apply (opt_back _ bool_of); assumption);
        destruct o; [apply bool_truth|]; exact Q end|]). destruct J.
Qed.

(** * Reading *)

Lemma char_eq a b : Ascii.eqb a b = true -> nat_of_ascii a = nat_of_ascii b.
Proof. intros H. apply Ascii.eqb_eq in H. now subst. Qed.
Lemma numeral_char c : (48 <= nat_of_ascii c <= 57)%nat \/ c = "."%char ->
  Ascii.eqb c "[" = false /\ Ascii.eqb c " " = false /\ Ascii.eqb c "," = false /\ Ascii.eqb c "]" = false.
Proof.
  intros [H| ->]; [|repeat split; reflexivity].
  repeat split; match goal with |- Ascii.eqb c ?d = false => destruct (Ascii.eqb c d) eqn:E; [|reflexivity]; apply char_eq in E; rewrite E in H; vm_compute in H; lia end.
Qed.
Lemma append_assoc (a b c : string) : ((a ++ b) ++ c = a ++ (b ++ c))%string.
Proof. induction a as [|x a IH]; cbn; [reflexivity|now rewrite IH]. Qed.
Lemma append_nil (a : string) : (a ++ "" = a)%string.
Proof. induction a as [|x a IH]; cbn; [reflexivity|now rewrite IH]. Qed.

Lemma rows_numeral t : Forall (fun c => (48 <= nat_of_ascii c <= 57)%nat \/ c = "."%char) (list_ascii_of_string t) ->
  forall s num row out, rows (t ++ s) num row out = rows s (num ++ t) row out.
Proof.
  induction t as [|c t IH]; intros H s num row out; [now rewrite append_nil|].
  cbn [list_ascii_of_string] in H. inversion H as [|? ? C T]; subst. destruct (numeral_char c C) as (A1 & A2 & A3 & A4).
  cbn [append rows]. rewrite A1, A2, A3, A4. cbn [orb]. rewrite IH by exact T. rewrite append_assoc. reflexivity.
Qed.

Lemma rows_item t x s c row out : reads t x -> c = ","%char \/ c = "]"%char ->
  rows (t ++ String c s) "" row out = (if Ascii.eqb c "," then rows s "" (x :: row) out else rows s "" [] (rev (x :: row) :: out)).
Proof.
  intros [[N C] F] K. rewrite rows_numeral by exact C. cbn [append]. destruct t as [|a t]; [congruence|].
  destruct K as [->| ->]; cbn [rows Ascii.eqb Bool.eqb orb]; rewrite F; reflexivity.
Qed.
Lemma rows_list l : forall xs row s out, l <> [] -> Forall2 reads l xs ->
  rows (String.concat ", " l ++ String "]" s) "" row out = rows s "" [] ((rev row ++ xs) :: out).
Proof.
  induction l as [|a l IH]; intros xs row s out N H; [congruence|]. inversion H as [|? x ? xs' R T]; subst. destruct l as [|b l].
  - inversion T; subst. cbn [String.concat]. rewrite (rows_item a x) by (tauto || exact R). reflexivity.
  - change (String.concat ", " (a :: b :: l)) with (a ++ ", " ++ String.concat ", " (b :: l))%string.
    rewrite !append_assoc. change (", " ++ String.concat ", " (b :: l) ++ String "]" s)%string with (String "," (String " " (String.concat ", " (b :: l) ++ String "]" s))).
    rewrite (rows_item a x) by (tauto || exact R). cbn [Ascii.eqb Bool.eqb]. 
    change (rows (String " " (String.concat ", " (b :: l) ++ String "]" s)) "" (x :: row) out) with (rows (String.concat ", " (b :: l) ++ String "]" s) "" (x :: row) out).
    rewrite (IH xs') by (discriminate || exact T). cbn [rev]. rewrite <- app_assoc. reflexivity.
Qed.
Lemma rows_show l xs s out : l <> [] -> Forall2 reads l xs -> rows (show_list l ++ s) "" [] out = rows s "" [] (xs :: out).
Proof.
  intros N H. unfold show_list. rewrite !append_assoc. change ("[" ++ String.concat ", " l ++ "]" ++ s)%string with (String "[" (String.concat ", " l ++ String "]" s)).
  change (rows (String "[" (String.concat ", " l ++ String "]" s)) "" [] out) with (rows (String.concat ", " l ++ String "]" s) "" [] out).
  rewrite (rows_list l xs) by assumption. reflexivity.
Qed.
Lemma rows_table t : forall xss out, Forall (fun l => l <> []) t -> Forall2 (Forall2 reads) t xss ->
  rows (String.concat ", " (map show_list t) ++ "]") "" [] out = Ok (rev out ++ xss).
Proof.
  induction t as [|a t IH]; intros xss out N H; inversion H as [|? x ? xss' R T]; subst; [cbn; now rewrite app_nil_r|].
  inversion N as [|? ? NA NT]; subst. destruct t as [|b t].
  - inversion T; subst. cbn [map String.concat]. rewrite (rows_show a x) by assumption. cbn [rows Ascii.eqb Bool.eqb orb bind rev]. reflexivity.
  - change (String.concat ", " (map show_list (a :: b :: t))) with (show_list a ++ ", " ++ String.concat ", " (map show_list (b :: t)))%string.
    rewrite !append_assoc. rewrite (rows_show a x) by assumption.
    change (rows (", " ++ String.concat ", " (map show_list (b :: t)) ++ "]") "" [] (x :: out)) with (rows (String.concat ", " (map show_list (b :: t)) ++ "]") "" [] (x :: out)).
    rewrite (IH xss') by assumption. cbn [rev]. rewrite <- app_assoc. reflexivity.
Qed.
Lemma table_read t xss : Forall (fun l => l <> []) t -> Forall2 (Forall2 reads) t xss -> table_of (VOther (show_list (map show_list t))) = Ok xss.
Proof.
  intros N H. cbn [table_of]. unfold show_list at 1. change ("[" ++ ?s)%string with (String "[" s).
  change (rows (String "[" (String.concat ", " (map show_list t) ++ "]")) "" [] []) with (rows (String.concat ", " (map show_list t) ++ "]") "" [] []).
  exact (rows_table t xss [] N H).
Qed.
Lemma row_read l xs : l <> [] -> Forall2 reads l xs -> row_of (VOther (show_list l)) = Ok xs.
Proof.
  intros N H. unfold row_of. cbn [table_of]. pose proof (rows_show l xs "" [] N H) as E. rewrite append_nil in E. rewrite E. reflexivity.
Qed.
Lemma table_no_row t xss : Forall (fun l => l <> []) t -> Forall2 (Forall2 reads) t xss -> (2 <= List.length t)%nat ->
  row_of (VOther (show_list (map show_list t))) = Err ValueError.
Proof.
  intros N H L. unfold row_of. rewrite (table_read t xss N H). cbn [bind]. assert (HL : List.length t = List.length xss) by (clear - H; induction H; cbn; congruence).
  destruct xss as [|? [|]]; cbn [List.length] in *; try lia; reflexivity.
Qed.

(** Numerals with a point. *)
Definition from (m : Z) (s : string) : Z := fold_left (fun n c => 10 * n + (Z.of_nat (nat_of_ascii c) - 48)) (list_ascii_of_string s) m.
Lemma digit_ok c : (48 <= nat_of_ascii c <= 57)%nat -> digit c = Some (Z.of_nat (nat_of_ascii c) - 48).
Proof.
  intros H. unfold digit. rewrite (proj2 (Nat.leb_le _ _)) by lia. rewrite (proj2 (Nat.leb_le _ _)) by lia. cbn [andb]. rewrite Nat2Z.inj_sub by lia. reflexivity.
Qed.
Lemma decimal_front s r : Forall (fun c => 48 <= nat_of_ascii c <= 57)%nat (list_ascii_of_string s) ->
  forall m, decimal (s ++ r) m None = decimal r (from m s) None.
Proof.
  induction s as [|c s IH]; intros H m; [reflexivity|]. cbn [list_ascii_of_string] in H. inversion H as [|? ? C T]; subst.
  cbn [append decimal]. rewrite (digit_ok c C). rewrite IH by exact T. reflexivity.
Qed.
Lemma decimal_back s : Forall (fun c => 48 <= nat_of_ascii c <= 57)%nat (list_ascii_of_string s) ->
  forall m k, decimal s m (Some k) = Some (from m s, k + Z.of_nat (String.length s)).
Proof.
  induction s as [|c s IH]; intros H m k; [cbn; now rewrite Z.add_0_r|]. cbn [list_ascii_of_string] in H. inversion H as [|? ? C T]; subst.
  cbn [decimal String.length]. rewrite (digit_ok c C). rewrite IH by exact T. unfold from. cbn [list_ascii_of_string fold_left]. f_equal. f_equal. lia.
Qed.
Lemma from_app m a b : from m (a ++ b) = from (from m a) b.
Proof. revert m. induction a as [|c a IH]; intros m; [reflexivity|]. cbn [append]. unfold from in *. cbn [list_ascii_of_string fold_left]. apply IH. Qed.
Lemma number_read a b : all_digits a -> all_digits b ->
  float_of (VOther (a ++ "." ++ b)) = Ok (fdec (number (a ++ b)) (Z.of_nat (String.length b))) /\ numeral (a ++ "." ++ b).
Proof.
  intros [NA A] [NB B]. split.
  - assert (DE : decimal (a ++ "." ++ b) 0 None = Some (from 0 (a ++ b), Z.of_nat (String.length b))).
    { rewrite decimal_front by exact A. cbn [append decimal]. change (digit ".") with (@None Z). cbn [Ascii.eqb Bool.eqb].
      rewrite decimal_back by exact B. rewrite <- from_app, Z.add_0_l. reflexivity. }
    change (number (a ++ b)) with (from 0 (a ++ b)). generalize dependent (from 0 (a ++ b)). intros m DE.
    destruct a as [|c a]; [congruence|]. 
    change (float_of (VOther (String c a ++ "." ++ b))) with (match decimal (String c a ++ "." ++ b) 0 None with None => Err ValueError | Some (m, k) => Ok (fdec m k) end).
    rewrite DE. reflexivity.
  - split; [destruct a; [congruence|discriminate]|]. clear NA NB. induction a as [|c a IH]; cbn [append list_ascii_of_string] in *.
    + apply Forall_cons; [now right|]. eapply Forall_impl; [|exact B]. intros c H. now left.
    + inversion A; subst. apply Forall_cons; [now left|]. now apply IH.
Qed.
