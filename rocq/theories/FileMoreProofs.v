(** Further proofs about FileModel: defaults of a new recording, remains of a refused one. *)
From Coq Require Import ZArith QArith String List Bool Lia.
From Verif Require Import PyBase FileModel FileSpec FileSysProofs.
Import ListNotations.
Open Scope Z_scope.

Lemma step_datatype_mode n l f : f_mode (fst (step_datatype n l f)) = f_mode f.
Proof.
  unfold step_datatype. destruct (match n with None => Ok None | Some s => _ end) as [d|e]; [|reflexivity].
  destruct (match d with Some d => _ | None => false end); [reflexivity|]. destruct (f_data f); reflexivity.
Qed.
Lemma step_window_mode n l f : f_mode (fst (step_window n l f)) = f_mode f.
Proof. unfold step_window. destruct (f_data f); reflexivity. Qed.
Lemma step_cal_mode c f : f_mode (fst (step_cal c f)) = f_mode f.
Proof.
  unfold step_cal. destruct (f_data f) as [g|]; [|reflexivity]. destruct (g_current g); [|reflexivity]. cbv zeta.
  destruct (g_voltage _); [|reflexivity]. destruct (g_time _); reflexivity.
Qed.
Definition dtype_text (f : h5) : option string := match f_data f with Some g => g_datatype g | None => None end.
Definition window_of (f : h5) : option Z := match f_data f with Some g => g_window g | None => None end.
Lemma step_window_dtype n l f : dtype_text (fst (step_window n l f)) = dtype_text f.
Proof.
  unfold step_window, dtype_text. destruct (f_data f) as [g|] eqn:E; [|cbn [fst]; rewrite E; reflexivity].
  cbn. destruct n; [reflexivity|]. destruct (g_window g); reflexivity.
Qed.
Lemma step_cal_dtype c f : dtype_text (fst (step_cal c f)) = dtype_text f.
Proof.
  unfold step_cal, dtype_text. destruct (f_data f) as [g|] eqn:E; [|cbn [fst]; rewrite E; reflexivity].
  destruct (g_current g); [|cbn [fst]; rewrite E; reflexivity]. cbv zeta. destruct (g_voltage _); [|reflexivity]. destruct (g_time _); reflexivity.
Qed.
Lemma step_cal_window c f : window_of (fst (step_cal c f)) = window_of f.
Proof.
  unfold step_cal, window_of. destruct (f_data f) as [g|] eqn:E; [|cbn [fst]; rewrite E; reflexivity].
  destruct (g_current g); [|cbn [fst]; rewrite E; reflexivity]. cbv zeta. destruct (g_voltage _); [|reflexivity]. destruct (g_time _); reflexivity.
Qed.
Lemma step_datatype_window n l f : window_of (fst (step_datatype n l f)) = window_of f.
Proof.
  unfold step_datatype. destruct (match n with None => Ok None | Some s => _ end) as [d|e]; [|reflexivity].
  destruct (match d with Some d => _ | None => false end); [reflexivity|]. unfold window_of. destruct (f_data f) as [g|] eqn:E; [|cbn [fst]; rewrite E; reflexivity].
  cbn. destruct d; [reflexivity|]. destruct (g_datatype g); reflexivity.
Qed.

(** What was not asked for has these values. *)
Lemma configure_defaults a f r : configure a skeleton = (f, Ok r) ->
  (a_mode a = None -> f_mode f = Some "harvester"%string)
  /\ (a_datatype a = None -> dtype_text f = Some "ivsample"%string)
  /\ (a_window a = None -> window_of f = Some 0).
Proof.
  unfold configure. destruct (step_mode (a_mode a) skeleton) as [f1 [l|]] eqn:E1; [|discriminate].
  destruct (step_datatype (a_datatype a) l f1) as [f2 [d|]] eqn:E2; [|discriminate].
  destruct (step_window (a_window a) d f2) as [f3 [[]|]] eqn:E3; [|discriminate].
  destruct (step_cal (a_cal a) f3) as [f4 [[]|]] eqn:E4; [|discriminate].
  intros [= <- _].
  assert (M1 : f_data f1 = f_data skeleton).
  { unfold step_mode in E1. destruct (a_mode a) as [m|]; [destruct (mode_dtypes m); injection E1 as <- _; reflexivity|injection E1 as <- _; reflexivity]. }
  split; [|split].
  - intros N. rewrite N in E1. cbn in E1. injection E1 as E1 _.
    pose proof (step_cal_mode (a_cal a) f3) as P4. rewrite E4 in P4. pose proof (step_window_mode (a_window a) d f2) as P3. rewrite E3 in P3.
    pose proof (step_datatype_mode (a_datatype a) l f1) as P2. rewrite E2 in P2. cbn [fst] in *. rewrite P4, P3, P2, <- E1. reflexivity.
  - intros N. rewrite N in E2. pose proof (step_cal_dtype (a_cal a) f3) as P4. rewrite E4 in P4. pose proof (step_window_dtype (a_window a) d f2) as P3. rewrite E3 in P3.
    cbn [fst] in *. rewrite P4, P3. unfold step_datatype in E2. rewrite M1 in E2. injection E2 as <- _. reflexivity.
  - intros N. rewrite N in E3. pose proof (step_cal_window (a_cal a) f3) as P4. rewrite E4 in P4.
    pose proof (step_datatype_window (a_datatype a) l f1) as P2. rewrite E2 in P2. cbn [fst] in *. rewrite P4.
    assert (W : window_of f1 = Some 0) by (unfold window_of; rewrite M1; reflexivity). rewrite W in P2. clear - E3 P2.
    unfold step_window in E3. unfold window_of in *. destruct (f_data f2) as [g|]; [|discriminate]. injection E3 as <- _. cbn.
    rewrite P2. cbn. exact P2.
Qed.

(** The file a refused mode leaves behind. *)
Lemma refused_leftover a d p m : a_modify a = false -> lookup d p = None -> a_mode a = Some m -> mode_dtypes m = None ->
  writer_init a d p = (store d p (NFile skeleton), Err ValueError).
Proof.
  intros Hm Hp Ha Hd. unfold writer_init, choose_path. rewrite Hm. unfold exists_. rewrite Hp.
  destruct (a_overwrite a); cbn; rewrite Hp; unfold configure, step_mode; rewrite Ha, Hd; reflexivity.
Qed.

(** Opening files without data. *)
Lemma reader_missing f : f_data f = None \/ (exists g, f_data f = Some g /\ (g_time g = None \/ g_voltage g = None \/ g_current g = None)) ->
  reader_init f = Err KeyError.
Proof.
  unfold reader_init. intros [H | [g [H Q]]]; rewrite H; [reflexivity|]. cbn [opt bind].
  destruct (g_time g); [|reflexivity]. cbn [opt bind]. destruct (g_voltage g); [|reflexivity]. cbn [opt bind]. destruct (g_current g); [|reflexivity].
  destruct Q as [Q | [Q | Q]]; discriminate.
Qed.

(** dict.get *)
Lemma assoc_in {A} k (v : A) l : NoDup (map fst l) -> In (k, v) l -> assoc k l = Some v.
Proof.
  unfold assoc. induction l as [|[k' v'] l IH]; [intros _ []|]. cbn. intros N I. inversion N as [|? ? N1 N2]; subst. destruct (String.eqb_spec k' k) as [-> | Ne].
  - destruct I as [[= <-] | I]; [reflexivity|]. exfalso. apply N1. apply in_map_iff. exists (k, v). auto.
  - destruct I as [[= -> _] | I]; [congruence|]. apply IH; assumption.
Qed.

(** The window of a recording that is modified. *)
Lemma step_window_window n d f : window_of (fst (step_window n d f)) =
  match f_data f with None => None | Some _ => Some (match n with Some x => x | None => match window_of f with Some x => x | None => 0 end end) end.
Proof.
  unfold step_window, window_of. destruct (f_data f) as [g|] eqn:E; [|cbn [fst]; rewrite E; reflexivity].
  cbn. destruct n; [reflexivity|]. destruct (g_window g) eqn:G; [exact G|reflexivity].
Qed.
Lemma step_mode_data m f : f_data (fst (step_mode m f)) = f_data f.
Proof. unfold step_mode. destruct m as [m|]; [destruct (mode_dtypes m); reflexivity|]. destruct (f_mode f); reflexivity. Qed.
Lemma configure_window a f f' r : configure a f = (f', Ok r) ->
  window_of f' = Some (match a_window a with Some x => x | None => match window_of f with Some x => x | None => 0 end end).
Proof.
  unfold configure. destruct (step_mode (a_mode a) f) as [f1 [l|]] eqn:E1; [|discriminate].
  destruct (step_datatype (a_datatype a) l f1) as [f2 [d|]] eqn:E2; [|discriminate].
  destruct (step_window (a_window a) d f2) as [f3 [[]|]] eqn:E3; [|discriminate].
  destruct (step_cal (a_cal a) f3) as [f4 [[]|]] eqn:E4; [|discriminate].
  intros [= <- _]. pose proof (step_mode_data (a_mode a) f) as P1. rewrite E1 in P1. cbn [fst] in P1.
  pose proof (step_datatype_window (a_datatype a) l f1) as P2. rewrite E2 in P2. cbn [fst] in P2.
  pose proof (step_window_window (a_window a) d f2) as P3. rewrite E3 in P3. cbn [fst] in P3.
  pose proof (step_cal_window (a_cal a) f3) as P4. rewrite E4 in P4. cbn [fst] in P4. rewrite P4, P3, P2.
  unfold step_window in E3. destruct (f_data f2); [|discriminate]. unfold window_of. rewrite P1. reflexivity.
Qed.
Lemma reader_init_file f w : reader_init f = Ok w -> r_file w = f.
Proof.
  unfold reader_init. destruct (f_data f) as [g|]; [|discriminate]. cbn [opt bind]. destruct (g_time g); [|discriminate]. cbn [opt bind].
  destruct (g_voltage g); [|discriminate]. cbn [opt bind]. destruct (g_current g); [|discriminate]. cbn [opt bind].
  destruct (pair_from _ _); [|discriminate]. cbn [bind]. destruct (pair_from _ _); [|discriminate]. cbn [bind]. destruct (pair_from _ _); [|discriminate]. cbn [bind].
  destruct (refresh _ _ _); [|discriminate]. intros [= <-]. reflexivity.
Qed.
Lemma configure_file a f f' w : configure a f = (f', Ok w) -> r_file w = f'.
Proof.
  unfold configure. destruct (step_mode (a_mode a) f) as [f1 [l|]]; [|discriminate].
  destruct (step_datatype (a_datatype a) l f1) as [f2 [d|]]; [|discriminate].
  destruct (step_window (a_window a) d f2) as [f3 [[]|]]; [|discriminate].
  destruct (step_cal (a_cal a) f3) as [f4 [[]|]]; [|discriminate].
  intros [= <- H]. exact (reader_init_file _ _ H).
Qed.
