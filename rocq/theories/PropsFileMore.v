(** Further parts of the properties C30, C31, C32, C33, C37, C58 of recording files. *)
From Coq Require Import ZArith QArith String List Bool.
From Verif Require Import PyBase FileModel FileSpec FileSysProofs FileMoreProofs.
Import ListNotations.
Open Scope Z_scope.

(** What is not asked for: a harvester recording of samples, without window, in the units of the hardware. *)
Theorem C31_defaults : forall a d p d' q w, a_modify a = false -> writer_init a d p = (d', Ok (q, w)) ->
  (a_mode a = None -> get_mode (r_file w) = "harvester"%string)
  /\ (a_datatype a = None -> exists g, f_data (r_file w) = Some g /\ get_datatype g = Some ivsample)
  /\ (a_window a = None -> exists g, f_data (r_file w) = Some g /\ get_window_samples g = 0)
  /\ (a_cal a = None -> forall raw, (raw_to_si (c_voltage (r_cal w)) raw == inject_Z raw * (3 # 1000000000))%Q
        /\ (raw_to_si (c_current (r_cal w)) raw == inject_Z raw * (25 # 100000000000))%Q
        /\ (raw_to_si (c_time (r_cal w)) raw == inject_Z raw / inject_Z (10 ^ 9))%Q).
Proof.
  intros a d p d' q w Hm Hw. destruct (writer_init_fresh _ _ _ _ _ _ Hm Hw) as [K _].
  destruct (configure_defaults _ _ _ K) as [D1 [D2 D3]]. destruct (configure_skeleton _ _ _ K) as (m & dt & wn & Hf & Hr & _).
  split; [intros N; unfold get_mode; rewrite (D1 N); reflexivity|]. split.
  { intros N. specialize (D2 N). unfold dtype_text in D2. destruct (f_data (r_file w)) as [g|]; [|discriminate]. exists g. split; [reflexivity|]. unfold get_datatype. rewrite D2. reflexivity. }
  split.
  { intros N. specialize (D3 N). unfold window_of in D3. destruct (f_data (r_file w)) as [g|]; [|discriminate]. exists g. split; [reflexivity|]. unfold get_window_samples. rewrite D3. reflexivity. }
  intros N raw. rewrite Hr, N. cbn [r_cal series_default c_voltage c_current c_time]. unfold raw_to_si. cbn [gain offset].
  split; [ring|]. split; [setoid_replace (250 # 1000000000000)%Q with (25 # 100000000000)%Q by reflexivity; ring|].
  setoid_replace (inject_Z raw / inject_Z (10 ^ 9))%Q with (inject_Z raw * (1 # 1000000000))%Q by reflexivity. ring.
Qed.
Print Assumptions C31_defaults.
(** The number of samples per window is the one asked for, else the one of the file that is modified, else 0. *)
Theorem C31_window : forall a d p f g d' q w, a_modify a = true -> lookup d p = Some (NFile f) -> f_data f = Some g -> writer_init a d p = (d', Ok (q, w)) ->
  exists g', f_data (r_file w) = Some g' /\ g_window g' = Some (match a_window a, g_window g with Some x, _ => x | None, Some x => x | None, None => 0 end).
Proof.
  intros a d p f g d' q w Hm Hp Hg H. unfold writer_init, choose_path in H. rewrite Hm in H. cbn [orb] in H. rewrite Hp in H.
  destruct (configure a f) as [f' r] eqn:C. destruct r as [w'|]; [|discriminate]. injection H as _ _ ->. pose proof (configure_window _ _ _ _ C) as W.
  assert (F : r_file w = f'). { exact (configure_file _ _ _ _ C). }
  rewrite F. unfold window_of in W. rewrite Hg in W. destruct (f_data f') as [g'|]; [|discriminate]. exists g'. split; [reflexivity|]. rewrite W.
  destruct (a_window a); [reflexivity|]. destruct (g_window g); reflexivity.
Qed.
Print Assumptions C31_window.
(** It assumes 100 kHz until there are samples. *)
Theorem C31_stats : forall a d p d' q w, a_modify a = false -> writer_init a d p = (d', Ok (q, w)) ->
  st_rate (r_stats w) = 10 ^ 5 /\ st_interval_ns (r_stats w) = 10 ^ 4 /\ (st_interval_s (r_stats w) * inject_Z (10 ^ 5) == 1)%Q.
Proof.
  intros a d p d' q w Hm Hw. destruct (writer_init_fresh _ _ _ _ _ _ Hm Hw) as [K _].
  destruct (configure_skeleton _ _ _ K) as (m & dt & wn & Hf & Hr & _). rewrite Hr. repeat split.
Qed.
Print Assumptions C31_stats.
(** A refused mode leaves a file behind, under the name of the recording: without mode and datatype, with empty datasets;
    it is no valid recording. *)
Theorem C30_leftover : forall a d p m, a_modify a = false -> lookup d p = None -> a_mode a = Some m -> mode_dtypes m = None ->
  exists d' f g, writer_init a d p = (d', Err ValueError) /\ lookup d' p = Some (NFile f) /\ is_valid f = false
    /\ f_mode f = None /\ f_data f = Some g /\ g_datatype g = None /\ g_window g = Some 0
    /\ f_time f = [] /\ f_voltage f = [] /\ f_current f = [].
Proof.
  intros a d p m A B C D. do 3 eexists. split; [exact (refused_leftover a d p m A B C D)|]. split.
  { cbn. unfold path_eqb. rewrite !String.eqb_refl. reflexivity. }
  repeat split.
Qed.
Print Assumptions C30_leftover.
(** A recording without stored host name tells unknown, one without window and datatype zero and nothing. *)
Theorem C32_hostname_default : forall a d p d' q w, a_modify a = false -> writer_init a d p = (d', Ok (q, w)) -> get_hostname (r_file w) = "unknown"%string.
Proof.
  intros a d p d' q w Hm Hw. destruct (writer_init_fresh _ _ _ _ _ _ Hm Hw) as [K _]. destruct (configure_skeleton _ _ _ K) as (m & dt & wn & Hf & _).
  rewrite Hf. reflexivity.
Qed.
Print Assumptions C32_hostname_default.
Theorem C58_getters : forall g, (get_window_samples g = 0 <-> g_window g = None \/ g_window g = Some 0)
  /\ (forall t, get_datatype g = Some t <-> exists s, g_datatype g = Some s /\ dtype_of_name s = Some t).
Proof.
  intros g. split.
  - unfold get_window_samples. destruct (g_window g); split; intros H; try (destruct H as [H | H]); try congruence; auto. right. congruence.
  - intros t. unfold get_datatype. destruct (g_datatype g) as [s|]; split.
    + intros H. exists s. auto.
    + intros [s' [[= <-] H]]. exact H.
    + discriminate.
    + intros [s' [H _]]. discriminate.
Qed.
Print Assumptions C58_getters.
(** A file in which a dataset is missing cannot be opened: KeyError. *)
Theorem C58_missing : forall f, f_data f = None \/ (exists g, f_data f = Some g /\ (g_time g = None \/ g_voltage g = None \/ g_current g = None)) ->
  reader_init f = Err KeyError /\ is_valid f = false.
Proof.
  intros f H. split; [exact (reader_missing f H)|]. unfold is_valid. destruct H as [-> | [g [-> Q]]]; [reflexivity|].
  destruct (f_mode f); [|reflexivity]. destruct (mode_dtypes _); [|reflexivity]. destruct (g_window g), (g_datatype g); try reflexivity.
  destruct Q as [Q | [Q | Q]]; rewrite Q; cbn [dset_complete]; rewrite ?andb_false_r; reflexivity.
Qed.
Print Assumptions C58_missing.
(** A step of the configuration is taken in mV. *)
Theorem C37_configured : forall r g c s mv, f_data (r_file r) = Some g -> g_config g = Some c -> NoDup (map fst c) -> NoDup (map fst s) ->
  In ("virtual_harvester"%string, s) c -> In ("voltage_step_mV"%string, mv) s ->
  get_voltage_step r = Ok (Some ((1 # 1000) * mv)%Q).
Proof.
  intros r g c s mv Hg Hc N1 N2 I1 I2. unfold get_voltage_step, get_config. rewrite Hg, Hc. cbn [bind].
  rewrite (assoc_in _ _ _ N1 I1), (assoc_in _ _ _ N2 I2). reflexivity.
Qed.
Print Assumptions C37_configured.

(** * Examples *)
Example C31_ex_defaults : exists d w, writer_init (mkArgs None None None None false false) [] ("dir", "rec.h5")%string = (d, Ok (("dir", "rec.h5")%string, w)).
Proof. do 2 eexists. reflexivity. Qed.
Example C30_ex_leftover : exists d, writer_init (mkArgs (Some "harvestr"%string) None None None false false) [] ("dir", "rec.h5")%string = (d, Err ValueError).
Proof. eexists. reflexivity. Qed.
