(** Properties of the data tools: C41, C42, C55, C56, C67, C68. *)
From Coq Require Import QArith Qround String.
From Verif Require Import PyBase UartModel FileModel FileSpec DsModel DsSpec DsProofs DsFileProofs DsCliProofs.
Open Scope Z_scope.

(* ------------------------------------------------------------------ C41 *)

(** Every n-th value of the (filtered) range, if it fits one block or the factor divides the block. *)
Theorem C41_every_nth_partial S X W (env : dsenv S X W) max_elements src dst start_n end_n factor is_time n :
  let e := match end_n with Some e => Nat.min (List.length src) e | None => List.length src end in
  let s := Nat.min e start_n in
  Z.of_nat n = Z.max 1 (Qfloor factor) -> (1 <= max_elements)%nat -> (1 <= e - s)%nat ->
  (e - s <= max_elements \/ Nat.divide n max_elements)%nat ->
  exists out, downsample env max_elements src dst start_n end_n factor is_time = (Some out, None)
    /\ every_nth n (e - s) (signal env is_time n (slice s e src)) out.
Proof. exact (run_every env max_elements src dst start_n end_n factor is_time n). Qed.
Print Assumptions C41_every_nth_partial.

Example C41_ex : downsample np_env 100 [10; 11; 12; 13; 14; 15; 16; 17] None 1 None (25 # 10) true
  = (Some [11; 13; 15], None).
Proof. vm_compute. reflexivity. Qed.
Example C41_ex_blocks : downsample np_env 4 [10; 11; 12; 13; 14; 15; 16; 17; 18; 19] None 0 None 2 true
  = (Some [10; 12; 14; 16; 18], None).
Proof. vm_compute. reflexivity. Qed.

(** The same for a whole new file: all columns are thinned out alike and, at most, cut to whole buffers. *)
Theorem C41_file_partial fl d p r ss es factor d' q n L :
  let s0 := Z.to_nat (to_sample r (cut_start ss)) in
  let e0 := Z.to_nat (to_sample r (cut_end r es)) in
  let e := Nat.min L e0 in
  cut_and_downsample fl d p r ss es factor = (d', Ok q) -> lookup d q = None ->
  List.length (f_time (r_file r)) = L -> List.length (f_voltage (r_file r)) = L ->
  List.length (f_current (r_file r)) = L -> r_max_elements r = 4000000 ->
  Z.of_nat n = Z.max 1 (Qfloor factor) -> (s0 < e)%nat ->
  (e - s0 <= Z.to_nat 4000000 \/ Nat.divide n (Z.to_nat 4000000))%nat ->
  exists f' t v i m,
    lookup d' q = Some (NFile f')
    /\ every_nth n (e - s0) (signal (file_env fl) true n (slice s0 e (f_time (r_file r)))) t
    /\ every_nth n (e - s0) (signal (file_env fl) false n (slice s0 e (f_voltage (r_file r)))) v
    /\ every_nth n (e - s0) (signal (file_env fl) false n (slice s0 e (f_current (r_file r)))) i
    /\ columns f' (firstn m t) (firstn m v) (firstn m i)
    /\ (m = List.length v \/ m = Z.to_nat (Z.of_nat (List.length v) / 10000 * 10000)).
Proof. exact (cut_every fl d p r ss es factor d' q n L). Qed.
Print Assumptions C41_file_partial.

(** Two blocks of the real size and factor 3: output sample 1333333 is input sample 4000000 instead
    of 3999999. *)
Theorem C41_irregular_refuted : exists out,
  downsample np_env (Z.to_nat 4000000) (ramp 8000000) None 0 None 3 true = (Some out, None)
  /\ nth_error out (Z.to_nat 1333333) = Some 4000000.
Proof. exact irregular. Qed.
Print Assumptions C41_irregular_refuted.

(** Small block size, to see it: 3, 6 are skipped over at the end of each block of four. *)
Example C41_irregular_ex : downsample np_env 4 [0; 1; 2; 3; 4; 5; 6; 7; 8] None 0 None 3 true
  = (Some [0; 4; 8], None).
Proof. vm_compute. reflexivity. Qed.

(** 24010000 samples and factor 3 raise an exception, for every filter and every kind of dataset. *)
Theorem C41_crash_refuted S (env : dsenv S Z Z) src dst is_time : List.length src = Z.to_nat 24010000 ->
  exists d, downsample env (Z.to_nat 4000000) src dst 0 (Some (Z.to_nat 24010000)) 3 is_time
    = (Some d, Some (e_exn env)).
Proof. exact (misfit env src dst is_time). Qed.
Print Assumptions C41_crash_refuted.

(* ------------------------------------------------------------------ C42 *)

(** Every entry is raw*gain+offset if both attributes are there. *)
Theorem C42_values_partial g header rows n :
  Forall (fun c => co_gain c <> None /\ co_offset c <> None) (cg_cols g) ->
  save_csv g false false = Ok (Some (header, rows), n) ->
  exists desc tg time, cg_time g = Some (desc, tg, time) /\ n = List.length time
    /\ List.length rows = List.length time
    /\ forall idx t, nth_error time idx = Some t -> exists cells,
         nth_error rows idx
           = Some ((inject_Z t * match tg with Some x => x | None => 1 # 1000000000 end)%Q, cells)
         /\ Forall2 (fun c y => exists x gn off, nth_error (co_val c) idx = Some x
              /\ co_gain c = Some gn /\ co_offset c = Some off /\ calibrated gn off x y) (cg_cols g) cells.
Proof.
  intros H E. destruct (csv_spec _ _ _ _ _ E) as (desc & tg & time & H1 & H2 & H3 & _ & H4).
  exists desc, tg, time. repeat (split; [assumption|]). intros idx t Ht.
  destruct (H4 idx t Ht) as (cells & R & F). exists cells. split; [exact R|].
  clear - H F. induction F as [|c y cs ys Hc F IH]; constructor.
  - inversion_clear H as [|? ? Hx _]. destruct Hx as [Hg Ho].
    destruct Hc as (x & Hx & ->). destruct (co_gain c) as [gn|]; [|congruence].
    destruct (co_offset c) as [off|]; [|congruence].
    exists x, gn, off. repeat (split; [auto|]). apply scale_calibrated.
  - apply IH. inversion_clear H. assumption.
Qed.
Print Assumptions C42_values_partial.

(** With the option raw, the stored values. *)
Theorem C42_raw g header rows n :
  save_csv g false true = Ok (Some (header, rows), n) ->
  exists desc tg time, cg_time g = Some (desc, tg, time) /\ n = List.length time
    /\ List.length rows = List.length time
    /\ Forall2 (fun d h => d = Some h) (desc :: map co_desc (cg_cols g)) header
    /\ forall idx t, nth_error time idx = Some t -> exists cells,
         nth_error rows idx
           = Some ((inject_Z t * match tg with Some x => x | None => 1 # 1000000000 end)%Q, cells)
         /\ Forall2 (fun c y => nth_error (co_val c) idx = Some y) (cg_cols g) cells.
Proof.
  intros E. destruct (csv_spec _ _ _ _ _ E) as (desc & tg & time & H1 & H2 & H3 & H5 & H4).
  exists desc, tg, time. repeat (split; [assumption|]). intros idx t Ht.
  destruct (H4 idx t Ht) as (cells & R & F). exists cells. split; [exact R|].
  eapply Forall2_impl; [|exact F]. intros c y (x & Hx & ->). exact Hx.
Qed.
Print Assumptions C42_raw.

(** The export takes place if every column has a description and is as long as the time column. *)
Theorem C42_total g raw desc tg time : cg_time g = Some (Some desc, tg, time) -> time <> [] ->
  Forall (fun c => co_desc c <> None /\ (List.length time <= List.length (co_val c))%nat) (cg_cols g) ->
  exists header rows, save_csv g false raw = Ok (Some (header, rows), List.length time).
Proof. exact (csv_total g raw desc tg time). Qed.
Print Assumptions C42_total.

Definition csv_group_ex (off : option Q) : csv_group :=
  mkCsvGroup (Some (Some "time"%string, None, [1000000000; 2000000000]))
    [mkCol "values" (Some "offset [ns]"%string) None off [One 5; One 6]].
Example C42_ex : save_csv (csv_group_ex (Some (1 # 2))) false true
  = Ok (Some (["time"; "offset [ns]"]%string,
         [((inject_Z 1000000000 * (1 # 1000000000))%Q, [One 5]);
          ((inject_Z 2000000000 * (1 # 1000000000))%Q, [One 6])]), 2%nat).
Proof. reflexivity. Qed.

(** A column without attributes: a raw value 5 is exported as 6. *)
Theorem C42_offset_refuted : exists g header rows t y,
  Forall (fun c => co_gain c = None /\ co_offset c = None /\ nth_error (co_val c) 0 = Some (One 5)) (cg_cols g)
  /\ cg_cols g <> []
  /\ save_csv g false false = Ok (Some (header, (t, [One y]) :: rows), 2%nat) /\ (y == 6)%Q.
Proof.
  exists (csv_group_ex None). do 4 eexists. split; [repeat constructor|]. split; [discriminate|].
  split; reflexivity.
Qed.
Print Assumptions C42_offset_refuted.

(* ------------------------------------------------------------------ C55 *)

(** Exit code zero: every file of the list is valid, or is no HDF5 file at all. *)
Theorem C55_exit_zero_partial d p : validate d p = 0 <->
  Forall (fun f => accepted d f \/ unreadable d f) (path_to_flist d p).
Proof. exact (validate_zero d p). Qed.
Print Assumptions C55_exit_zero_partial.

(** Any other code is one. *)
Theorem C55_exit_code d p : validate d p = 0 \/ validate d p = 1.
Proof. unfold validate. destruct (validate_loop _ _ _) as [[|]|]; auto. Qed.
Print Assumptions C55_exit_code.

(** A file given directly is looked at if its name ends in .h5 in any case. *)
Theorem C55_single_file d dir name ext f : lookup d (dir, (name ++ ext)%string) = Some (NFile f) ->
  In ext [".h5"; ".H5"]%string -> name <> EmptyString ->
  path_to_flist d (dir, (name ++ ext)%string) = [(dir, (name ++ ext)%string)].
Proof. exact (flist_single d dir name ext f). Qed.
Print Assumptions C55_single_file.

(** A directory stands for the files in it whose name ends in .h5, each of them once. *)
Theorem C55_directory d p : lookup d p = Some NDir ->
  NoDup (path_to_flist d p) /\
  forall f, In f (path_to_flist d p) <->
    fst f = (fst p ++ "/" ++ snd p)%string /\ (exists pre, snd f = (pre ++ ".h5")%string)
    /\ is_file d f = true.
Proof. exact (flist_dir d p). Qed.
Print Assumptions C55_directory.
Example C55_directory_ex :
  path_to_flist [(("/data", "x"), NDir); (("/data/x", "a.h5"), NFile skeleton); (("/data/x", "log.txt"), NOther);
    (("/data/x", "a.h5"), NOther); (("/data/x", "d.h5"), NDir); (("/data/y", "c.h5"), NFile skeleton)]%string ("/data", "x")%string
  = [("/data/x", "a.h5")]%string.
Proof. vm_compute. reflexivity. Qed.

Definition bad_fs : fs := [(("/data", "x"), NDir); (("/data/x", "a.h5"), NOther); (("/data", "b.hdf5"), NFile skeleton)]%string.
(** A directory with one unreadable file, and a broken file with another suffix: exit code zero. *)
Theorem C55_unreadable_refuted : exists d p f,
  validate d p = 0 /\ In f (path_to_flist d p) /\ ~ accepted d f.
Proof.
  exists bad_fs, ("/data", "x")%string, ("/data/x", "a.h5")%string.
  split; [vm_compute; reflexivity|]. split; [left; reflexivity|].
  intros (r & H & _). discriminate H.
Qed.
Print Assumptions C55_unreadable_refuted.
Theorem C55_suffix_refuted : exists d p f,
  lookup d p = Some (NFile f) /\ is_valid f = false /\ validate d p = 0.
Proof.
  exists bad_fs, ("/data", "b.hdf5")%string, skeleton. repeat (split; [vm_compute; reflexivity|]). vm_compute. reflexivity.
Qed.
Print Assumptions C55_suffix_refuted.
Example C55_ex : validate [(("/data", "b.h5"), NFile skeleton)]%string ("/data", "b.h5")%string = 1.
Proof. vm_compute. reflexivity. Qed.

(* ------------------------------------------------------------------ C56 *)

(** Files of one common rate: every file is reduced by its own rate over the target rate. *)
Theorem C56_same_rate_partial fl d files sr R ss es d' chosen x :
  1 <= sr -> sr <= R ->
  (forall p, In p files -> lookup d p <> None) ->
  (forall p r, In p files -> open_reader d p = Ok r -> st_rate (r_stats r) = R) ->
  cli_downsample fl d files None (Some sr) ss es = (d', chosen, x) ->
  Forall (fun c => snd c = [inject_Z R / inject_Z sr]%Q) chosen.
Proof. exact (cli_same_rate fl d files sr R ss es d' chosen x). Qed.
Print Assumptions C56_same_rate_partial.

(** A single file. *)
Theorem C56_single_partial fl d p sr ss es d' chosen x :
  1 <= sr -> lookup d p <> None ->
  cli_downsample fl d [p] None (Some sr) ss es = (d', chosen, x) ->
  Forall (fun c => exists r, open_reader d (fst c) = Ok r
    /\ (sr <= st_rate (r_stats r) -> snd c = [inject_Z (st_rate (r_stats r)) / inject_Z sr]%Q)) chosen.
Proof. exact (cli_first_file fl d p sr ss es d' chosen x). Qed.
Print Assumptions C56_single_partial.

(** A given factor is used for all files, and no existing file is changed. *)
Theorem C56_explicit_factor fl d files sr f ss es d' chosen x :
  (1 <= f)%Q -> (forall p, In p files -> lookup d p <> None) ->
  cli_downsample fl d files (Some f) sr ss es = (d', chosen, x) ->
  preserved d d' /\ Forall (fun c => snd c = [f]) chosen.
Proof. exact (cli_explicit fl d files sr f ss es d' chosen x). Qed.
Print Assumptions C56_explicit_factor.

Definition no_filter : filt := mkFilt unit tt (fun _ s x => (s, x)).
Definition two_rates : fs :=
  [(("/d", "a.h5"), NFile (simple_file series_default [0; 10000] [1; 1] [1; 1]));
   (("/d", "b.h5"), NFile (simple_file series_default [0; 20000] [1; 1] [1; 1]))]%string.
(** 100 kHz and 50 kHz to 10 kHz: the second file is reduced by 10 as well, not by 5. *)
Theorem C56_mixed_refuted : exists d p1 p2 r2 d' chosen,
  open_reader d p2 = Ok r2 /\ st_rate (r_stats r2) = 50000
  /\ cli_downsample no_filter d [p1; p2] None (Some 10000) None None = (d', chosen, None)
  /\ exists l, In (p2, l) chosen /\ ~ Exists (fun x => x == 50000 / 10000)%Q l.
Proof.
  exists two_rates, ("/d", "a.h5")%string, ("/d", "b.h5")%string. do 3 eexists.
  split; [reflexivity|]. split; [vm_compute; reflexivity|]. split; [vm_compute; reflexivity|].
  eexists. split; [right; left; reflexivity|].
  intros H. inversion_clear H as [? ? H0|? ? H0]; [discriminate H0|inversion H0].
Qed.
Print Assumptions C56_mixed_refuted.

(** 100 kHz to 60 kHz: the factor 5/3 is cut to 1, all samples are kept. *)
Theorem C56_fraction_refuted src : (1 <= List.length src <= Z.to_nat 4000000)%nat ->
  ds_choice 100000 None (Some 60000) = (Some (100000 / 60000)%Q, [100000 / 60000]%Q) /\
  exists out, downsample np_env (Z.to_nat 4000000) src None 0 None (100000 / 60000) true = (Some out, None)
    /\ List.length out = List.length src.
Proof.
  intros H. split; [reflexivity|].
  destruct (C41_every_nth_partial _ _ _ np_env (Z.to_nat 4000000) src None 0 None (100000 / 60000) true 1 eq_refl)
    as (out & E & L & _); [lia|lia|lia|].
  exists out. split; [exact E|]. rewrite L, Nat.div_1_r. lia.
Qed.
Print Assumptions C56_fraction_refuted.

(** A target above the rate of the file selects the whole default list. *)
Theorem C56_higher_refuted : snd (ds_choice 100000 None (Some 200000)) = ds_default.
Proof. vm_compute. reflexivity. Qed.
Print Assumptions C56_higher_refuted.

(* ------------------------------------------------------------------ C67 *)

(** Without limits the selection ends at the last sample, if the duration is a multiple of 0.1 s. *)
Theorem C67_exact_partial r k : 0 < st_rate (r_stats r) ->
  10 * Z.of_nat (List.length (f_voltage (r_file r))) = k * st_rate (r_stats r) ->
  to_sample r (cut_start None) = 0 /\
  to_sample r (cut_end r None) = Z.of_nat (List.length (f_voltage (r_file r))).
Proof. intros H1 H2. split; [apply to_sample_0|]. exact (runtime_exact r k H1 H2). Qed.
Print Assumptions C67_exact_partial.

(** In general it is off by at most 0.05 s (and half a sample). *)
Theorem C67_bound_partial r : 0 < st_rate (r_stats r) ->
  20 * Z.abs (to_sample r (cut_end r None) - Z.of_nat (List.length (f_voltage (r_file r))))
  <= st_rate (r_stats r) + 10.
Proof. exact (runtime_bound r). Qed.
Print Assumptions C67_bound_partial.

(** Given limits: an end after the (rounded) duration is the end, one within it is taken as given; a
    negative start is the beginning. *)
Theorem C67_end_limit r s :
  ((runtime_s r <= s)%Q -> to_sample r (cut_end r (Some s)) = to_sample r (cut_end r None)) /\
  ((s <= runtime_s r)%Q -> to_sample r (cut_end r (Some s)) = qround (s * inject_Z (st_rate (r_stats r)))).
Proof. exact (limits_end r s). Qed.
Print Assumptions C67_end_limit.
Theorem C67_start_limit r s :
  ((s <= 0)%Q -> to_sample r (cut_start (Some s)) = 0) /\
  ((0 <= s)%Q -> to_sample r (cut_start (Some s)) = qround (s * inject_Z (st_rate (r_stats r)))).
Proof. exact (limits_start r s). Qed.
Print Assumptions C67_start_limit.

(** 104000 samples: the last 4000 are left out. *)
Theorem C67_tail_refuted : exists r,
  Z.of_nat (List.length (f_voltage (r_file r))) = 104000 /\ to_sample r (cut_end r None) = 100000.
Proof.
  exists tail_reader. split; [|exact tail_end].
  change (f_voltage (r_file tail_reader)) with (zeros 104000). rewrite zeros_length. lia.
Qed.
Print Assumptions C67_tail_refuted.

(** 95001 samples from 0.96 s on: accepted as 4000 samples, the new file is empty. *)
Theorem C67_empty_refuted fl p : exists r d' q f,
  cut_and_downsample fl [] p r (Some (96 # 100)) None 1 = (d', Ok q)
  /\ lookup d' q = Some (NFile f) /\ columns f [] [] [].
Proof. exists odd_reader. exact (empty_output fl p). Qed.
Print Assumptions C67_empty_refuted.

(* ------------------------------------------------------------------ C68 *)

(** Whatever happens, no file that was there before is changed. *)
Theorem C68_never_overwrites fl d p r ss es factor d' x :
  cut_and_downsample fl d p r ss es factor = (d', x) -> preserved d d'.
Proof. exact (cut_preserves fl d p r ss es factor d' x). Qed.
Print Assumptions C68_never_overwrites.

(** Different whole factors with the same limits have different outputs. *)
Theorem C68_names_partial r p s e a b : 1 <= a -> 1 <= b ->
  out_path r p s e (inject_Z a) = out_path r p s e (inject_Z b) -> a = b.
Proof. exact (names_differ r p s e a b). Qed.
Print Assumptions C68_names_partial.
Example C68_name_ex : out_path stale_reader ("/d", "rec.h5")%string 0 (1234 # 1000) 5
  = ("/d", "rec.cut_0s000_to_1s234.downsample_x5.h5")%string.
Proof. reflexivity. Qed.

(** Factor 2.6 and then factor 3: the second call returns the file of the first, which holds every
    second sample. *)
Theorem C68_stale_refuted fl p : exists r d' q,
  cut_and_downsample fl [] p r None None (13 # 5) = (d', Ok q)
  /\ cut_and_downsample fl d' p r None None 3 = (d', Ok q)
  /\ Qfloor (13 # 5) = 2.
Proof.
  exists stale_reader. destruct (stale fl p) as (d' & q & H1 & H2). exists d', q. auto.
Qed.
Print Assumptions C68_stale_refuted.

(** A failing call leaves a file behind, which the next call reports as the result. *)
Theorem C68_failed_refuted fl p : exists r d' q,
  cut_and_downsample fl [] p r None None 3 = (d', Err TypeError)
  /\ cut_and_downsample fl d' p r None None 3 = (d', Ok q).
Proof. exists long_reader. exact (failed_then_ok fl p). Qed.
Print Assumptions C68_failed_refuted.
