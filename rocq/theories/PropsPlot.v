(** Properties of plots: C106, C107. *)
From Coq Require Import QArith Qabs Qminmax String.
From Verif Require Import PyBase UartModel FileModel FileSpec DsModel DsSpec PlotModel PlotSpec PlotProofs PlotFileProofs.
Open Scope Z_scope.

(* ------------------------------------------------------------------ C106 *)

(** None for less than five samples; a window of up to max_elements samples is shown sample by
    sample; a window behind the last sample raises TypeError. *)
Theorem C106_complete fl r ss es relative L : 0 < st_rate (r_stats r) -> 1 <= r_max_elements r -> even_columns r L ->
  exists T a b i j, duration r T /\ limits T ss es a b
    /\ nearest (st_rate (r_stats r)) a i /\ nearest (st_rate (r_stats r)) b j
    /\ (generate_plot_data fl r ss es relative = Ok None <-> j - i < 5)
    /\ (5 <= j - i -> Z.of_nat L <= i -> generate_plot_data fl r ss es relative = Err TypeError)
    /\ (5 <= j - i -> i < Z.of_nat L ->
        ((b - a) * inject_Z (st_rate (r_stats r)) <= inject_Z (r_max_elements r))%Q ->
        exists pd, generate_plot_data fl r ss es relative = Ok (Some pd)
          /\ headed r a b pd /\ shows_all r relative i j pd).
Proof.
  intros HR HM HL. exists (runtime_s r), (cut_start ss), (cut_end r es),
    (to_sample r (cut_start ss)), (to_sample r (cut_end r es)).
  split; [apply runtime_duration|]. split; [apply the_limits|]. split; [apply the_nearest|].
  split; [apply the_nearest|]. split; [apply gen_none_iff|].
  split; [exact (gen_beyond fl r ss es relative L HL)|exact (gen_all fl r ss es relative L HR HM HL)].
Qed.
Print Assumptions C106_complete.

(** A longer window is thinned out evenly, if its number of samples per point divides the block. *)
Theorem C106_thinned_partial fl r ss es relative L : 0 < st_rate (r_stats r) -> 1 <= r_max_elements r -> even_columns r L ->
  exists T a b i j n, duration r T /\ limits T ss es a b
    /\ nearest (st_rate (r_stats r)) a i /\ nearest (st_rate (r_stats r)) b j
    /\ spread (st_rate (r_stats r)) (r_max_elements r) (b - a) n
    /\ (5 <= j - i -> i < Z.of_nat L -> (Z.of_nat n | r_max_elements r) ->
        exists pd, generate_plot_data fl r ss es relative = Ok (Some pd)
          /\ headed r a b pd /\ shows_every fl r relative n i j pd).
Proof.
  intros HR HM HL. exists (runtime_s r), (cut_start ss), (cut_end r es),
    (to_sample r (cut_start ss)), (to_sample r (cut_end r es)),
    (Z.to_nat (Z.max 1 (Qround.Qfloor (plot_factor r (cut_end r es - cut_start ss))))).
  split; [apply runtime_duration|]. split; [apply the_limits|]. split; [apply the_nearest|].
  split; [apply the_nearest|]. split; [exact (n_spread r ss es HR)|].
  intros H1 H2 Hd. exact (gen_every fl r ss es relative L HR HM HL H1 H2 (or_intror Hd)).
Qed.
Print Assumptions C106_thinned_partial.

(** Whenever there is data, times, voltages and currents are equally many, and not too many. *)
Theorem C106_size fl r ss es relative L pd : 0 < st_rate (r_stats r) -> 1 <= r_max_elements r -> even_columns r L ->
  generate_plot_data fl r ss es relative = Ok (Some pd) ->
  aligned pd /\
  ((10 * (pd_end pd - pd_start pd) <= inject_Z (r_max_elements r))%Q ->
   Z.of_nat (List.length (pd_time pd)) <= 3 * r_max_elements r).
Proof.
  intros HR HM HL H. destruct (gen_lengths fl r ss es relative L HM HL pd H) as (_ & A & (_ & S & E) & _).
  split; [exact A|]. intros W. rewrite S, E in W. exact (gen_size fl r ss es relative L HR HM HL pd H W).
Qed.
Print Assumptions C106_size.

(** A tenth of a second: all of its 10000 samples. *)
Example C106_ex fl : exists pd, generate_plot_data fl (flat 10000) None None true = Ok (Some pd)
  /\ aligned pd /\ pd_start pd = 0%Q /\ pd_end pd = (1 # 10)%Q /\ Z.of_nat (List.length (pd_time pd)) = 10000.
Proof.
  apply (tenth_data fl None 10000 (1 # 10)); [exact tenth_runtime|split; reflexivity || discriminate|reflexivity|lia].
Qed.

(** A recording of 120.3 s at 100 kHz cannot be plotted at all. *)
Theorem C106_crash_refuted : exists r, open_reader (pair_dir 12030000 0) ("/x", "a.h5")%string = Ok r
  /\ even_columns r (Z.to_nat 12030000)
  /\ forall fl relative, generate_plot_data fl r None None relative = Err ValueError.
Proof.
  exists (flat 12030000). split; [apply pair_open_a|]. split; [apply flat_even|].
  intros fl relative. apply gen_crash; [reflexivity|reflexivity|apply flat_even].
Qed.
Print Assumptions C106_crash_refuted.

(** A recording shorter than 50 ms is never shown as a whole. *)
Theorem C106_short_refuted fl r relative : 0 < st_rate (r_stats r) ->
  20 * Z.of_nat (List.length (f_voltage (r_file r))) < st_rate (r_stats r) ->
  generate_plot_data fl r None None relative = Ok None.
Proof. exact (gen_short fl r relative). Qed.
Print Assumptions C106_short_refuted.

Example C106_short_ex fl : generate_plot_data fl (flat 4000) None None true = Ok None.
Proof.
  apply C106_short_refuted; [reflexivity|]. change (f_voltage _) with (DsFileProofs.zeros 4000).
  rewrite DsFileProofs.zeros_length. change (st_rate _) with 100000. lia.
Qed.

(* ------------------------------------------------------------------ C107 *)

(** Pictures are drawn in V, mA and mW over the time of their data. *)
Theorem C107_pictured data only_pwr : Forall aligned data ->
  exists fig, assemble_plot data only_pwr = Ok fig /\ pictured data only_pwr fig.
Proof. exact (assemble_ok data only_pwr). Qed.
Print Assumptions C107_pictured.

Example C107_pictured_ex :
  assemble_plot [mkPlotData "sheep0" [0; 1 # 100]%Q [3; 2]%Q [1 # 1000; 1 # 500]%Q 0 (1 # 100)] true
  = Ok [("power [mW]"%string, [mkCurve "sheep0" [0; 1 # 100]%Q [3 * (1 # 1000) * 1000; 2 * (1 # 500) * 1000]%Q])].
Proof. reflexivity. Qed.

(** Nothing is overwritten, whatever happens. *)
Theorem C107_kept fl d g p ss es multiplot only_pwr g' x :
  cli_plot fl d g p ss es multiplot only_pwr = (g', x) -> kept g g'.
Proof. exact (cli_kept fl d g p ss es multiplot only_pwr g' x). Qed.
Print Assumptions C107_kept.

(** Every recording of a directory gets its own picture, unless its name is in use. *)
Theorem C107_directory_partial fl d g p ss es multiplot only_pwr : lookup d p = Some NDir ->
  multiplot = false \/ (List.length (path_to_flist d p) <= 1)%nat ->
  (forall f, In f (path_to_flist d p) -> snd f <> ".h5"%string) ->
  (forall f, In f (path_to_flist d p) -> harmless (attempt fl d ss es f)) ->
  exists g', cli_plot fl d g p ss es multiplot only_pwr = (g', Ok tt) /\
    (forall q, find_picture g' q = find_picture g q \/
       ~ occupied d g q /\ exists f base pd, In f (path_to_flist d p) /\ recording f base
         /\ attempt fl d ss es f = Ok (Some pd) /\ called "plot" (fst f) base pd q) /\
    (forall f pd, In f (path_to_flist d p) -> attempt fl d ss es f = Ok (Some pd) ->
       exists q base, recording f base /\ called "plot" (fst f) base pd q /\
         (occupied d g q -> find_picture g' q = find_picture g q) /\
         (~ occupied d g q -> exists fig, find_picture g' q = Some fig /\ pictured [pd] only_pwr fig)).
Proof.
  intros E Hm Hn Hh. destruct (cli_single fl d g p ss es multiplot only_pwr Hm Hn Hh) as (g' & E' & F1 & F2).
  exists g'. split; [exact E'|]. split.
  - intros q. destruct (F1 q) as [F|(O & f & pd & I & A & C)]; [left; exact F|right; split; [exact O|]].
    exists f, (stem (snd f)), pd. split; [exact I|]. split; [exact (dir_recording d p f E I (Hn f I))|auto].
  - intros f pd I A. destruct (F2 f pd I A) as (q & C & G). exists q, (stem (snd f)).
    split; [exact (dir_recording d p f E I (Hn f I))|auto].
Qed.
Print Assumptions C107_directory_partial.

(** A single file, whatever its ending. *)
Theorem C107_file_partial fl d g p r ss es only_pwr pd : 0 < st_rate (r_stats r) -> snd p <> EmptyString ->
  generate_plot_data fl r ss es true = Ok (Some pd) -> aligned pd ->
  exists q, called "plot" (fst p) (stem (snd p)) pd q /\
    (occupied d g q -> plot_to_file fl d g p r ss es only_pwr = (g, Ok tt)) /\
    (~ occupied d g q -> exists fig, plot_to_file fl d g p r ss es only_pwr = ((q, fig) :: g, Ok tt)
                                     /\ pictured [pd] only_pwr fig).
Proof.
  intros HR Hn H A. apply plot_one; try assumption; [reflexivity|].
  destruct (String.eqb_spec (snd p) ""); [contradiction|reflexivity].
Qed.
Print Assumptions C107_file_partial.

(** All recordings in one picture, in order. *)
Theorem C107_together_partial fl d g p ss es only_pwr : lookup d p = Some NDir -> snd p <> EmptyString ->
  (1 < List.length (path_to_flist d p))%nat ->
  (forall f, In f (path_to_flist d p) -> harmless (attempt fl d ss es f)) ->
  let data := all_data (map (attempt fl d ss es) (path_to_flist d p)) in
  forall d0 rest, data = d0 :: rest ->
   exists q, called "multiplot" (fst p) (stem (snd p)) d0 q /\
    (occupied d g q -> cli_plot fl d g p ss es true only_pwr = (g, Ok tt)) /\
    (~ occupied d g q -> exists fig, cli_plot fl d g p ss es true only_pwr = ((q, fig) :: g, Ok tt)
                                     /\ pictured data only_pwr fig).
Proof. intros E Hp Hl Hh. exact (proj2 (cli_multi fl d g p ss es only_pwr E Hp Hl Hh)). Qed.
Print Assumptions C107_together_partial.

Example C107_together_ex fl : exists q fig,
  cli_plot fl (pair_dir 10000 10000) [] ("", "x")%string None None true false = ([(q, fig)], Ok tt)
  /\ List.map (fun a => List.length (snd a)) fig = [2; 2; 2]%nat.
Proof.
  destruct (C106_ex fl) as (pd & E & A & _).
  assert (H : forall f, In f (path_to_flist (pair_dir 10000 10000) ("", "x")%string) ->
    harmless (attempt fl (pair_dir 10000 10000) None None f)).
  { intros f. rewrite pair_list. intros [<-|[<-|[]]]; rewrite ?pair_attempt_a, ?pair_attempt_b; right; right; eauto. }
  destruct (C107_together_partial fl (pair_dir 10000 10000) [] ("", "x")%string None None false eq_refl
              ltac:(discriminate) ltac:(rewrite pair_list; cbn; lia) H pd [pd]) as (q & C & _ & K).
  { rewrite pair_list. cbn [map]. rewrite pair_attempt_a, pair_attempt_b, E. reflexivity. }
  destruct K as (fig & K & P).
  { intros [O|O]; [|apply O; reflexivity]. destruct C as (a & b & -> & _). apply O. reflexivity. }
  exists q, fig. split; [exact K|]. rewrite pair_list in P. cbn [map] in P.
  rewrite pair_attempt_a, pair_attempt_b, E in P. destruct P as (v & i & p & -> & V & I & W).
  apply DsCliProofs.Forall2_length in V, I, W. cbn in V, I, W |- *. congruence.
Qed.

(** A recording that cannot be plotted keeps the others from being plotted. *)
Theorem C107_crash_refuted fl g : exists pd,
  attempt fl (pair_dir 12030000 10000) None None ("/x", "b.h5")%string = Ok (Some pd) /\ aligned pd /\
  cli_plot fl (pair_dir 12030000 10000) g ("", "x")%string None None false false = (g, Err ValueError).
Proof. exact (crash_stops fl g). Qed.
Print Assumptions C107_crash_refuted.

(** Nothing to plot together: IndexError instead of nothing. *)
Theorem C107_empty_refuted fl g o : attempt fl (pair_dir 4000 4000) None None ("/x", "a.h5")%string = Ok None
  /\ attempt fl (pair_dir 4000 4000) None None ("/x", "b.h5")%string = Ok None
  /\ cli_plot fl (pair_dir 4000 4000) g ("", "x")%string None None true o = (g, Err IndexError).
Proof. exact (none_to_plot fl g o). Qed.
Print Assumptions C107_empty_refuted.

(** After a plot of voltage, current and power, a plot of the power alone is not made. *)
Theorem C107_power_refuted fl p : (snd p =? "")%string = false -> exists r q fig,
  plot_to_file fl [] [] p r None None false = ([(q, fig)], Ok tt)
  /\ plot_to_file fl [] [(q, fig)] p r None None true = ([(q, fig)], Ok tt) /\ List.length fig = 3%nat.
Proof. exact (power_skipped fl p). Qed.
Print Assumptions C107_power_refuted.

(** Windows that differ by less than a millisecond share their file. *)
Theorem C107_window_refuted fl p : (snd p =? "")%string = false -> exists r q fig pd1 pd2,
  generate_plot_data fl r None (Some (501 # 10000)) true = Ok (Some pd1)
  /\ generate_plot_data fl r None (Some (504 # 10000)) true = Ok (Some pd2)
  /\ List.length (pd_time pd1) <> List.length (pd_time pd2)
  /\ plot_to_file fl [] [] p r None (Some (501 # 10000)) false = ([(q, fig)], Ok tt)
  /\ plot_to_file fl [] [(q, fig)] p r None (Some (504 # 10000)) false = ([(q, fig)], Ok tt).
Proof. exact (window_skipped fl p). Qed.
Print Assumptions C107_window_refuted.

(** Directories called run.1 and run.2 share their common picture. *)
Theorem C107_directories_refuted d g o data1 data2 d1 d2 rest1 rest2 g1 q :
  data1 = d1 :: rest1 -> data2 = d2 :: rest2 -> pd_start d1 = pd_start d2 -> pd_end d1 = pd_end d2 ->
  multiplot_to_file d g data1 ("", "run.1")%string o = (g1, Ok (Some q)) ->
  multiplot_to_file d g1 data2 ("", "run.2")%string o = (g1, Ok None).
Proof. exact (directories_share d g o data1 data2 d1 d2 rest1 rest2 g1 q). Qed.
Print Assumptions C107_directories_refuted.

(** Without data there is no picture, and no failure. *)
Theorem C107_nothing fl d g p r ss es o : generate_plot_data fl r ss es true = Ok None ->
  plot_to_file fl d g p r ss es o = (g, Ok tt).
Proof. intros H. unfold plot_to_file. rewrite H. reflexivity. Qed.
Print Assumptions C107_nothing.
Example C107_nothing_ex fl d g p : plot_to_file fl d g p (flat 4000) None None false = (g, Ok tt).
Proof. apply C107_nothing, C106_short_ex. Qed.

(** A file without samples ends the command: the recordings behind it are not plotted. *)
Theorem C107_nodata_refuted fl g ss es multiplot only_pwr : exists f,
  cli_plot fl [(("", "x")%string, NDir); (("/x", "a.h5")%string, NFile f); (("/x", "b.h5")%string, NFile (flat_file 10000))] g
    ("", "x")%string ss es multiplot only_pwr = (g, Err KeyError).
Proof.
  exists (mkH5 None None None None). unfold cli_plot.
  match goal with |- context [path_to_flist ?a ?b] => change (path_to_flist a b) with [("/x", "a.h5"); ("/x", "b.h5")]%string end.
  destruct multiplot; reflexivity.
Qed.
Print Assumptions C107_nodata_refuted.

(** Data that cannot be drawn is always refused as a wrong value. *)
Theorem C107_refused data only_pwr e : assemble_plot data only_pwr = Err e -> e = ValueError.
Proof.
  assert (D : forall f l e, (forall d e, f d = Err e -> e = ValueError) -> draw_all f l = Err e -> e = ValueError).
  { intros f l e0 F. induction l as [|d l IH]; cbn [draw_all]; [discriminate|].
    destruct (f d) as [c|e1] eqn:E; cbn [bind]; [|intros H; injection H as <-; exact (F _ _ E)].
    destruct (draw_all f l) as [r|e2]; cbn [bind]; [discriminate|]. intros H. injection H as <-. now apply IH. }
  assert (G : forall s x y e, draw s x y = Err e -> e = ValueError).
  { intros s x y e0. unfold draw. destruct (_ =? _)%nat; [discriminate | congruence]. }
  unfold assemble_plot. destruct (draw_all curve_p data) as [p|e1] eqn:P; cbn [bind].
  2:{ intros H. injection H as <-. apply (D _ _ _) in P; [exact P|]. intros d e0. unfold curve_p.
      destruct (np_mul _ _) as [q|e2] eqn:M; cbn [bind]; [apply G|]. intros H. injection H as <-.
      unfold np_mul in M. destruct (_ =? _)%nat; [discriminate|].
      destruct (pd_voltage d) as [|? [|? ?]], (pd_current d) as [|? [|? ?]]; congruence. }
  destruct only_pwr; [discriminate|].
  destruct (draw_all curve_v data) as [v|e1] eqn:V; cbn [bind].
  2:{ intros H. injection H as <-. apply (D _ _ _) in V; [exact V|]. intros d e0. apply G. }
  destruct (draw_all curve_i data) as [i|e1] eqn:I; cbn [bind]; [discriminate|].
  intros H. injection H as <-. apply (D _ _ _) in I; [exact I|]. intros d e0. apply G.
Qed.
Print Assumptions C107_refused.
