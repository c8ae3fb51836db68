(** C110: repairing the recordings of a directory. *)
From Coq Require Import QArith String Ascii.
From Verif Require Import PyBase FileModel FileSpec FileSiProofs MendModel MendSpec MendProofs.
From RecordUpdate Require Import RecordUpdate.
Open Scope Z_scope.

(** REFUTED as a whole (see below).  Restricted version: columns that are longer than the voltages,
    an incomplete last buffer, a missing window or a missing name are repaired; what remains are the
    first samples of every column, everything else is kept. *)
Theorem C110_repaired_partial : forall f, curable f ->
  exists n f', mend f = (f', Ok tt) /\ repaired n f f'.
Proof. exact mend_curable. Qed.

(** The result is accepted by Reader.is_valid, if calibration and windows were complete. *)
Theorem C110_valid_partial : forall n f f', repaired n f f' ->
  (exists g t v i, parts f g t v i /\ typed f g /\ has_part (Some t) /\ has_part (Some v) /\ has_part (Some i)
     /\ (In (g_datatype g) [Some "ivcurve"; Some "ivcurves"; Some "ivsurface"]%string ->
         exists w, g_window g = Some w /\ 1 <= w)) ->
  is_valid f' = true.
Proof. intros n f f' H1 H2. apply valid_structure. exact (repaired_valid n f f' H1 H2). Qed.

(** An unknown mode is replaced by the one it resembles, if nothing else was repaired before. *)
Theorem C110_mode_partial : forall f g t v i m m',
  parts f g t v i -> calibrated t v i -> steady t -> same_sizes f ->
  (exists k, length (ds_val v) = k * Z.to_nat 10000)%nat ->
  m = (match f_mode f with Some x => x | None => ""%string end) ->
  ~ In m ["harvester"; "emulator"]%string ->
  ((inside "har" m -> m' = "harvester"%string)
   /\ (~ inside "har" m -> inside "emu" m -> m' = "emulator"%string)
   /\ (~ inside "har" m -> ~ inside "emu" m -> m' = "harvester"%string)) ->
  typed (f <| f_mode := Some m' |>) g ->
  exists n f', mend f = (f', Ok tt) /\ repaired n (f <| f_mode := Some m' |>) f'.
Proof. exact mend_unknown_mode. Qed.

(** An unknown or missing datatype becomes "ivsample". *)
Theorem C110_datatype_partial : forall f g t v i m,
  parts f g t v i -> calibrated t v i -> steady t -> same_sizes f ->
  (exists k, length (ds_val v) = k * Z.to_nat 10000)%nat ->
  f_mode f = Some m -> In m ["harvester"; "emulator"]%string ->
  ~ In (g_datatype g)
      (map (@Some string) ["ivsample"; "ivsamples"; "ivcurve"; "ivcurves"; "ivsurface"; "isc_voc"]%string) ->
  exists n f', mend f = (f', Ok tt)
    /\ repaired n (f <| f_data := Some (g <| g_datatype := Some "ivsample"%string |>) |>) f'.
Proof. exact mend_unknown_datatype. Qed.

(** Sound recordings are not touched. *)
Theorem C110_untouched : forall f, well_structured f -> same_sizes f ->
  (exists k, length (f_voltage f) = k * Z.to_nat 10000)%nat -> f_hostname f <> None ->
  (exists r, reader_init f = Ok r) -> mend f = (f, Ok tt).
Proof. exact mend_fine. Qed.

(** In a directory, every recording is repaired like on its own, nothing else is touched. *)
Theorem C110_directory_partial : forall files d, NoDup files ->
  (forall p, In p files -> lookup d p = None \/ lookup d p = Some NDir
     \/ exists f f', lookup d p = Some (NFile f) /\ mend f = (f', Ok tt)) ->
  exists d', mend_all d files = (d', Ok tt)
    /\ (forall p f, In p files -> lookup d p = Some (NFile f) -> lookup d' p = Some (NFile (fst (mend f))))
    /\ (forall p, (In p files -> lookup d p = None \/ lookup d p = Some NDir) -> lookup d' p = lookup d p).
Proof. exact mend_directory. Qed.

(* ------------------------------------------------------------------ examples *)

(** nt times, nv voltages, ni currents; neither window nor name. *)
Definition ex_col (l : list Z) : option dset := Some (mkDset (Some (3 # 1000000000)) (Some 0%Q) l).
Definition ex_time (l : list Z) : option dset := Some (mkDset (Some (1 # 1000000000)) (Some 0%Q) l).
Definition ex_rec (nt nv ni : nat) : h5 :=
  mkH5 (Some "emulator"%string) None None (Some (mkGrp (Some "ivsample"%string) None None
    (ex_time (equidistant 5000 10000 nt)) (ex_col (repeat 7 nv)) (ex_col (repeat 8 ni)))).

Example C110_repaired_ex : forall nt nv ni, (nv <= nt)%nat -> (nv <= ni)%nat -> curable (ex_rec nt nv ni).
Proof.
  intros nt nv ni H1 H2.
  do 4 eexists. split; [repeat split; reflexivity|]. split.
  { repeat split; intros x [= <-]; [reflexivity..|discriminate]. }
  split.
  { do 2 eexists. split; [reflexivity|]. split; [reflexivity|]. left. cbn. tauto. }
  split; [apply steady_equidistant; reflexivity|].
  cbn [ds_val ex_time ex_col ex_rec g_window g_datatype]. unfold equidistant.
  rewrite map_length, seq_length, !repeat_length. split; [lia|]. split; [lia|].
  intros _ [C|[C|[C|[]]]]; discriminate.
Qed.

(** What has to become of it. *)
Lemma ex_rec_mended : forall nt nv ni, (nv <= nt)%nat -> (nv <= ni)%nat ->
  exists n f', mend (ex_rec nt nv ni) = (f', Ok tt) /\ is_valid f' = true /\ whole_buffers nv n
    /\ length (f_voltage f') = n /\ length (f_time f') = n
    /\ length (f_current f') = n /\ f_hostname f' = Some "SheepX"%string.
Proof.
  intros nt nv ni H1 H2. pose proof (C110_repaired_ex nt nv ni H1 H2) as CU.
  destruct (mend_curable _ CU) as (n & f' & E & R). exists n, f'. split; [exact E|]. clear CU E. split.
  - apply valid_structure. apply (repaired_valid n _ f' R). do 4 eexists. split; [repeat split; reflexivity|].
    split; [do 2 eexists; split; [reflexivity|]; split; [reflexivity|]; left; cbn; tauto|].
    split; [do 3 eexists; reflexivity|]. split; [do 3 eexists; reflexivity|]. split; [do 3 eexists; reflexivity|].
    intros [C|[C|[C|[]]]]; discriminate.
  - destruct R as (g & t & v & i & g' & t' & v' & i' & (P & Pt & Pv & Pi) & (P' & Pt' & Pv' & Pi') & W
      & (Ct & Lt & _) & (Cv & Lv & _) & (Ci & Li & _) & _ & _ & _ & _ & _ & H).
    injection P as <-. injection Pv as <-. injection Pt as <-. injection Pi as <-.
    unfold f_voltage, f_time, f_current. rewrite P', Pv', Pt', Pi'. cbn [values].
    rewrite Ct, Cv, Ci, !firstn_length_le by assumption.
    split; [|auto]. cbn [ds_val] in W. rewrite repeat_length in W. exact W.
Qed.

Example C110_result_ex : exists f', mend (ex_rec (Z.to_nat 20003) (Z.to_nat 20001) (Z.to_nat 30000)) = (f', Ok tt)
  /\ is_valid f' = true
  /\ length (f_voltage f') = Z.to_nat 20000 /\ length (f_time f') = Z.to_nat 20000
  /\ length (f_current f') = Z.to_nat 20000 /\ f_hostname f' = Some "SheepX"%string.
Proof.
  assert (H1 : (Z.to_nat 20001 <= Z.to_nat 20003)%nat) by lia.
  assert (H2 : (Z.to_nat 20001 <= Z.to_nat 30000)%nat) by lia.
  destruct (ex_rec_mended _ _ _ H1 H2) as (n & f' & E & V & (k & W1 & W2) & A & B & C & D).
  assert (n = Z.to_nat 20000) as -> by (clear - W1 W2; lia).
  exists f'. repeat (split; [assumption|]). assumption.
Qed.

(** Few samples, for the counterexamples. *)
Definition ex_file (mode datatype : string) (window : option Z) (t v i : list Z) : h5 :=
  mkH5 (Some mode) None (Some "sheep"%string) (Some (mkGrp (Some datatype) window None (ex_time t) (ex_col v) (ex_col i))).

Example C110_mode_ex : exists f', mend (ex_file "harvesting" "ivcurve" (Some 3) [] [] []) = (f', Ok tt)
  /\ f_mode f' = Some "harvester"%string.
Proof. eexists. split; [vm_compute; reflexivity|reflexivity]. Qed.
Example C110_datatype_ex : exists f', mend (ex_file "harvester" "curves" (Some 3) [] [] []) = (f', Ok tt)
  /\ option_map g_datatype (f_data f') = Some (Some "ivsample"%string).
Proof. eexists. split; [vm_compute; reflexivity|reflexivity]. Qed.
Example C110_untouched_ex : mend (ex_file "harvester" "ivcurve" (Some 3) [] [] [])
  = (ex_file "harvester" "ivcurve" (Some 3) [] [] [], Ok tt).
Proof. vm_compute. reflexivity. Qed.
Example C110_directory_ex : exists d',
  mend_all [(("d", "a.h5"), NFile (ex_file "harvest" "ivcurve" (Some 3) [] [] []));
            (("d", "b.h5"), NDir)]%string [("d", "b.h5"); ("d", "a.h5")]%string = (d', Ok tt)
  /\ lookup d' ("d", "a.h5")%string = Some (NFile (ex_file "harvester" "ivcurve" (Some 3) [] [] [])).
Proof. eexists. split; [vm_compute; reflexivity|reflexivity]. Qed.

(* ------------------------------------------------------------------ refutations *)

(** The size of the voltages is read once: if the times are shorter, the currents stay longer. *)
Theorem C110_sizes_refuted : exists f f', mend f = (f', Ok tt) /\ is_valid f = true /\ ~ same_sizes f'.
Proof.
  exists (ex_file "harvester" "ivsample" (Some 0) [] [7] [8]). eexists.
  split; [vm_compute; reflexivity|]. split; [reflexivity|]. intros [_ C]. discriminate C.
Qed.

(** If the currents are shortest, voltages are cut and then extended with zeros that were never
    recorded. *)
Theorem C110_invented_refuted : exists f f', mend f = (f', Ok tt) /\ is_valid f = true
  /\ f_voltage f = [5; 6; 7] /\ f_voltage f' = [5; 0].
Proof.
  exists (ex_file "harvester" "ivsample" (Some 0) [0; 20000] [5; 6; 7] [8]). eexists.
  split; [vm_compute; reflexivity|]. repeat split; reflexivity.
Qed.

(** An unknown mode and an incomplete buffer: the writer that aligns refuses the mode. *)
Theorem C110_both_refuted : exists f, (exists r, reader_init f = Ok r) /\ snd (mend f) = Err KeyError
  /\ f_mode (fst (mend f)) = Some "harvesting"%string.
Proof.
  exists (ex_file "harvesting" "ivsample" (Some 0) [0] [7] [8]).
  split; [eexists; vm_compute; reflexivity|]. split; vm_compute; reflexivity.
Qed.

(** Mode and datatype both unknown; curves recorded by an "emulator". *)
Theorem C110_types_refuted :
  snd (mend (ex_file "harvesting" "curves" (Some 0) [] [] [])) = Err ValueError
  /\ snd (mend (ex_file "emulator" "ivcurve" (Some 3) [] [] [])) = Err ValueError.
Proof. split; vm_compute; reflexivity. Qed.

(** Curves without window and with an incomplete buffer get a window of zero samples and are still
    invalid; without incomplete buffer they are left alone, without a name. *)
Theorem C110_window_refuted :
  (exists f', mend (ex_file "harvester" "ivcurve" None [0] [7] [8]) = (f', Ok tt)
     /\ option_map g_window (f_data f') = Some (Some 0) /\ is_valid f' = false)
  /\ (exists f f', mend f = (f', Ok tt) /\ f' = f /\ f_hostname f' = None).
Proof.
  split.
  - eexists. split; [vm_compute; reflexivity|]. split; reflexivity.
  - exists (ex_file "harvester" "ivcurve" None [] [] [] <| f_hostname := None |>). eexists.
    split; [vm_compute; reflexivity|]. split; reflexivity.
Qed.

(** A missing calibration is only filled in if something else is repaired. *)
Theorem C110_calibration_refuted : exists f, mend f = (f, Ok tt) /\ is_valid f = false /\ same_sizes f.
Proof.
  exists (mkH5 (Some "harvester"%string) None (Some "sheep"%string)
    (Some (mkGrp (Some "ivsample"%string) (Some 0) None (ex_time []) (ex_col []) (Some (mkDset None None []))))).
  split; [vm_compute; reflexivity|]. split; [reflexivity|]. split; reflexivity.
Qed.

(** A file that is no recording ends the script; the recordings behind it stay as they are. *)
Theorem C110_foreign_refuted : exists d files p f, In p files /\ lookup d p = Some (NFile f)
  /\ snd (mend f) = Ok tt /\ fst (mend f) <> f
  /\ snd (mend_all d files) = Err KeyError /\ lookup (fst (mend_all d files)) p = Some (NFile f).
Proof.
  exists [(("d", "a.h5"), NFile (mkH5 None None None None));
          (("d", "b.h5"), NFile (ex_file "harvest" "ivsample" (Some 0) [] [] []))]%string,
         [("d", "a.h5"); ("d", "b.h5")]%string, ("d", "b.h5")%string.
  eexists. split; [right; left; reflexivity|]. split; [reflexivity|]. split; [vm_compute; reflexivity|].
  split; [vm_compute; discriminate|]. split; vm_compute; reflexivity.
Qed.

(** So does a file that is not HDF5.  A repair that fails leaves the file half repaired. *)
Theorem C110_other_refuted : exists d files p f, In p files /\ lookup d p = Some (NFile f)
  /\ snd (mend f) = Ok tt /\ fst (mend f) <> f
  /\ snd (mend_all d files) = Err TypeError /\ lookup (fst (mend_all d files)) p = Some (NFile f).
Proof.
  exists [(("d", "a.h5"), NOther);
          (("d", "b.h5"), NFile (ex_file "harvest" "ivsample" (Some 0) [] [] []))]%string,
         [("d", "a.h5"); ("d", "b.h5")]%string, ("d", "b.h5")%string.
  eexists. split; [right; left; reflexivity|]. split; [reflexivity|]. split; [vm_compute; reflexivity|].
  split; [vm_compute; discriminate|]. split; vm_compute; reflexivity.
Qed.
Theorem C110_half_refuted : exists f f' d', mend_all [(("d", "a.h5")%string, NFile f)] [("d", "a.h5")%string]
    = (d', Err ValueError) /\ lookup d' ("d", "a.h5")%string = Some (NFile f')
  /\ f_mode f = Some "emulation"%string /\ f_mode f' = Some "emulator"%string
  /\ option_map g_datatype (f_data f') = option_map g_datatype (f_data f).
Proof.
  exists (ex_file "emulation" "ivcurve" (Some 0) [] [] []). do 2 eexists. split; [vm_compute; reflexivity|].
  repeat split; reflexivity.
Qed.

Print Assumptions C110_repaired_partial.
Print Assumptions C110_valid_partial.
Print Assumptions C110_mode_partial.
Print Assumptions C110_datatype_partial.
Print Assumptions C110_untouched.
Print Assumptions C110_directory_partial.
