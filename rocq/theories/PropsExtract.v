(** C108, C109: extraction of metadata, logs and samples. *)
From Coq Require Import String Ascii Lia Qround.
From Verif Require Import PyBase FileModel FileSpec UartModel FwModel StoModel RepModel RepSpec.
From Verif Require Import DsModel DsSpec ExtModel ExtSpec ExtProofs DsFileProofs PlotFileProofs ExtFileProofs.
From Coq Require Import QArith.
Open Scope Z_scope.

(* ------------------------------------------------------------------ C108 *)

(** Metadata, tables and logs of all intact recordings are extracted completely, besides those that
    cannot be opened; no other file is touched. *)
Theorem C108_complete_partial clock str dump stamp sep sp files d : separator sep sp ->
  Forall (fun f => snd f = Err TypeError \/ exists rec, snd f = Ok rec /\ intact dump rec) files -> apart files ->
  exists d', extract_meta clock str dump stamp sep d files = (d', Ok tt) /\
  (forall file rec q T, In (file, Ok rec) files -> product clock str dump stamp sp file rec q T ->
     exists t, T t /\ find_text d' q = kept_or (find_text d q) t) /\
  (forall q, (forall file rec T, In (file, Ok rec) files -> ~ product clock str dump stamp sp file rec q T) ->
     find_text d' q = find_text d q).
Proof. intros H. apply separator_spec in H. subst sp. exact (meta_extracted clock str dump stamp sep files d). Qed.
Print Assumptions C108_complete_partial.

(** A recording with a table of two columns and a log. *)
Definition ex_clock (q : Q) : string := FileModel.dec (Z.to_nat (Qnum (Qred (q * 1000000000)))).
Definition ex_str (x : item) : string :=
  match x with INum q => FileModel.dec (Z.to_nat (Qnum (Qred q))) | IRow _ => "row" | IText s => s end%string.
Definition ex_stamp (z : Z) : string := FileModel.dec (Z.to_nat z).
Definition ex_dump (_ : meta) : string * res unit := ("meta: data"%string, Ok tt).
Definition ex_ptp : lgrp :=
  mkLgrp (Some (Some "time [s]"%string, None, [5; 6]))
    [("values"%string, Some (mkDcol (Some "a [ns], b [ns]"%string) (Some 2%Q) (Some 1%Q) [Ok (IRow [1%Q; 2%Q]); Ok (IRow [3%Q; 4%Q])]))].
Definition ex_sheep : lgrp :=
  mkLgrp (Some (None, None, [7]))
    [("level"%string, Some (mkDcol None None None [Ok (INum 40%Q)]));
     ("message"%string, Some (mkDcol None None None [Ok (IText "overflow")]))].
Definition ex_rec : recording := mkRec (Ok (MDict [])) [("ptp"%string, ex_ptp); ("sheep"%string, ex_sheep)].
Example C108_ex : extract_meta ex_clock ex_str ex_dump ex_stamp " ; " [] [(("/x", "a.h5")%string, Ok ex_rec)]
  = ([(("/x", "a.sheep.log")%string, ("7:" ++ tab ++ "40" ++ tab ++ "overflow" ++ newline)%string);
      (("/x", "a.ptp.csv")%string,
       ("time [s]; a [ns]; b [ns]" ++ newline ++ "5; 3; 5" ++ newline ++ "6; 7; 9" ++ newline)%string);
      (("/x", "a.yaml")%string, "meta: data"%string)], Ok tt).
Proof. vm_compute. reflexivity. Qed.
Example C108_ex_intact : intact ex_dump ex_rec.
Proof.
  split; [|split].
  - eexists. split; reflexivity.
  - intros k g Hk. cbn in Hk. repeat (destruct Hk as [<-|Hk]; [try discriminate|]); [|destruct Hk].
    intros E. injection E as <-. intros desc tg times E _. injection E as <- <- <-. split; [discriminate|].
    constructor; [|constructor]. split; [discriminate|]. split; [split; discriminate|].
    intros [|[|idx]] H; [| |cbn in H; lia]; (eexists; split; [reflexivity|discriminate]).
  - intros k g Hk. cbn in Hk. repeat (destruct Hk as [<-|Hk]; [try discriminate|]); [|destruct Hk].
    intros E. injection E as <-. split.
    + intros desc tg times E _. injection E as <- <- <-. repeat constructor; (eexists; split; [reflexivity|]); (split; [cbn; lia|]);
        repeat constructor; discriminate.
    + right. do 4 eexists. split; [reflexivity|]. split; [reflexivity|]. split; [cbn; lia|]. split; [repeat constructor; eexists; reflexivity|].
      intros [|idx] v H; [|cbn in H; lia]. intros _ _. eexists _, _. split; reflexivity.
Qed.
Example C108_ex_separator : separator " ; " "; ".
Proof. apply separator_spec. reflexivity. Qed.

(** The separator is what is given, without white space around it but at least two characters. *)
Theorem C108_separator s u : csv_sep s = u <-> separator s u.
Proof. exact (separator_spec s u). Qed.
Print Assumptions C108_separator.
Example C108_separator_ex : csv_sep "," = ", "%string /\ csv_sep "<> " = "<>"%string.
Proof. split; reflexivity. Qed.

(** Existing files are never changed, whatever happens. *)
Theorem C108_kept clock str dump stamp sep files d d' r :
  extract_meta clock str dump stamp sep d files = (d', r) -> keeps d d'.
Proof. exact (meta_keeps clock str dump stamp sep files d d' r). Qed.
Print Assumptions C108_kept.
Example C108_kept_ex :
  find_text (fst (extract_meta ex_clock ex_str ex_dump ex_stamp ";" [(("/x", "a.ptp.csv")%string, "old"%string)] [(("/x", "a.h5")%string, Ok ex_rec)]))
    ("/x", "a.ptp.csv")%string = Some "old"%string.
Proof. vm_compute. reflexivity. Qed.

(** A tabulator as separator becomes two blanks. *)
Theorem C108_tab_refuted : csv_sep tab = "  "%string.
Proof. reflexivity. Qed.
Print Assumptions C108_tab_refuted.

(** A table without one description ends the command: recordings behind it are not extracted. *)
Definition no_desc : lgrp := mkLgrp (Some (None, None, [5])) [].
Theorem C108_description_refuted : exists bad d' e,
  extract_meta ex_clock ex_str ex_dump ex_stamp ";" []
    [(("/x", "a.h5")%string, Ok (mkRec (Ok (MDict [])) [("ptp"%string, bad)])); (("/x", "b.h5")%string, Ok ex_rec)] = (d', Err e)
  /\ forall q, find_text d' q <> None -> q = ("/x", "a.yaml")%string.
Proof.
  exists no_desc. do 2 eexists. split; [vm_compute; reflexivity|].
  intros q. cbn [find_text]. destruct (path_eqb _ q) eqn:E; [|intros H; elim H; reflexivity].
  intros _. symmetry. now apply FileSysProofs.path_eqb_eq.
Qed.
Print Assumptions C108_description_refuted.

(** A faulty message is tolerated in the log, but not when warnings are shown: the command ends. *)
Definition faulty : lgrp :=
  mkLgrp (Some (None, None, [7]))
    [("level"%string, Some (mkDcol None None None [Ok (INum 40%Q)]));
     ("message"%string, Some (mkDcol None None None [Err OSError]))].
Theorem C108_faulty_refuted : exists g d', logged g /\
  extract_meta ex_clock ex_str ex_dump ex_stamp ";" []
    [(("/x", "a.h5")%string, Ok (mkRec (Ok (MDict [])) [("sheep"%string, g)]))] = (d', Err OSError)
  /\ find_text d' ("/x", "a.sheep.log")%string <> None.
Proof.
  exists faulty. eexists. split; [|split; [vm_compute; reflexivity|discriminate]].
  intros desc tg times E _. injection E as <- <- <-. repeat constructor; (eexists; split; [reflexivity|]); (split; [cbn; lia|]);
    repeat constructor; try discriminate. intros e E. now injection E as <-.
Qed.
Print Assumptions C108_faulty_refuted.

(** If the metadata cannot be shown, the command reports success without any log or table. *)
Theorem C108_metadata_refuted :
  extract_meta ex_clock ex_str ex_dump ex_stamp ";" [] [(("/x", "a.h5")%string, Ok (mkRec (Err TypeError) (rc_groups ex_rec)))]
  = ([], Ok tt).
Proof. reflexivity. Qed.
Print Assumptions C108_metadata_refuted.

(** A table with a column of texts is cut off; the second run succeeds and keeps the torso. *)
Definition texts_col : lgrp :=
  mkLgrp (Some (Some "time"%string, None, [5; 6])) [("state"%string, Some (mkDcol (Some "state"%string) None None [Ok (IText "on"); Ok (IText "off")]))].
Definition texts_rec : recording := mkRec (Ok (MDict [])) [("ptp"%string, texts_col)].
Theorem C108_torso_refuted : exists d1,
  extract_meta ex_clock ex_str ex_dump ex_stamp ";" [] [(("/x", "a.h5")%string, Ok texts_rec)] = (d1, Ok tt)
  /\ extract_meta ex_clock ex_str ex_dump ex_stamp ";" d1 [(("/x", "a.h5")%string, Ok texts_rec)] = (d1, Ok tt)
  /\ find_text d1 ("/x", "a.ptp.csv")%string = Some ("time; state" ++ newline ++ "5")%string.
Proof. eexists. split; [vm_compute; reflexivity|]. split; vm_compute; reflexivity. Qed.
Print Assumptions C108_torso_refuted.

(** A column without calibration is shown with one added. *)
Definition bare : lgrp :=
  mkLgrp (Some (Some "time"%string, None, [5])) [("cpu"%string, Some (mkDcol (Some "cpu [%]"%string) None None [Ok (INum 50%Q)]))].
Theorem C108_offset_refuted : exists d',
  extract_meta ex_clock ex_str ex_dump ex_stamp ";" [] [(("/x", "a.h5")%string, Ok (mkRec (Ok (MDict [])) [("sys_util"%string, bare)]))] = (d', Ok tt)
  /\ find_text d' ("/x", "a.sys_util.csv")%string = Some ("time; cpu [%]" ++ newline ++ "5; 51" ++ newline)%string.
Proof. eexists. split; vm_compute; reflexivity. Qed.
Print Assumptions C108_offset_refuted.

(** A column that is shorter than the times ends the command in the middle of a line. *)
Definition ragged : lgrp :=
  mkLgrp (Some (Some "time"%string, None, [5; 6])) [("cpu"%string, Some (mkDcol (Some "cpu [%]"%string) (Some 1%Q) (Some 0%Q) [Ok (INum 50%Q)]))].
Theorem C108_ragged_refuted : exists d',
  extract_meta ex_clock ex_str ex_dump ex_stamp ";" [] [(("/x", "a.h5")%string, Ok (mkRec (Ok (MDict [])) [("sys_util"%string, ragged)]))] = (d', Err IndexError)
  /\ find_text d' ("/x", "a.sys_util.csv")%string = Some ("time; cpu [%]" ++ newline ++ "5; 50" ++ newline ++ "6")%string.
Proof. eexists. split; vm_compute; reflexivity. Qed.
Print Assumptions C108_ragged_refuted.

(** Warnings whose levels are rows, are fewer than the times, or that have no messages end the command. *)
Definition warned (levels : list item) (msgs : list (string * option dcol)) : lgrp :=
  mkLgrp (Some (None, None, [7; 8])) (("level"%string, Some (mkDcol None None None (map Ok levels))) :: msgs).
Definition ended (g : lgrp) (e : exn) : Prop :=
  snd (extract_meta ex_clock ex_str ex_dump ex_stamp ";" [] [(("/x", "a.h5")%string, Ok (mkRec (Ok (MDict [])) [("sheep"%string, g)]))]) = Err e.
Theorem C108_levels_refuted :
  let m := [("message"%string, Some (mkDcol None None None [Ok (IText "a"); Ok (IText "b")]))] in
  ended (warned [IRow [40%Q]; IRow [40%Q]] m) ValueError
  /\ ended (warned [INum 40%Q] m) IndexError
  /\ ended (warned [INum 20%Q; INum 40%Q] []) KeyError.
Proof. repeat split; vm_compute; reflexivity. Qed.
Print Assumptions C108_levels_refuted.

(** Even if the log was written by an earlier run: a warning has to have a level. *)
Theorem C108_levels_again_refuted : exists d', 
  extract_meta ex_clock ex_str ex_dump ex_stamp ";" [(("/x", "a.sheep.log"), "")]%string
    [(("/x", "a.h5")%string, Ok (mkRec (Ok (MDict [])) [("sheep"%string,
        warned [INum 40%Q] [("message"%string, Some (mkDcol None None None [Ok (IText "a"); Ok (IText "b")]))])]))]
  = (d', Err IndexError)
  /\ find_text d' ("/x", "a.sheep.log")%string = Some ""%string.
Proof. eexists. split; vm_compute; reflexivity. Qed.
Print Assumptions C108_levels_again_refuted.

(** Levels that are texts: the logs behind are missing, but success is reported. *)
Theorem C108_text_level_refuted : exists g d',
  extract_meta ex_clock ex_str ex_dump ex_stamp ";" []
    [(("/x", "a.h5")%string, Ok (mkRec (Ok (MDict [])) [("sheep"%string, g); ("kernel"%string, faulty)]))] = (d', Ok tt)
  /\ find_text d' ("/x", "a.sheep.log")%string <> None /\ find_text d' ("/x", "a.kernel.log")%string = None.
Proof.
  exists (warned [IText "40"; IText "40"] []). eexists. split; [vm_compute; reflexivity|].
  split; [discriminate|reflexivity].
Qed.
Print Assumptions C108_text_level_refuted.

(* ------------------------------------------------------------------ C109 *)

(** The table contains time, current and voltage of the thinned out samples in physical units (or as
    stored), for each listed file that can be cut, if its names are not in use. *)
Theorem C109_table_partial clock str fl d x in_data ss es ds_factor factor sep sp raw d' x' pre p post r d1 q n L :
  let s0 := Z.to_nat (to_sample r (cut_start ss)) in
  let e0 := Z.to_nat (to_sample r (cut_end r es)) in
  let e := Nat.min L e0 in
  (ds_factor < 1 /\ factor = 1000 \/ 1 <= ds_factor /\ factor = ds_factor)%Q -> separator sep sp ->
  extract clock str fl d x in_data ss es ds_factor sep raw = (d', x', Ok tt) ->
  path_to_flist d in_data = pre ++ p :: post -> open_reader d p = Ok r ->
  cut_and_downsample fl d p r ss es factor = (d1, Ok q) -> lookup d q = None ->
  find_text x (table_file q "data") = None -> lookup d (table_file q "data") = None ->
  (forall p' r', In p' pre -> open_reader d p' = Ok r' ->
     table_file (out_path r' p' (cut_start ss) (cut_end r' es) factor) "data" <> table_file q "data") ->
  List.length (f_time (r_file r)) = L -> List.length (f_voltage (r_file r)) = L ->
  List.length (f_current (r_file r)) = L -> r_max_elements r = 4000000 ->
  Z.of_nat n = Z.max 1 (Qfloor factor) -> (s0 < e)%nat ->
  (e - s0 <= Z.to_nat 4000000 \/ Nat.divide n (Z.to_nat 4000000))%nat ->
  exists f t v i m,
    lookup d' q = Some (NFile f)
    /\ every_nth n (e - s0) (signal (file_env fl) true n (slice s0 e (f_time (r_file r)))) t
    /\ every_nth n (e - s0) (signal (file_env fl) false n (slice s0 e (f_voltage (r_file r)))) v
    /\ every_nth n (e - s0) (signal (file_env fl) false n (slice s0 e (f_current (r_file r)))) i
    /\ DsSpec.columns f (firstn m t) (firstn m v) (firstn m i)
    /\ (m = List.length v \/ m = Z.to_nat (Z.of_nat (List.length v) / 10000 * 10000))
    /\ (firstn m t <> [] -> find_text x' (table_file q "data")
        = Some (sample_table clock str sp raw (r_cal r) (firstn m t) (firstn m i) (firstn m v))).
Proof. exact (samples_extracted clock str fl d x in_data ss es ds_factor factor sep sp raw d' x' pre p post r d1 q n L). Qed.
Print Assumptions C109_table_partial.
Example C109_table_ex : sample_table ex_clock ex_str "; " false (mkSeries (mkPair 2 1) (mkPair 3 0) (mkPair (1 # 1000000000) 0)) [7; 8] [1; 2] [10; 20]
  = ("system time [s] = value * gain + (offset); current [A] = value * gain + offset; voltage [V] = value * gain + offset" ++ newline
     ++ "7; 3; 21" ++ newline ++ "8; 6; 41" ++ newline)%string.
Proof. vm_compute. reflexivity. Qed.

(** A result of an earlier run is shown as it is. *)
Theorem C109_existing_partial clock str fl d x p r ss es factor sep sp raw q f r2 c : separator sep sp -> open_reader d p = Ok r ->
  cut_and_downsample fl d p r ss es factor = (d, Ok q) -> lookup d q = Some (NFile f) -> reader_init f = Ok r2 ->
  calibrated_by c f -> f_time f <> [] ->
  List.length (f_voltage f) = List.length (f_time f) -> List.length (f_current f) = List.length (f_time f) ->
  lookup d (table_file q "data") = None -> find_text x (table_file q "data") = None ->
  extract_one clock str fl ss es factor sep raw d x p
  = (d, (table_file q "data", sample_table clock str sp raw c (f_time f) (f_current f) (f_voltage f)) :: x, Ok tt).
Proof. exact (existing_extracted clock str fl d x p r ss es factor sep sp raw q f r2 c). Qed.
Print Assumptions C109_existing_partial.
(** A tenth of a second, as a whole and with factor one. *)
Example C109_existing_ex fl : exists t,
  extract ex_clock ex_str fl (pair_dir 10000 0) [] ("/x", "a.h5")%string None None 1 ";" true
  = (pair_dir 10000 0, [(("/x", "a.data.csv")%string, t)], Ok tt).
Proof.
  eexists. unfold extract. change (qltb 1 1) with false. cbv iota.
  change (path_to_flist (pair_dir 10000 0) ("/x", "a.h5")%string) with [("/x", "a.h5")%string]. cbn [extract_files].
  erewrite C109_existing_partial with (q := ("/x", "a.h5")%string) (c := series_default) (sp := "; "%string).
  - reflexivity.
  - apply separator_spec. reflexivity.
  - apply pair_open_a.
  - replace ("/x", "a.h5")%string with (out_path (flat 10000) ("/x", "a.h5")%string (cut_start None) (cut_end (flat 10000) None) 1) at 2.
    + apply cut_existing; unfold out_path, out_suffix, cut_end, cut_start; rewrite ?tenth_runtime; reflexivity.
    + unfold out_path, out_suffix, cut_end, cut_start. rewrite tenth_runtime. reflexivity.
  - reflexivity.
  - apply open_flat.
  - do 4 eexists. repeat (split; [reflexivity|]). reflexivity.
  - change (f_time _) with (zeros 10000). intros H. apply (f_equal (@List.length Z)) in H. rewrite zeros_length in H. cbn [List.length] in H. lia.
  - change (f_voltage _) with (zeros 10000). change (f_time _) with (zeros 10000). reflexivity.
  - change (f_current _) with (zeros 10000). change (f_time _) with (zeros 10000). reflexivity.
  - reflexivity.
  - reflexivity.
Qed.

(** No file and no text is ever changed, whatever happens. *)
Theorem C109_kept clock str fl d x in_data ss es ds_factor sep raw d' x' y :
  extract clock str fl d x in_data ss es ds_factor sep raw = (d', x', y) -> preserved d d' /\ keeps x x'.
Proof. exact (kept_all clock str fl d x in_data ss es ds_factor sep raw d' x' y). Qed.
Print Assumptions C109_kept.

(** With the default factor a recording of less than 10 s at 100 kHz yields no table, and success. *)
Theorem C109_short_refuted clock str fl d x p r ss es ds_factor sep raw : 1000 <= ds_factor -> path_to_flist d p = [p] ->
  open_reader d p = Ok r -> to_sample r (cut_start ss) <= to_sample r (cut_end r es) ->
  to_sample r (cut_end r es) - to_sample r (cut_start ss) < 1000 * ds_factor ->
  extract clock str fl d x p ss es (inject_Z ds_factor) sep raw = (d, x, Ok tt).
Proof. exact (short_skipped clock str fl d x p r ss es ds_factor sep raw). Qed.
Print Assumptions C109_short_refuted.
Example C109_short_ex clock str fl x sep raw :
  extract clock str fl (pair_dir 10000 0) x ("/x", "a.h5")%string None None 1000 sep raw = (pair_dir 10000 0, x, Ok tt).
Proof.
  change 1000%Q with (inject_Z 1000). apply C109_short_refuted with (r := flat 10000); [lia|reflexivity|apply pair_open_a| |];
    unfold cut_end, cut_start; rewrite tenth_runtime; unfold to_sample; change (st_rate (r_stats (flat 10000))) with 100000;
    vm_compute; congruence.
Qed.

(** A file without samples ends the command: files behind it are not extracted. *)
Theorem C109_nodata_refuted clock str fl x ss es ds_factor sep raw : exists f,
  extract clock str fl [(("", "x")%string, NDir); (("/x", "a.h5")%string, NFile f); (("/x", "b.h5")%string, NFile (flat_file 10000))] x
    ("", "x")%string ss es ds_factor sep raw
  = ([(("", "x")%string, NDir); (("/x", "a.h5")%string, NFile f); (("/x", "b.h5")%string, NFile (flat_file 10000))], x, Err KeyError).
Proof.
  exists (mkH5 None None None None). unfold extract.
  match goal with |- context [path_to_flist ?a ?b] => change (path_to_flist a b) with [("/x", "a.h5"); ("/x", "b.h5")]%string end.
  reflexivity.
Qed.
Print Assumptions C109_nodata_refuted.
