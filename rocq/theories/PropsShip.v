(** C131: the shipped harvesters and sources, and own ones on top of them, are usable. *)
From Coq Require Import String ZArith Bool List Reals Lia.
From Verif Require Import PyBase F64 CalModel CalSpec ConvModel ConvSpec CfgModel CfgSpec TgtModel TgtSpec SimModel SimSpec FixModel FixSpec
  ShipData ShipModel ShipSpec ShipProofs ShipOwn ShipPlain ShipRun.
Import ListNotations.
Open Scope Z_scope.
Open Scope list_scope.

(** The two files can be read into the database. *)
Theorem C131_database : exists x, shipped = Ok x.
Proof. exact (ex_intro _ db shipped_db). Qed.
Print Assumptions C131_database.

(** Every harvester of the file is accepted under its name, in every spelling; it has the algorithm of its name. *)
Theorem C131_harvesters : forall x k s n a, shipped = Ok x -> In (n, a) harvester_names -> same_text s n ->
  exists v, make_harvester (10 + k) x (by_name s) = Ok v /\ check_vhrv v = Ok v /\ vh_algorithm v = a.
Proof. intros x k s n a H. rewrite (proj1 (of_shipped x) H). exact (harvesters_made k s n a). Qed.
Print Assumptions C131_harvesters.

(** The numbers in the names: a constant voltage in 0.1 V, curves per second. *)
Theorem C131_numbers : forall x k n z v, shipped = Ok x -> make_harvester (10 + k) x (by_name n) = Ok v ->
  (In (n, z) cv_names -> fR (vh_voltage v) = IZR z) /\ (In (n, z) iv_names -> vh_samples v * (1 + vh_wait v) = z).
Proof. intros x k n z v H. rewrite (proj1 (of_shipped x) H). exact (fun M => conj (fun I => cv_named k n z v I M) (fun I => iv_named k n z v I M)). Qed.
Print Assumptions C131_numbers.

(** Every source of the file is accepted, has the converters its name tells, and its table has usable efficiencies. *)
Theorem C131_sources : forall x k s n a b g, shipped = Ok x -> In (n, (a, b, g)) source_names -> same_text s n ->
  exists v, make_source (10 + k) x (by_name s) = Ok v /\ check_vsrc v = Ok v /\ Forall usable_efficiency (vs_LUT_out v) /\
    vs_boost v = a /\ vs_buck v = b /\ vs_pg_immediate v = g.
Proof. intros x k s n a b g H. rewrite (proj1 (of_shipped x) H). exact (sources_made k s n a b g). Qed.
Print Assumptions C131_sources.

(** Names for the same thing give the same model. *)
Theorem C131_synonyms : forall x k, shipped = Ok x ->
  (forall a b v1 v2, In (a, b) harvester_synonyms -> make_harvester (10 + k) x (by_name a) = Ok v1 -> make_harvester (10 + k) x (by_name b) = Ok v2 -> v1 = v2) /\
  (forall a b v1 v2, In (a, b) source_synonyms -> make_source (10 + k) x (by_name a) = Ok v1 -> make_source (10 + k) x (by_name b) = Ok v2 -> v1 = v2).
Proof. intros x k H. rewrite (proj1 (of_shipped x) H). exact (synonyms k). Qed.
Print Assumptions C131_synonyms.

(** By number the same model is found as by name, for all numbers but one. *)
Theorem C131_by_id : forall x depth w i n, shipped = Ok x -> entry "id" (w_params w) = Some (VInt i) -> entry "name" (w_params w) = Some (VStr n) -> i <> 2102 ->
  (In w harvesters -> make_harvester depth x (by_id i) = make_harvester depth x (by_name n)) /\
  (In w sources -> make_source depth x (by_id i) = make_source depth x (by_name n)).
Proof. intros x depth w i n H. rewrite (proj1 (of_shipped x) H). exact (by_number depth w i n). Qed.
Print Assumptions C131_by_id.

(** The number 2102 is given twice: asking for it gives 1 V, the harvester with 3.3 V cannot be found by its number. *)
Theorem C131_by_id_refuted : exists x w1 w2, shipped = Ok x /\ In w1 harvesters /\ In w2 harvesters /\
  entry "id" (w_params w1) = Some (VInt 2102) /\ entry "name" (w_params w1) = Some (VStr "cv33") /\
  entry "id" (w_params w2) = Some (VInt 2102) /\ entry "name" (w_params w2) = Some (VStr "cv10") /\
  forall k v, make_harvester (10 + k) x (by_id 2102) = Ok v -> fR (vh_voltage v) = 1000%R.
Proof. exact twice. Qed.
Print Assumptions C131_by_id_refuted.

(** An own source: a shipped one under another name, with other values inside the limits.  It is accepted and has
    exactly these values; all others are those of the shipped source. *)
Theorem C131_own : forall x k base a values s, shipped = Ok x -> In (base, a) source_names -> own_source base values ->
  make_source (11 + k) x (by_name base) = Ok s ->
  exists w, make_source (11 + k) x values = Ok w /\ check_vsrc w = Ok w /\ takes values s w.
Proof. intros x k base a values s H. rewrite (proj1 (of_shipped x) H). exact (own k base a values s). Qed.
Print Assumptions C131_own.

(** Each of them runs with every usual target to the end of every recording. *)
Theorem C131_runs : forall x k base a values v m p t dtype window step cv ci xs, shipped = Ok x -> In (base, a) source_names ->
  values = by_name base \/ own_source base values -> make_source (11 + k) x values = Ok v ->
  pow_ok p -> recording dtype window step -> usual_target m t -> moderate_pair cv -> moderate_pair ci ->
  Forall (fun y => u32 (fst y) /\ u32 (snd y)) xs ->
  exists st l, simulate_source m p v t dtype window step cv ci xs = Ok (st, l) /\ List.length l = List.length xs /\
    Forall (fun y => 0 <= fst y <= 5000000 /\ proper (snd y)) l.
Proof. intros x k base a values v m p t dtype window step cv ci xs H. rewrite (proj1 (of_shipped x) H). exact (all_run k base a values v m p t dtype window step cv ci xs). Qed.
Print Assumptions C131_runs.

(** A source without a base: what is not given is as in the class, the harvester is the ideal one. *)
Theorem C131_plain : forall x k values h, shipped = Ok x -> plain_source values -> chosen values -> shown_with_text values ->
  make_harvester (11 + k) x (by_name "mppt_opt") = Ok h ->
  exists s w, basic_source s /\ vs_harvester s = h /\ make_source (11 + k) x values = Ok w /\ check_vsrc w = Ok w /\ takes values s w.
Proof. intros x k values h H. rewrite (proj1 (of_shipped x) H). exact (plain k values h). Qed.
Print Assumptions C131_plain.

(** ... and only such a source is made: numbers outside the limits, missing descriptions and
    unknown fields are refused. *)
Theorem C131_limits : forall x k values w, shipped = Ok x -> plain_source values -> make_source (11 + k) x values = Ok w ->
  (forall key hi f v y, In (key, hi, f) float_limits -> entry key values = Some v -> float_of v = Ok y -> fin y = true /\ (0 <= fR y <= IZR hi)%R) /\
  (forall key lo hi f z, In (key, (lo, hi), f) int_limits -> entry key values = Some (VInt z) -> lo <= z <= hi) /\
  ((forall key v, In key ["visible2group"; "visible2all"]%string -> entry key values = Some v -> exists b, truth v b) -> shown_with_text values) /\
  (forall key, entry key values <> None -> In key source_fields).
Proof. intros x k values w H. rewrite (proj1 (of_shipped x) H). exact (plain_limits k values w). Qed.
Print Assumptions C131_limits.

(** A harvester without a base has the values it was given, and otherwise those of the class. *)
Theorem C131_own_harvester : forall x k values v, shipped = Ok x -> plain_harvester values -> make_harvester (11 + k) x values = Ok v ->
  takes_harvester values v.
Proof. intros x k values v H. rewrite (proj1 (of_shipped x) H). exact (harvester_taken k values v). Qed.
Print Assumptions C131_own_harvester.

(** Numbers, rows and tables are read as they are written; a table is no row. *)
Theorem C131_tables :
  (forall a b, all_digits a -> all_digits b -> reads (a ++ "." ++ b) (fdec (number (a ++ b)) (Z.of_nat (String.length b)))) /\
  (forall l xs, l <> [] -> Forall2 reads l xs -> row_of (VOther (show_list l)) = Ok xs) /\
  (forall t xss, Forall (fun l => l <> []) t -> Forall2 (Forall2 reads) t xss ->
     table_of (VOther (show_list (map show_list t))) = Ok xss /\
     ((2 <= List.length t)%nat -> row_of (VOther (show_list (map show_list t))) = Err ValueError)).
Proof.
  split; [|split; [exact row_read|]].
  - intros a b A B. destruct (number_read a b A B) as [F N]. exact (conj N F).
  - intros t xss N R. exact (conj (table_read t xss N R) (table_no_row t xss N R)).
Qed.
Print Assumptions C131_tables.

(** The harvester "neutral" is only a base for others: it is refused. *)
Theorem C131_neutral : forall x k s, shipped = Ok x -> same_text s "neutral" -> make_harvester (10 + k) x (by_name s) = Err ValueError.
Proof. intros x k s H. rewrite (proj1 (of_shipped x) H). exact (neutral_refused k s). Qed.
Print Assumptions C131_neutral.

(** An own source with a storage of 220 uF, a start at 2.5 V and without fast signal. *)
Definition my_source : dict :=
  [("name"%string, VStr "my own"); ("inherit_from"%string, VStr "BQ25504s"); ("C_intermediate_uF"%string, VInt 220);
   ("V_intermediate_init_mV"%string, VOther "2500.0"); ("immediate_pwr_good_signal"%string, VOther "False")].
Example C131_ex :
  match shipped with
  | Ok x => match make_source 11 x my_source, make_source 11 x (by_name "bq25504s") with
            | Ok w, Ok s => (feq (vs_C_mid w) (fz 220), feq (vs_C_mid s) (fz 100), feq (vs_V_init w) (fz 2500), feq (vs_V_en w) (vs_V_en s),
                             vs_pg_immediate w, vs_pg_immediate s, vs_boost w, vs_buck w)
            | _, _ => (false, false, false, false, false, false, false, false) end
  | Err _ => (false, false, false, false, false, false, false, false) end = (true, true, true, true, false, true, true, false).
Proof. vm_compute. reflexivity. Qed.

(** A source and a harvester without base; a source for everybody without description. *)
Definition bare_source : dict := [("name"%string, VStr "bare"); ("C_intermediate_uF"%string, VInt 47)].
Definition shown_source : dict := [("name"%string, VStr "shown"); ("visible2all"%string, VOther "True")].
Definition my_harvester : dict := [("name"%string, VStr "mine"); ("algorithm"%string, VStr "cv"); ("voltage_mV"%string, VOther "1800.5"); ("duration_ms"%string, VInt 2)].
Example C131_plain_ex :
  match shipped with
  | Ok x => match make_source 11 x bare_source, make_source 11 x shown_source, make_harvester 11 x my_harvester with
            | Ok w, Err ValueError, Ok v => (feq (vs_C_mid w) (fz 47), feq (vs_V_out w) (fz 2400), vs_boost w,
                                  feq (vh_voltage v) (fdec 18005 1), feq (vh_duration v) (fz 2), feq (vh_interval v) (fz 100))
            | _, _, _ => (false, false, false, false, false, false) end
  | Err _ => (false, false, false, false, false, false) end = (true, true, false, true, true, true).
Proof. vm_compute. reflexivity. Qed.
Example C131_tables_ex :
  show_list (map show_list [["0.5"; "1.0"]; ["0.25"; "0.9"]]%string) = "[[0.5, 1.0], [0.25, 0.9]]"%string.
Proof. reflexivity. Qed.
