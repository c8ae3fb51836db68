(** Property C124: the table of the testbed layout. *)
From Coq Require Import ZArith QArith String Ascii List Bool.
From Verif Require Import PyBase TbModel DumpModel LayModel LaySpec LayProofs.
Import ListNotations.
Open Scope Z_scope.
Open Scope list_scope.

(** The table has a row for exactly the targets that are connected at a place in use, and the row tells that place. *)
Theorem C124_rows : forall bs us, Forall equipped bs -> Forall exclusive bs -> exists rs, rows bs us = (rs, None)
  /\ forall l, In l rs <-> exists b u p c, In b bs /\ In u us /\ In p (b_places b) /\ in_use p c /\ connected p (u_id u) /\ shows b u p c l.
Proof. intros bs us. exact (rows_iff us bs). Qed.
Print Assumptions C124_rows.
(** Below each title is what it says. *)
Theorem C124_titles : forall b u p c l, shows b u p c l -> combine header l =
  [(tx "tb_id", show_int (b_id b)); (tx "tb_name", b_name b); (tx "target_id", show_int (u_id u)); (tx "target_name", u_name u);
   (tx "cape_id", show_int (c_id c)); (tx "cape_name", p_cape_name p); (tx "observer_id", show_int (o_id (p_obs p)));
   (tx "observer_name", tx (o_name (p_obs p))); (tx "room", p_room p); (tx "observer_description", p_description p);
   (tx "eth_port", tx (o_eth (p_obs p))); (tx "lat", p_latitude p); (tx "long", p_longitude p)].
Proof. intros b u p c l ->. reflexivity. Qed.
Print Assumptions C124_titles.
(** No row is shown twice. *)
Theorem C124_once : forall bs us, NoDup (map u_id us) -> NoDup (map b_id bs) -> NoDup (fst (rows bs us)).
Proof. intros bs us N. exact (rows_nodup us N bs). Qed.
Print Assumptions C124_once.
(** The file can be read as that table, with a column for each title. *)
Theorem C124_read : forall bs us, Forall plain_bed bs -> Forall (fun u => plain (u_name u)) us ->
  read (fst (table bs us)) = header :: fst (rows bs us) /\ Forall (fun l => length l = length header) (fst (rows bs us)).
Proof. exact read_table. Qed.
Print Assumptions C124_read.
(** The place is the one the tasks of an experiment are made for (get_observer of the testbed). *)
Theorem C124_same_observer : forall ps id, match find_place ps id with
  | Ok p => find_observer (map p_obs ps) id = Ok (p_obs p)
  | Err e => find_observer (map p_obs ps) id = Err e
  end.
Proof. exact find_place_same. Qed.
Print Assumptions C124_same_observer.

Definition ex_mcu : mcu := mkMcu 1 "nrf52"%string (3 # 1) 200000 "deep_sleep"%string 0.
Definition ex_target (id : Z) : target := mkTarget id id true ex_mcu None 0.
Definition ex_obs (id : Z) (c : option cape) (t : option target) : observer :=
  mkObs id "sheep"%string id id "port1"%string true c t None.
Definition ex_place (description : string) (o : observer) : place :=
  mkPlace o (tx "II69") (tx description) (tx "51.0") (tx "13.7") (tx "cape1").
Definition ex_bed (name : string) (ps : list place) : bed := mkBed 1 (tx name) ps.
Definition ex_dut : dut := mkDut 7 (tx "target7").

(** A description may hold the separator: the row gets more columns than the table has titles. *)
Theorem C124_columns_refuted : exists bs us l, In l (read (fst (table bs us))) /\ (length header < length l)%nat.
Proof.
  exists [ex_bed "lab" [ex_place "corner; south" (ex_obs 1 (Some (mkCape 1 true 0)) (Some (ex_target 7)))]], [ex_dut].
  eexists. split; [vm_compute; right; left; reflexivity|]. vm_compute. repeat constructor.
Qed.
Print Assumptions C124_columns_refuted.
(** A name may hold a newline (the pattern of names does not exclude it): one row becomes two lines. *)
Theorem C124_lines_refuted : exists bs us, length (fst (rows bs us)) = 1%nat /\ length (read (fst (table bs us))) = 3%nat.
Proof.
  exists [mkBed 1 (tx "lab" ++ ["010"%char] ++ tx "2") [ex_place "corner" (ex_obs 1 (Some (mkCape 1 true 0)) (Some (ex_target 7)))]], [ex_dut].
  split; vm_compute; reflexivity.
Qed.
Print Assumptions C124_lines_refuted.
(** An active observer without cape stops the script: connected targets are missing in the table. *)
Theorem C124_stops_refuted : exists b u p c, In p (b_places b) /\ in_use p c /\ connected p (u_id u) /\ rows [b] [u] = ([], Some AttributeError).
Proof.
  exists (ex_bed "lab" [ex_place "spare" (ex_obs 2 None None); ex_place "corner" (ex_obs 1 (Some (mkCape 1 true 0)) (Some (ex_target 7)))]), ex_dut.
  exists (ex_place "corner" (ex_obs 1 (Some (mkCape 1 true 0)) (Some (ex_target 7)))), (mkCape 1 true 0).
  split; [right; left; reflexivity|]. split; [repeat split|]. split; [exists (ex_target 7); repeat split; left; reflexivity|reflexivity].
Qed.
Print Assumptions C124_stops_refuted.

(** * Examples *)
Definition ex_lab : bed := ex_bed "lab"%string [ex_place "corner"%string (ex_obs 1 (Some (mkCape 5 true 0)) (Some (ex_target 7)))].
Example C124_ex : fst (table [ex_lab] [mkDut 3 (tx "other"); ex_dut])
  = line header ++ tx "1; lab; 7; target7; 5; cape1; 1; sheep; II69; corner; port1; 51.0; 13.7" ++ ["010"%char].
Proof. reflexivity. Qed.
Example C124_ex_sane : equipped ex_lab /\ exclusive ex_lab /\ plain_bed ex_lab.
Proof.
  split; [|split].
  - intros p [<- |[]] _. discriminate.
  - intros p q c d id [<- |[]] [<- |[]]. reflexivity.
  - split; [apply plainb; reflexivity|]. constructor; [|constructor]. repeat split; apply plainb; reflexivity.
Qed.
