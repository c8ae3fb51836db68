(** What the table of the testbed should show, and how a table is read. *)
From Coq Require Import ZArith String Ascii List Bool.
From Verif Require Import PyBase TbModel DumpModel LayModel.
Import ListNotations.
Open Scope Z_scope.
Open Scope list_scope.

(** The place is in use: observer and cape are active. *)
Definition in_use (p : place) (c : cape) : Prop := o_active (p_obs p) = true /\ o_cape (p_obs p) = Some c /\ c_active c = true.
(** The target is connected there, and active. *)
Definition connected (p : place) (id : Z) : Prop :=
  exists t, (o_target_a (p_obs p) = Some t \/ o_target_b (p_obs p) = Some t) /\ t_id t = id /\ t_active t = true.

(** Each active observer has a cape. *)
Definition equipped (b : bed) : Prop := forall p, In p (b_places b) -> o_active (p_obs p) = true -> o_cape (p_obs p) <> None.
(** A target is connected at one place in use at most. *)
Definition exclusive (b : bed) : Prop := forall p q c d id, In p (b_places b) -> In q (b_places b) -> in_use p c -> in_use q d ->
  connected p id -> connected q id -> p = q.

(** The row for target [u] at place [p] with cape [c]. *)
Definition shows (b : bed) (u : dut) (p : place) (c : cape) (l : list text) : Prop :=
  l = [show_int (b_id b); b_name b; show_int (u_id u); u_name u; show_int (c_id c); p_cape_name p;
       show_int (o_id (p_obs p)); tx (o_name (p_obs p)); p_room p; p_description p; tx (o_eth (p_obs p)); p_latitude p; p_longitude p].

(** Reading a table: lines at each newline, columns at each semicolon, without the blank behind it. *)
Fixpoint split_at (c : ascii) (s : text) : list text :=
  match s with
  | [] => [[]]
  | x :: s' =>
    if Ascii.eqb x c then [] :: split_at c s'
    else match split_at c s' with [] => [[x]] | l :: ls => (x :: l) :: ls end
  end.
Definition blank_off (s : text) : text := match s with c :: s' => if Ascii.eqb c " " then s' else s | [] => [] end.
Definition columns (l : text) : list text := match split_at ";"%char l with [] => [] | x :: ls => x :: map blank_off ls end.
Definition read (s : text) : list (list text) := map columns (removelast (split_at "010"%char s)).

(** No text has the separator or a newline in it. *)
Definition plain (s : text) : Prop := ~ In ";"%char s /\ ~ In "010"%char s.
Definition plain_bed (b : bed) : Prop := plain (b_name b) /\ Forall (fun p => plain (p_cape_name p) /\ plain (tx (o_name (p_obs p)))
  /\ plain (p_room p) /\ plain (p_description p) /\ plain (tx (o_eth (p_obs p))) /\ plain (p_latitude p) /\ plain (p_longitude p)) (b_places b).
