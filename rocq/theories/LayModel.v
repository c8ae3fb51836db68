(** Model of extra/gen_testbed_layout.py: the table of targets, capes and observers of each testbed.

    Testbeds, observers and capes are those of TbModel, with the texts that are shown added.  Simplifications:
    the fixtures are given as the lists of testbeds and targets they describe; numbers that are shown
    (latitude, longitude) are texts; creating directory and file is left out. *)
From Coq Require Import ZArith String Ascii List Bool.
From Verif Require Import PyBase TbModel DumpModel.
Import ListNotations.
Open Scope Z_scope.
Open Scope list_scope.

(** An observer with the texts of its model and the name of its cape (testbed/observer.py:28-52, cape.py:26-38). *)
Record place := mkPlace {
  p_obs : observer; p_room : text; p_description : text; p_latitude : text; p_longitude : text; p_cape_name : text }.
Record bed := mkBed { b_id : Z; b_name : text; b_places : list place }.
Record dut := mkDut { u_id : Z; u_name : text }.

(** testbed/testbed.py:94-102, Testbed.get_observer: the loop of TbModel.find_observer, for [place]. *)
Fixpoint find_place (ps : list place) (id : Z) : res place :=
  match ps with
  | [] => Err ValueError
  | p :: ps' =>
    if negb (o_active (p_obs p)) then find_place ps' id
    else match o_cape (p_obs p) with
         | None => Err AttributeError
         | Some c =>
           if negb (c_active c) then find_place ps' id
           else if has_target (p_obs p) id then Ok p
           else find_place ps' id
         end
  end.

(** gen_testbed_layout.py:22-36 *)
Definition separator : text := tx "; ".
Definition newline : text := ["010"%char].
Fixpoint join (sep : text) (l : list text) : text :=
  match l with [] => [] | [x] => x | x :: l' => x ++ sep ++ join sep l' end.
Definition header : list text :=
  map tx ["tb_id"; "tb_name"; "target_id"; "target_name"; "cape_id"; "cape_name"; "observer_id"; "observer_name";
          "room"; "observer_description"; "eth_port"; "lat"; "long"]%string.

(** gen_testbed_layout.py:50-66; [cape.id] of an observer without cape raises AttributeError. *)
Definition elements (b : bed) (u : dut) (p : place) : res (list text) :=
  match o_cape (p_obs p) with
  | None => Err AttributeError
  | Some c =>
    Ok [show_int (b_id b); b_name b; show_int (u_id u); u_name u; show_int (c_id c); p_cape_name p;
        show_int (o_id (p_obs p)); tx (o_name (p_obs p)); p_room p; p_description p; tx (o_eth (p_obs p));
        p_latitude p; p_longitude p]
  end.

(** gen_testbed_layout.py:42-68, the row of one target: none if it is not in the testbed. *)
Definition row (b : bed) (u : dut) : res (option (list text)) :=
  match find_place (b_places b) (u_id u) with
  | Ok p => let* e := elements b u p in Ok (Some e)
  | Err ValueError => Ok None
  | Err e => Err e
  end.

(** gen_testbed_layout.py:21-68: the rows that were written, and what was raised. *)
Fixpoint rows_of (b : bed) (us : list dut) : list (list text) * option exn :=
  match us with
  | [] => ([], None)
  | u :: us' =>
    match row b u with
    | Err e => ([], Some e)
    | Ok r =>
      let '(rs, e) := rows_of b us' in
      (match r with Some x => x :: rs | None => rs end, e)
    end
  end.
Fixpoint rows (bs : list bed) (us : list dut) : list (list text) * option exn :=
  match bs with
  | [] => ([], None)
  | b :: bs' =>
    match rows_of b us with
    | (r, Some e) => (r, Some e)
    | (r, None) => let '(rs, e) := rows bs' us in (r ++ rs, e)
    end
  end.
Definition line (l : list text) : text := join separator l ++ newline.
Definition table (bs : list bed) (us : list dut) : text * option exn :=
  let '(rs, e) := rows bs us in (line header ++ flat_map line rs, e).
