(** C111, C112: the links of a testbed in its floor plan. *)
From Coq Require Import String Ascii.
From Verif Require Import PyBase LinkModel LinkSpec LinkProofs LinkDrawProofs.
From Coq Require Import QArith Qround.
Open Scope Z_scope.

(* ------------------------------------------------------------------ C111 *)

(** All entries of the matrix are read, each at its place, and nothing else. *)
Theorem C111_read : forall float log pre fields cols rws,
  matrix_log log pre fields cols rws -> cols <> [] -> length rws = length cols ->
  NoDup cols -> NoDup (map fst rws) ->
  (forall n m v, entry cols rws n m v -> exists x, float v = Ok x) ->
  exists d, extract_rssi float log = Ok d /\ NoDup (map fst d)
    /\ forall n m x, In ((n, m), x) d <-> exists v, entry cols rws n m v /\ float v = Ok x.
Proof. exact matrix_read. Qed.

(** A text that is no number, a matrix that is not square, and a log without matrix are reported. *)
Theorem C111_reported : forall float log pre fields cols rws,
  matrix_log log pre fields cols rws -> cols <> [] ->
  (length rws <> length cols -> extract_rssi float log = Err RuntimeError)
  /\ forall n m v e, length rws = length cols -> entry cols rws n m v -> float v = Err e ->
     (forall w e', float w = Err e' -> e' = e) -> extract_rssi float log = Err e.
Proof.
  intros float log pre fields cols rws M NE. split; [now apply (matrix_uneven float log pre fields cols rws)|].
  intros n m v e L EN F U. exact (matrix_bad float log pre fields cols rws n m v e M NE L EN F U).
Qed.
Theorem C111_none : forall float ls, Forall a_line ls -> Forall (fun l => ~ title l) ls ->
  extract_rssi float (concat ls) = Err IndexError.
Proof. exact no_matrix. Qed.

(** A number at the start of the line is no column, there is no blank before it; the number of
    columns is then reported as wrong. *)
Theorem C111_unindented : forall float,
  extract_rssi float (tx "link matrix:" ++ nl :: tx "1     2" ++ nl :: tx "--" ++ nl :: tx "1|   5  5"
                      ++ nl :: tx "2|   5  5") = Err RuntimeError.
Proof. reflexivity. Qed.
Print Assumptions C111_unindented.

(** Numbers of the example: the integers that occur. *)
Definition ex_float (v : text) : res Q :=
  match string_of_list_ascii v with
  | "-50"%string => Ok (-(50))%Q | "-52"%string => Ok (-(52))%Q | "-61"%string => Ok (-(61))%Q
  | "-5"%string => Ok (-(5))%Q | "-200"%string => Ok (-(200))%Q | "50"%string => Ok 50%Q
  | _ => Err ValueError
  end.
Definition line (s : string) : text := tx s ++ [nl].

(** Three nodes; node 3 was not heard by node 1, the last row lost its blanks. *)
Definition ex_log : text :=
  line "start" ++ line "Link Matrix:" ++ line "  to|   1   2  13" ++ line "----" ++ line "   1|     -50    "
  ++ line "   2| -52     -61" ++ line "  13|" ++ line "" ++ line "  99| -50".
Definition ex_fields : list text := [tx "   1"; tx "   2"; tx "  13"].
Definition ex_rows : list (Z * list (option text)) :=
  [(1, [None; Some (tx "-50"); None]); (2, [Some (tx "-52"); None; Some (tx "-61")]); (13, [None; None; None])].

Example C111_ex_log : matrix_log ex_log (tx "  to|") ex_fields [1; 2; 13] ex_rows.
Proof.
  assert (AW : forall s, forallb space s = true -> all_white s).
  { intros s H. apply Forall_forall. intros c C. apply space_white. rewrite forallb_forall in H. auto. }
  assert (NN : forall s, existsb (Ascii.eqb nl) s = false -> ~ In nl s).
  { intros s H C. apply In_existsb in C. congruence. }
  assert (AL : forall s, existsb (Ascii.eqb nl) (tx s) = false -> a_line (line s)).
  { intros s H. exists (tx s). split; [reflexivity|auto]. }
  assert (N1 : numeral (tx "1") 1) by (apply numeral_digit; reflexivity).
  assert (N2 : numeral (tx "2") 2) by (apply numeral_digit; reflexivity).
  assert (N13 : numeral (tx "13") 13).
  { change (numeral (tx "1" ++ ["3"%char]) (10 * 1 + 3)). apply numeral_more; [exact N1|]. apply numeral_digit. reflexivity. }
  exists [line "start"], (line "Link Matrix:"), (line "  to|   1   2  13"), (line "----"),
    [line "   1|     -50    "; line "   2| -52     -61"; line "  13|"], (line "" ++ line "  99| -50").
  split; [reflexivity|]. split; [repeat constructor; apply AL; reflexivity|].
  split.
  { constructor; [|constructor]. rewrite <- title_iff. discriminate. }
  split; [apply AL; reflexivity|]. split; [apply title_iff; reflexivity|].
  split; [apply NN; reflexivity|]. split.
  { split; [reflexivity|]. split; [|split].
    - repeat constructor; intros C; apply In_existsb in C; discriminate.
    - right. exists (tx "  to"), "|"%char. split; [reflexivity|]. rewrite <- space_white. discriminate.
    - constructor; [|constructor; [|constructor; [|constructor]]].
      + exists (tx "   "), (tx "1"). repeat split; [discriminate|apply AW; reflexivity|exact N1].
      + exists (tx "   "), (tx "2"). repeat split; [discriminate|apply AW; reflexivity|exact N2].
      + exists (tx "  "), (tx "13"). repeat split; [discriminate|apply AW; reflexivity|exact N13]. }
  split; [apply AL; reflexivity|]. split.
  { intros C. inversion C as [|? ? W _]. apply space_white in W. discriminate. }
  split.
  { assert (TR : forall a b, digit a = true -> digit b = true -> trimmed ["-"%char; a; b]).
    { intros a b A B. split; [exists "-"%char, [a; b]; split; [reflexivity|];
        rewrite <- space_white; discriminate|]. exists ["-"%char; a], b. split; [reflexivity|]. now apply digit_not_white. }
    constructor; [|constructor; [|constructor; [|constructor]]].
    - exists (tx "   1|"), [], [tx "    "; tx " -50"; tx "    "], (tx "   1|     -50    "), [].
      split; [reflexivity|]. split; [apply NN; reflexivity|]. split; [constructor|]. split; [reflexivity|]. split.
      { exists (tx "   "), (tx "1"), []. repeat split; [apply AW; reflexivity|constructor|exact N1]. }
      split; [|repeat split; left; split; [cbn; lia|reflexivity]].
      constructor; [apply AW; reflexivity|]. constructor; [|constructor; [apply AW; reflexivity|constructor]].
      exists (tx " "), []. split; [reflexivity|]. split; [apply AW; reflexivity|]. split; [constructor|apply TR; reflexivity].
    - exists (tx "   2|"), [], [tx " -52"; tx "    "; tx " -61"], (tx "   2| -52     -61"), [].
      split; [reflexivity|]. split; [apply NN; reflexivity|]. split; [constructor|]. split; [reflexivity|]. split.
      { exists (tx "   "), (tx "2"), []. repeat split; [apply AW; reflexivity|constructor|exact N2]. }
      split; [|repeat split; left; split; [cbn; lia|reflexivity]].
      constructor; [|constructor; [apply AW; reflexivity|constructor; [|constructor]]].
      + exists (tx " "), []. split; [reflexivity|]. split; [apply AW; reflexivity|]. split; [constructor|apply TR; reflexivity].
      + exists (tx " "), []. split; [reflexivity|]. split; [apply AW; reflexivity|]. split; [constructor|apply TR; reflexivity].
    - exists (tx "  13|"), [], [tx "    "; tx "    "; tx "    "], (tx "  13|"), (tx "            ").
      split; [reflexivity|]. split; [apply NN; reflexivity|]. split; [apply AW; reflexivity|]. split; [reflexivity|]. split.
      { exists (tx "  "), (tx "13"), []. repeat split; [apply AW; reflexivity|constructor|exact N13]. }
      split; [|repeat split; left; split; [cbn; lia|reflexivity]].
      repeat (constructor; [apply AW; reflexivity|]). constructor. }
  right. exists [], (line "  99| -50"). split; [reflexivity|]. split; [constructor|intros []].
Qed.
Example C111_read_ex : extract_rssi ex_float ex_log
  = Ok [((1, 2), (-(50))%Q); ((2, 1), (-(52))%Q); ((2, 13), (-(61))%Q)].
Proof. vm_compute. reflexivity. Qed.
Example C111_uneven_ex : extract_rssi ex_float (line "link matrix:" ++ line "  1  2" ++ line "--" ++ line "1| -50") = Err RuntimeError.
Proof. vm_compute. reflexivity. Qed.
Example C111_bad_ex : extract_rssi ex_float (line "link matrix:" ++ line "     1" ++ line "--" ++ line "1|   x") = Err ValueError.
Proof. vm_compute. reflexivity. Qed.
Example C111_bar_ex : extract_rssi ex_float (line "link matrix:" ++ line "     1" ++ line "--" ++ line "1  -50") = Err TypeError.
Proof. vm_compute. reflexivity. Qed.
Example C111_none_ex : extract_rssi ex_float (line "matrix:" ++ line "     1") = Err IndexError.
Proof. vm_compute. reflexivity. Qed.

(** Columns that are aligned to the left are outside of the theorem: the numbers are silently cut. *)
Example C111_left_ex :
  extract_rssi ex_float (line "link matrix:" ++ line "    1" ++ line "--" ++ line "1| -50") = Ok [((1, 1), (-(5))%Q)].
Proof. vm_compute. reflexivity. Qed.

(* ------------------------------------------------------------------ C112 *)

(** REFUTED as a whole (see below).  Restricted version: if both ends of every link are in the floor
    plan and no link is weaker than -104 dBm, links and nodes are inserted behind the image, the links
    below the nodes, each pair once with the width that belongs to its strength; nothing else is
    changed. *)
Theorem C112_drawn_partial : forall float svg log pre post d, divided svg pre post ->
  extract_rssi float log = Ok d -> NoDup (map fst d) ->
  (forall a b s, strength d a b s -> -104 <= s) ->
  (forall a b v, known d a b v -> In a (map fst nodes) /\ In b (map fst nodes)) ->
  exists l ps, drawn d l
    /\ Forall2 (fun (x : (Z * Z) * (Z * Z) * Z) y => In (fst (fst y), fst (fst x)) nodes
         /\ In (snd (fst y), snd (fst x)) nodes /\ snd x = snd y) ps l
    /\ draw float (Some svg) (Some log)
       = (Some (pre ++ svg_links (map (fun x => svg_line (fst (fst x)) (snd (fst x)) (snd x)) ps)
                ++ svg_nodes nodes ++ post), Ok tt).
Proof. exact drawn_links. Qed.
Theorem C112_nodes : forall float svg pre post, divided svg pre post ->
  draw float (Some svg) None = (Some (pre ++ svg_nodes nodes ++ post), Ok tt).
Proof. exact drawn_nodes. Qed.

Definition ex_svg : text := line "<svg>" ++ line "" ++ line " <image href=''/>" ++ line "</svg>".
Example C112_ex_divided : divided ex_svg (line "<svg>" ++ line "" ++ line " <image href=''/>") (line "</svg>").
Proof.
  split; [reflexivity|]. exists [], (line "<svg>"), [line "<svg>"; line ""; line " <image href=''/>"],
    [line ""; line " <image href=''/>"], [line "</svg>"].
  split; [reflexivity|]. split; [reflexivity|]. split.
  { repeat constructor; (eexists; split; [reflexivity|]); intros C; apply In_existsb in C; discriminate. }
  split; [constructor|]. split; [reflexivity|]. split; [apply svg_begins; reflexivity|]. left.
  exists [line "<svg>"; line ""], (line " <image href=''/>"). split; [reflexivity|].
  split; [apply image_begins; reflexivity|]. repeat constructor; rewrite <- image_begins; discriminate.
Qed.
Example C112_drawn_ex : exists rest, draw ex_float (Some ex_svg) (Some ex_log)
  = (Some (line "<svg>" ++ line "" ++ line " <image href=''/>" ++ line "" ++ line "<g style=""stroke:#0000FF"">"
      ++ "009"%char :: line "<line x1=""104"" y1=""110"" x2=""207"" y2=""70"" style=""stroke-width:10""/>"
      ++ "009"%char :: line "<line x1=""207"" y1=""70"" x2=""640"" y2=""180"" style=""stroke-width:7""/>"
      ++ line "</g>" ++ line "" ++ rest), Ok tt).
Proof. eexists. vm_compute. reflexivity. Qed.
Example C112_nodes_ex : exists rest, draw ex_float (Some ex_svg) None
  = (Some (line "<svg>" ++ line "" ++ line " <image href=''/>" ++ line ""
      ++ line "<g style=""fill:#000000;stroke:#000000;stroke-width:1;font:bold 17px sans-serif;text-anchor:middle"">"
      ++ "009"%char :: line "<circle cx=""104"" cy=""110"" r=""15"" style=""fill:#FFFF00""/>" ++ rest), Ok tt).
Proof. eexists. vm_compute. reflexivity. Qed.

(** The nodes of the plan: 1 to 14 without 9, each at a place of its own. *)
Theorem C112_places : (forall n, (1 <= n <= 14 /\ n <> 9) <-> exists p, node_at nodes n = Ok p)
  /\ (forall n m p, node_at nodes n = Ok p -> node_at nodes m = Ok p -> n = m)
  /\ Forall (fun e => 0 < fst (snd e) < 800 /\ 0 < snd (snd e) < 450) nodes.
Proof.
  assert (C : forall n p, node_at nodes n = Ok p -> In (n, p) nodes).
  { unfold nodes. intros n p. cbn [node_at].
    repeat match goal with |- context [n =? ?k] => destruct (Z.eqb_spec n k) as [->|] end;
      intros H; try discriminate H; injection H as <-; cbn; tauto. }
  split; [|split].
  - intros n. split.
    + intros H. assert (D : In n [1;2;3;4;5;6;7;8;10;11;12;13;14]) by (cbn; lia).
      cbn in D. repeat (destruct D as [<-|D]; [eexists; reflexivity|]). destruct D.
    + intros [p H]. apply C in H. cbn in H.
      repeat (destruct H as [H|H]; [injection H as <- _; lia|]). destruct H.
  - intros n m p H1 H2. apply C in H1, H2. cbn in H1, H2.
    repeat (destruct H1 as [H1|H1];
      [injection H1 as <- <-; repeat (destruct H2 as [H2|H2]; [first [injection H2 as <-; reflexivity|discriminate H2]|]);
       destruct H2|]). destruct H1.
  - repeat constructor; cbn; lia.
Qed.
Print Assumptions C112_places.

(** Weak links get a negative width. *)
Theorem C112_weak_refuted : exists float log, draw float (Some (line "<svg>")) (Some log)
  = (Some (line "<svg>" ++ svg_links [svg_line (104, 110) (207, 70) (-(21))] ++ svg_nodes nodes), Ok tt).
Proof.
  exists ex_float, (line "link matrix:" ++ line "     1     2" ++ line "--" ++ line "1|      -200" ++ line "2|").
  vm_compute. reflexivity.
Qed.

(** A link of a node that is not in the plan (like node 9): no links are drawn at all. *)
Theorem C112_unknown_refuted : forall float svg log pre post d a b v, divided svg pre post ->
  extract_rssi float log = Ok d -> NoDup (map fst d) -> known d a b v ->
  ~ In a (map fst nodes) \/ ~ In b (map fst nodes) ->
  draw float (Some svg) (Some log) = (Some (pre ++ svg_nodes nodes ++ post), Err KeyError).
Proof. exact drawn_unknown. Qed.
Example C112_unknown_ex : ~ In 9 (map fst nodes)
  /\ snd (draw ex_float (Some ex_svg) (Some (line "link matrix:" ++ line "     9" ++ line "--" ++ line "9| -50"))) = Err KeyError.
Proof. split; [cbn; intros H; repeat destruct H as [H|H]; try discriminate; exact H|vm_compute; reflexivity]. Qed.

(** A tag that spans several lines is torn apart; without the tag the group gets in front. *)
Theorem C112_tag_refuted :
  draw ex_float (Some (line "<svg" ++ line "width='3'>" ++ line "</svg>")) None
    = (Some (line "<svg" ++ svg_nodes nodes ++ line "width='3'>" ++ line "</svg>"), Ok tt)
  /\ draw ex_float (Some (line "<?xml?><svg>" ++ line "<image/>")) None
    = (Some (svg_nodes nodes ++ line "<?xml?><svg>" ++ line "<image/>"), Ok tt)
  /\ draw ex_float (Some (line "<image/>" ++ line "<svg><image/></svg>")) None
    = (Some (line "<image/>" ++ line "<svg><image/></svg>" ++ svg_nodes nodes), Ok tt).
Proof. repeat split; vm_compute; reflexivity. Qed.

(** Without floor plan nothing is written. *)
Theorem C112_missing : forall float log, draw float None log = (None, Err FileNotFoundError).
Proof. reflexivity. Qed.

Print Assumptions C111_read.
Print Assumptions C111_reported.
Print Assumptions C111_none.
Print Assumptions C112_drawn_partial.
Print Assumptions C112_nodes.
Print Assumptions C112_unknown_refuted.
