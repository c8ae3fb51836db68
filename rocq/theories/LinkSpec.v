(** A printed link matrix and the drawing made of it, stated without the operations of LinkModel.v
    (only its names for texts are used). *)
From Coq Require Import String Ascii.
From Verif Require Import PyBase LinkModel.
From Coq Require Import QArith Qround.
Open Scope Z_scope.

(* ------------------------------------------------------------------ the printed matrix *)

(** White space of ASCII, including the separators of files and records. *)
Definition white (c : ascii) : Prop := In c (map ascii_of_nat [9; 10; 11; 12; 13; 28; 29; 30; 31; 32]%nat).
Definition all_white (s : text) : Prop := Forall white s.

(** A decimal number. *)
Inductive numeral : text -> Z -> Prop :=
| numeral_digit c k : (c, k) = nth (Z.to_nat k)
    [("0", 0); ("1", 1); ("2", 2); ("3", 3); ("4", 4); ("5", 5); ("6", 6); ("7", 7); ("8", 8); ("9", 9)]%char
    ("0"%char, -1) -> numeral [c] k
| numeral_more ds n c k : numeral ds n -> numeral [c] k -> numeral (ds ++ [c]) (10 * n + k).

(** A field of the header: white space and the number at its end. *)
Definition field (f : text) (n : Z) : Prop :=
  exists b ds, f = b ++ ds /\ b <> [] /\ all_white b /\ numeral ds n.

(** The text [v] stands somewhere in the cell [c], or the cell is empty. *)
Definition trimmed (v : text) : Prop :=
  (exists a r, v = a :: r /\ ~ white a) /\ (exists r z, v = r ++ [z] /\ ~ white z).
Definition cell (c : text) (o : option text) : Prop :=
  match o with
  | None => all_white c
  | Some v => exists a b, c = a ++ v ++ b /\ all_white a /\ all_white b /\ trimmed v
  end.

(** The start of a row: its number and a bar. *)
Definition label (s : text) (n : Z) : Prop :=
  exists a ds b, s = a ++ ds ++ b ++ ["|"%char] /\ all_white a /\ all_white b /\ numeral ds n.

(** The header is some text without digits that does not end in white space, then the fields. *)
Definition heading (h pre : text) (fields : list text) (ns : list Z) : Prop :=
  h = pre ++ concat fields ++ [nl] /\ Forall (fun c => ~ In c (tx "0123456789")) pre
  /\ (pre = [] \/ exists p z, pre = p ++ [z] /\ ~ white z)
  /\ Forall2 field fields ns.

(** Below the header, each cell ends where its field ends and starts behind the field before; the
    first one starts behind the label and below its field, whatever is later.  Blanks at the end may
    be missing. *)
Definition row (pre : text) (fields : list text) (l : text) (n : Z) (os : list (option text)) : Prop :=
  exists lab pad cells body rest,
    l = body ++ [nl] /\ ~ In nl body /\ all_white rest /\ body ++ rest = lab ++ pad ++ concat cells
    /\ label lab n /\ Forall2 cell cells os
    /\ match cells, fields with
       | c :: cs, f :: fs =>
           length (lab ++ pad ++ c) = length (pre ++ f)
           /\ (length pre <= length lab /\ pad = [] \/ length (lab ++ pad) = length pre)%nat
           /\ map (@length ascii) cs = map (@length ascii) fs
       | _, _ => cells = [] /\ fields = []
       end.

(** The line in front of the matrix; upper and lower case may be mixed. *)
Definition upper_of (c : ascii) : ascii :=
  if ((97 <=? nat_of_ascii c) && (nat_of_ascii c <=? 122))%nat then ascii_of_nat (nat_of_ascii c - 32) else c.
Definition title (l : text) : Prop :=
  exists a m b, l = a ++ m ++ b
    /\ Forall2 (fun c k => c = k \/ c = upper_of k) m (tx "link matrix:").

(** The log: lines before, the title, the matrix (with a line below the header), then the end or an
    empty line and whatever follows. *)
Definition a_line (l : text) : Prop := exists s, l = s ++ [nl] /\ ~ In nl s.
Definition matrix_log (log pre : text) (fields : list text) (cols : list Z)
    (rws : list (Z * list (option text))) : Prop :=
  exists before ti h sep ls after,
    log = concat before ++ ti ++ h ++ sep ++ concat ls ++ after
    /\ Forall a_line before /\ Forall (fun l => ~ title l) before
    /\ a_line ti /\ title ti
    /\ ~ In nl (pre ++ concat fields) /\ heading h pre fields cols
    /\ a_line sep /\ ~ all_white sep
    /\ Forall2 (fun l r => row pre fields l (fst r) (snd r)) ls rws
    /\ (after = [] \/ exists bl rest, after = bl ++ [nl] ++ rest /\ all_white bl /\ ~ In nl bl).

(** Row [n], column [m] of the matrix holds the text [v]. *)
Definition entry (cols : list Z) (rws : list (Z * list (option text))) (n m : Z) (v : text) : Prop :=
  exists os j, In (n, os) rws /\ nth_error cols j = Some m /\ nth_error os j = Some (Some v).

(* ------------------------------------------------------------------ the drawing *)

Definition strengths := list ((Z * Z) * Q).

(** The strength of a link: the mean of both directions; 5 dB less than the only known one. *)
Definition known (d : strengths) (a b : Z) (v : Q) : Prop := In ((a, b), v) d.
Definition strength (d : strengths) (a b : Z) (s : Z) : Prop :=
  (a < b /\ exists v w, known d a b v /\ known d b a w /\ s = Qfloor ((v + w) / 2))
  \/ (a <= b /\ exists v, (known d a b v /\ (a = b \/ forall w, ~ known d b a w)
                           \/ known d b a v /\ (a = b \/ forall w, ~ known d a b w))
       /\ s = Qfloor (v - 5)).

(** One unit of width for 5 dB, starting at -104 dBm, from 1 to 10. *)
Definition thickness (s w : Z) : Prop := w = Z.max 1 (Z.min 10 ((s + 104) / 5)).

(** The links to be drawn: each pair once. *)
Definition drawn (d : strengths) (l : list (Z * Z * Z)) : Prop :=
  NoDup (map fst l)
  /\ forall a b w, In (a, b, w) l <-> exists s, strength d a b s /\ thickness s w.

(** A line of the drawing, and the groups. *)
Definition decimal (z : Z) : string := DecimalString.NilZero.string_of_int (Z.to_int z).
Definition svg_line (p q : Z * Z) (w : Z) : text :=
  tx (String "009" ("<line x1=""" ++ decimal (fst p) ++ """ y1=""" ++ decimal (snd p) ++ """ x2=""" ++ decimal (fst q)
      ++ """ y2=""" ++ decimal (snd q) ++ """ style=""stroke-width:" ++ decimal w ++ """/>")) ++ [nl].
Definition svg_links (ls : list text) : text :=
  [nl] ++ tx "<g style=""stroke:#0000FF"">" ++ [nl]
  ++ (match ls with [] => ["009"%char; nl] | _ => concat ls end) ++ tx "</g>" ++ [nl].
Definition svg_node (n : Z) (p : Z * Z) : text :=
  tx (String "009" ("<circle cx=""" ++ decimal (fst p) ++ """ cy=""" ++ decimal (snd p)
      ++ """ r=""15"" style=""fill:#FFFF00""/>")) ++ [nl]
  ++ tx (String "009" ("<text transform=""translate(" ++ decimal (fst p) ++ "," ++ decimal (snd p)
      ++ ")"" dy="".36em"" style=""stroke:none"">" ++ decimal n ++ "</text>")) ++ [nl].
Definition svg_nodes (l : list (Z * (Z * Z))) : text :=
  [nl] ++ tx "<g style=""fill:#000000;stroke:#000000;stroke-width:1;font:bold 17px sans-serif;text-anchor:middle"">"
  ++ [nl] ++ concat (map (fun x => svg_node (fst x) (snd x)) l) ++ tx "</g>" ++ [nl].

(** Line [l] begins with [tag], besides white space. *)
Definition begins (tag l : text) : Prop := exists a b, l = a ++ tag ++ b /\ all_white a.

(** The floor plan is divided behind the first line with an image that is not before the line with
    the drawing; without image behind the latter. *)
Definition divided (svg : text) (pre post : text) : Prop :=
  svg = pre ++ post /\ exists before s between ls rest,
    pre = concat (before ++ between) /\ post = concat rest
    /\ Forall a_line (before ++ between ++ rest)
    /\ Forall (fun l => ~ begins (tx "<svg") l) before
    /\ between = s :: ls /\ begins (tx "<svg") s
    /\ ((exists m i, between = m ++ [i] /\ begins (tx "<image") i /\ Forall (fun l => ~ begins (tx "<image") l) m)
        \/ ls = [] /\ Forall (fun l => ~ begins (tx "<image") l) (s :: rest)).
