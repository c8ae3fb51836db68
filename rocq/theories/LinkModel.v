(** Model of extra/link-visualizer/create_link_svg.py (LV), a script that draws the links of a testbed,
    given as matrix of signal strengths, into the floor plan.

    Texts are lists of ASCII characters, ends of lines are single line feeds (Python translates the
    others).  float() is a parameter; signal strengths are finite and computed exactly.  Messages of
    the logger are left out; AssertionError is represented by RuntimeError. *)
From Coq Require Import String Ascii DecimalString.
From Verif Require Import PyBase.
From Coq Require Import QArith Qround.
Open Scope Z_scope.

Definition text := list ascii.
Definition tx (s : string) : text := list_ascii_of_string s.
Definition nl : ascii := "010"%char.

(* ------------------------------------------------------------------ characters and texts *)

(** str.isspace and \s for ASCII; \d *)
Definition space (c : ascii) : bool :=
  let n := nat_of_ascii c in ((9 <=? n) && (n <=? 13) || (28 <=? n) && (n <=? 32))%nat.
Definition digit (c : ascii) : bool :=
  let n := nat_of_ascii c in ((48 <=? n) && (n <=? 57))%nat.
Definition digit_value (c : ascii) : Z := Z.of_nat (nat_of_ascii c) - 48.
(** str.lower for ASCII *)
Definition lower (c : ascii) : ascii :=
  let n := nat_of_ascii c in if ((65 <=? n) && (n <=? 90))%nat then ascii_of_nat (n + 32) else c.

(** str.isspace *)
Definition is_space (s : text) : bool := match s with [] => false | _ => forallb space s end.
(** str.strip *)
Fixpoint lstrip (s : text) : text :=
  match s with c :: s' => if space c then lstrip s' else s | [] => [] end.
Definition strip (s : text) : text := rev (lstrip (rev (lstrip s))).
(** str.startswith *)
Fixpoint starts (p s : text) : bool :=
  match p, s with
  | [], _ => true
  | a :: p', b :: s' => Ascii.eqb a b && starts p' s'
  | _, [] => false
  end.
(** [p in s] *)
Fixpoint occurs (p s : text) : bool :=
  starts p s || match s with [] => false | _ :: s' => occurs p s' end.
(** file.readlines *)
Fixpoint readlines (s : text) : list text :=
  match s with
  | [] => []
  | c :: s' =>
      if Ascii.eqb c nl then [c] :: readlines s'
      else match readlines s' with [] => [[c]] | l :: ls => (c :: l) :: ls end
  end.
(** s.split("\n") *)
Fixpoint split_nl (s : text) : list text :=
  match s with
  | [] => [[]]
  | c :: s' =>
      if Ascii.eqb c nl then [] :: split_nl s'
      else match split_nl s' with [] => [[c]] | l :: ls => (c :: l) :: ls end
  end.
(** "\n".join *)
Fixpoint join_nl (l : list text) : text :=
  match l with
  | [] => []
  | [x] => x
  | x :: l' => x ++ nl :: join_nl l'
  end.
(** [s[a:b]] for indices that are not negative *)
Definition slice (a b : nat) (s : text) : text := firstn (b - a) (skipn a s).
(** The longest start of a text whose characters satisfy [p], and the rest (greedy repetition). *)
Fixpoint span (p : ascii -> bool) (s : text) : text * text :=
  match s with
  | [] => ([], [])
  | c :: s' => if p c then let (a, b) := span p s' in (c :: a, b) else ([], s)
  end.
(** int() of digits *)
Definition int_of (ds : text) : Z := fold_left (fun a c => 10 * a + digit_value c) ds 0.
(** str() of an integer *)
Definition show (z : Z) : text := tx (NilZero.string_of_int (Z.to_int z)).

(** Dictionaries keep the place of a key that is replaced. *)
Definition key_eqb (a b : Z * Z) : bool := (fst a =? fst b) && (snd a =? snd b).
Fixpoint get {A} (d : list ((Z * Z) * A)) (k : Z * Z) : option A :=
  match d with [] => None | (k', v) :: d' => if key_eqb k k' then Some v else get d' k end.
Fixpoint put {A} (d : list ((Z * Z) * A)) (k : Z * Z) (v : A) : list ((Z * Z) * A) :=
  match d with
  | [] => [(k, v)]
  | (k', v') :: d' => if key_eqb k k' then (k', v) :: d' else (k', v') :: put d' k v
  end.

(* ------------------------------------------------------------------ drawing *)

(** LV:22-37 *)
Definition nodes : list (Z * (Z * Z)) :=
  [(1, (104, 110)); (2, (207, 70)); (3, (326, 31)); (4, (326, 99)); (5, (548, 69)); (6, (669, 85));
   (7, (745, 177)); (8, (620, 363)); (10, (372, 395)); (11, (197, 337)); (12, (486, 375));
   (13, (640, 180)); (14, (662, 225))].
Fixpoint node_at (l : list (Z * (Z * Z))) (n : Z) : res (Z * Z) :=
  match l with [] => Err KeyError | (k, p) :: l' => if n =? k then Ok p else node_at l' n end.

(** LV:42-47 with the default arguments; the condition is about the whole text. *)
Definition indent (s : text) : text :=
  join_nl (map (fun l => if is_space s then l else "009"%char :: l) (split_nl s)).

(** LV:55-61 *)
Definition gen_node (node : Z) (fill : text) : res text :=
  let* (x, y) := node_at nodes node in
  Ok (tx "<circle cx=""" ++ show x ++ tx """ cy=""" ++ show y ++ tx """ r=""15"" style=""fill:" ++ fill
      ++ tx """/>" ++ nl :: tx "<text transform=""translate(" ++ show x ++ tx "," ++ show y
      ++ tx ")"" dy="".36em"" style=""stroke:none"">" ++ show node ++ tx "</text>").
(** LV:66-73 *)
Definition node_group (l : list text) : text :=
  tx "<g style=""fill:#000000;stroke:#000000;stroke-width:1;font:bold 17px sans-serif;text-anchor:middle"">"
  ++ nl :: indent (join_nl l) ++ nl :: tx "</g>" ++ [nl].
(** LV:82-86 *)
Definition gen_line (node1 node2 width : Z) : res text :=
  let* (x1, y1) := node_at nodes node1 in
  let* (x2, y2) := node_at nodes node2 in
  Ok (tx "<line x1=""" ++ show x1 ++ tx """ y1=""" ++ show y1 ++ tx """ x2=""" ++ show x2
      ++ tx """ y2=""" ++ show y2 ++ tx """ style=""stroke-width:" ++ show width ++ tx """/>").
(** LV:91-94 *)
Definition line_group (color : text) (l : list text) : text :=
  tx "<g style=""stroke:" ++ color ++ tx """>" ++ nl :: indent (join_nl l) ++ nl :: tx "</g>" ++ [nl].

(** LV:100-107, the place where the group is inserted. *)
Fixpoint find_line (tag : text) (ls : list text) : option nat :=
  match ls with
  | [] => None
  | l :: ls' => if starts tag (strip l) then Some 0%nat else option_map S (find_line tag ls')
  end.
Definition place (ls : list text) : nat :=
  match find_line (tx "<svg") ls with
  | None => 0
  | Some i =>
      match find_line (tx "<image") (skipn i ls) with None => S i | Some j => S (i + j) end
  end.
(** LV:97-111, the text written. *)
Definition update_svg (group svg : text) : text :=
  let ls := readlines svg in
  let k := place ls in
  concat (firstn k ls ++ group :: skipn k ls).

(** LV:117-125; a mean rounded down is a whole number. *)
Definition line_width (x : Z) : Z :=
  let y := (100 + x + 4) / 5 in
  if negb (x =? 0) && (y =? 0) then 1 else if 10 <? y then 10 else y.
(** LV:128-131 *)
Definition tpl_line_width (t : Q * Q) : Z := line_width (Qfloor ((fst t + snd t) / 2)).

(** LV:134-138 *)
Fixpoint all_nodes (l : list (Z * (Z * Z))) : res (list text) :=
  match l with
  | [] => Ok []
  | (n, _) :: l' =>
      let* t := gen_node n (tx "#FFFF00") in let* ts := all_nodes l' in Ok (t :: ts)
  end.
Definition add_nodes (svg : text) : res text :=
  let* ts := all_nodes nodes in Ok (update_svg (nl :: node_group ts) svg).

(** LV:143-146 *)
Definition add_tpl (tpls : list ((Z * Z) * (Q * Q))) (e : (Z * Z) * Q) : list ((Z * Z) * (Q * Q)) :=
  let '((n1, n2), v) := e in
  let k := (Z.min n1 n2, Z.max n1 n2) in
  let t := match get tpls k with Some t => t | None => (v - 10, v - 10)%Q end in
  put tpls k (if n1 <? n2 then (fst t, v) else (v, snd t)).
(** LV:147-148 *)
Fixpoint all_lines (tpls : list ((Z * Z) * (Q * Q))) : res (list text) :=
  match tpls with
  | [] => Ok []
  | ((n1, n2), t) :: tpls' =>
      let* l := gen_line n1 n2 (tpl_line_width t) in let* ls := all_lines tpls' in Ok (l :: ls)
  end.
(** LV:141-149 *)
Definition add_links (svg : text) (rssi : list ((Z * Z) * Q)) : res text :=
  let* ls := all_lines (fold_left add_tpl rssi []) in
  Ok (update_svg (nl :: line_group (tx "#0000FF") ls) svg).

(* ------------------------------------------------------------------ the matrix *)

(** LV:156-165 *)
Fixpoint matrix_lines (reading : bool) (ls : list text) : list text :=
  match ls with
  | [] => []
  | l :: ls' =>
      if reading then if is_space l then [] else l :: matrix_lines true ls'
      else matrix_lines (occurs (tx "link matrix:") (map lower l)) ls'
  end.

(** LV:168, re.finditer(r"\s+(\d+)", line) in one pass: outside of a match, inside of blanks that
    start at [a], inside of digits with the value [v] behind them.  Spans are those of the match. *)
Inductive scan := Out | Gap (a : nat) | Num (a : nat) (v : Z).
Fixpoint columns (pos : nat) (st : scan) (s : text) : list (Z * (nat * nat)) :=
  let found := match st with Num a v => [(v, (a, pos))] | _ => [] end in
  match s with
  | [] => found
  | c :: s' =>
      if digit c then
        columns (S pos) (match st with
                         | Out => Out
                         | Gap a => Num a (digit_value c)
                         | Num a v => Num a (10 * v + digit_value c)
                         end) s'
      else
        found ++ columns (S pos) (if space c then match st with Gap a => Gap a | _ => Gap pos end
                                  else Out) s'
  end.

(** LV:172-174, re.match(r"^\s*(\d+)\s*\|", line): number and end of the match *)
Definition row_start (s : text) : option (Z * nat) :=
  let (b1, s1) := span space s in
  let (ds, s2) := span digit s1 in
  let (b2, s3) := span space s2 in
  match ds, s3 with
  | _ :: _, c :: _ =>
      if Ascii.eqb c "|" then Some (int_of ds, length b1 + length ds + length b2 + 1)%nat else None
  | _, _ => None
  end.

Section Float.
Variable float : text -> res Q.

(** LV:175-178 *)
Fixpoint row_cells (n1 : Z) (offset : nat) (line : text) (head : list (Z * (nat * nat)))
    (rssi : list ((Z * Z) * Q)) : res (list ((Z * Z) * Q)) :=
  match head with
  | [] => Ok rssi
  | (n2, (a, b)) :: head' =>
      match strip (slice (Nat.max a offset) b line) with
      | [] => row_cells n1 offset line head' rssi
      | v => let* x := float v in row_cells n1 offset line head' (put rssi (n1, n2) x)
      end
  end.
(** LV:171-178; no match is None, which has no items. *)
Fixpoint rows (head : list (Z * (nat * nat))) (ls : list text) (rssi : list ((Z * Z) * Q))
    : res (list ((Z * Z) * Q)) :=
  match ls with
  | [] => Ok rssi
  | l :: ls' =>
      match row_start l with
      | None => Err TypeError
      | Some (n1, offset) => let* r := row_cells n1 offset l head rssi in rows head ls' r
      end
  end.
(** LV:155-179 *)
Definition extract_rssi (log : text) : res (list ((Z * Z) * Q)) :=
  match matrix_lines false (readlines log) with
  | [] => Err IndexError
  | h :: data =>
      let head := columns 0 Out h in
      guard (Z.of_nat (length head) =? Z.of_nat (length (h :: data)) - 2) or RuntimeError;;
      rows head (skipn 2 (h :: data)) []
  end.

(** LV:182-203: the content of the output (None: not written) and the exception; [svg] and [log] are
    the contents of floorplan.svg and trx_data.log, if they exist.  The exceptions in LV:183-186 are
    created but not raised. *)
Definition draw (svg log : option text) : option text * res unit :=
  match svg with
  | None => (None, Err FileNotFoundError)
  | Some svg =>
      match add_nodes svg with
      | Err e => (None, Err e)
      | Ok t1 =>
          match log with
          | None => (Some t1, Ok tt)
          | Some log =>
              match (let* rssi := extract_rssi log in add_links t1 rssi) with
              | Err e => (Some t1, Err e)
              | Ok t2 => (Some t2, Ok tt)
              end
          end
      end
  end.
End Float.
