(** Model of the GPIO part of shepherd_core/shepherd_core/reader.py and of
    shepherd_core/shepherd_core/decoder_waveform/uart.py.

    Timestamps and durations are exact rationals: every binary64 value is one, and the only
    roundings left out are those of the subtraction and division in [_add_duration]
    (the theorems allow arbitrary jitter, which includes that error).
    Not modelled: loading CSV files, the detectors for baud-rate and half stop-bits. *)
From Verif Require Import PyBase.
From Coq Require Import QArith Qround Qabs.
Open Scope Z_scope.

(** Python's round() of a number to an integer: nearest, ties to even. *)
Definition qround (q : Q) : Z :=
  let f := Qfloor q in
  let r := (q - inject_Z f)%Q in
  if Qle_bool (1 # 2) r then
    if Qle_bool r (1 # 2) then (if Z.even f then f else f + 1) else f + 1
  else f.

(** reader.py:666-675, get_filter_for_redundant_states (static); numpy booleans or integers
    are integers here.  [not data[0]] raises IndexError for empty input. *)
Definition py_not (z : Z) : Z := if z =? 0 then 1 else 0.
Definition redundancy_filter (data : list Z) : res (list bool) :=
  match data with
  | [] => Err IndexError
  | d0 :: _ =>
      Ok (map (fun p => negb (fst p =? snd p)) (combine data (py_not d0 :: removelast data)))
  end.

(** numpy's boolean indexing [a[mask]]. *)
Fixpoint select {A} (mask : list bool) (l : list A) : list A :=
  match mask, l with
  | b :: mask', a :: l' => if b then a :: select mask' l' else select mask' l'
  | _, _ => []
  end.

(** reader.py:691-694, waveform of one pin from the recorded time and value columns. *)
Definition pin_state (pin v : Z) : Z := if Z.testbit v pin then 1 else 0.
Definition pin_waveform (pin : Z) (ts vs : list Z) : res (list (Z * Z)) :=
  let ps := map (pin_state pin) vs in
  let* f := redundancy_filter ps in
  Ok (combine (select f ts) (select f ps)).

(** * The UART decoder *)

(** uart.py:131-143, _filter_redundant_states, on rows (time, 0/1). *)
Definition filter_redundant_states (rows : list (Q * Z)) : res (list (Q * Z)) :=
  let* f := redundancy_filter (map snd rows) in Ok (select f rows).

(** A row of events_sig after [_add_duration]: time, value, duration in baud ticks. *)
Record event := mkEvent { e_time : Q; e_value : Z; e_steps : Q }.

(** uart.py:145-154, _add_duration.  The last row has no duration and is dropped. *)
Fixpoint add_duration (dur_tick : Q) (rows : list (Q * Z)) : list event :=
  match rows with
  | (t0, v0) :: (((t1, _) :: _) as rest) =>
      mkEvent t0 v0 ((t1 - t0) / dur_tick)%Q :: add_duration dur_tick rest
  | _ => []
  end.

(** uart.py:122-129, _convert_analog2digital: two levels, divided by the mean value. *)
Definition qmean (l : list Q) : Q := (fold_right Qplus 0 l / inject_Z (Z.of_nat (length l)))%Q.
Definition digital (invert : bool) (mean v : Q) : Z :=
  if (if invert then Qle_bool v mean else Qle_bool mean v) then 1 else 0.
Definition analog2digital (rows : list (Q * Q)) : list (Q * Z) :=
  let mean := qmean (map snd rows) in
  map (fun r => (fst r, digital false mean (snd r))) rows.

(** The same on events, whose values are 0 or 1 (uart.py:111-113). *)
Definition invert_events (evs : list event) : list event :=
  let mean := qmean (map (fun e => inject_Z (e_value e)) evs) in
  map (fun e => mkEvent (e_time e) (digital true mean (inject_Z (e_value e))) (e_steps e)) evs.

(** uart.py:156-169, detect_inversion.  The mean of no values is NaN, which compares false. *)
Definition pauses (evs : list event) : list event :=
  filter (fun e => negb (Qle_bool (e_steps e) 80)) (firstn 1000 evs).
Definition detect_inversion (evs : list event) : res bool :=
  match pauses evs with
  | [] => Ok false
  | ps =>
    let m := qmean (map (fun e => inject_Z (e_value e)) ps) in
    if negb (Qle_bool m (1 # 10)) && negb (Qle_bool (9 # 10) m) then Err ValueError
    else Ok (negb (Qle_bool (1 # 2) m))
  end.

(** uart.py:83-85: timestamps must not fall. *)
Fixpoint falling (ts : list Q) : bool :=
  match ts with
  | a :: ((b :: _) as r) => negb (Qle_bool a b) || falling r
  | _ => false
  end.

(** uart.py:77-115, the constructor for a given baud-rate (1 / [dur_tick]), parity "no",
    bit order LSB first; the result is events_sig. *)
Definition uart_init (dur_tick : Q) (inversion : option bool) (rows : list (Q * Q))
  : res (list event) :=
  if Nat.ltb (length rows) 8 then Err TypeError
  else if falling (map fst rows) then Err TypeError
  else
    let* rows := filter_redundant_states (analog2digital rows) in
    let evs := add_duration dur_tick rows in
    let* inv := match inversion with Some b => Ok b | None => detect_inversion evs end in
    let evs := if inv then invert_events evs else evs in
    let* _ := detect_inversion evs in
    Ok evs.

(** The local variables of get_symbols, uart.py:211-214.
    [out] is [content]: pairs of start time and character code.
    In the Python code [t_start] may only be None while [pos_df] is. *)
Record dec := mkDec { pos_df : option Z; symbol : Z; t_start : Q; out : list (Q * Z) }.

(** The tolerance 0.1 of uart.py:239, as the exact value of that double. *)
Definition tick_tolerance : Q := 3602879701896397 # 36028797018963968.

(** uart.py:233-248: the part of the loop body with a frame in progress. *)
Definition dec_frame (frame_length : Z) (d : dec) (p : Z) (value : Z) (steps : Q) : dec :=
  let sym :=
    if (1 <=? qround steps) && negb (value =? 0) then
      let limit := frame_length - p - 1 in
      (* min(steps, limit) followed by round() *)
      let chunk := if Qle_bool steps (inject_Z limit) then qround steps else limit in
      let lshift := Z.min p (frame_length - 1) in
      symbol d + Z.shiftl (2 ^ chunk - 1) lshift
    else symbol d in
  let p' := p + qround steps in
  let off_tick := negb (Qle_bool (Qabs (steps - inject_Z (qround steps))) tick_tolerance) in
  if (frame_length <=? p') || (off_tick && negb (value =? 0))
  then mkDec None 0 (t_start d) (out d ++ [(t_start d, sym)])
  else mkDec (Some p') sym (t_start d) (out d).

(** uart.py:216-248, the body of the loop. *)
Definition dec_step (frame_length : Z) (d : dec) (e : event) : dec :=
  if negb (Qle_bool (e_steps e) (inject_Z frame_length)) then
    if negb (e_value e =? 0) then
      match pos_df d with
      | Some _ => mkDec None 0 (t_start d) (out d ++ [(t_start d, symbol d)])
      | None => d
      end
    else d
  else
    match pos_df d with
    | None =>
        if e_value e =? 0
        then dec_frame frame_length (mkDec (Some 0) (symbol d) (e_time e) (out d)) 0
                       (e_value e) (e_steps e - 1)%Q
        else d
    | Some p => dec_frame frame_length d p (e_value e) (e_steps e)
    end.

Definition dec_init : dec := mkDec None 0 0%Q [].

(** Strings are lists of character codes.  The result is stored in a numpy string array, which
    drops trailing NUL characters: a decoded chr(0) becomes the empty string. *)
Definition stored (sym : Z) : list Z := if sym =? 0 then [] else [sym].

(** uart.py:194-253, get_symbols.  numpy.concatenate raises ValueError for an empty list. *)
Definition get_symbols (frame_length : Z) (evs : list event) : res (list (Q * list Z)) :=
  match out (fold_left (dec_step frame_length) evs dec_init) with
  | [] => Err ValueError
  | c => Ok (map (fun p => (fst p, stored (snd p))) c)
  end.

(** The local variables of get_lines, uart.py:264-267.  [l_out] is [content]. *)
Record lines := mkLines { semi_stop : bool; l_start : option Q; line : list Z;
                          l_out : list (option Q * list Z) }.
Definition CR : Z := 13.
Definition LF : Z := 10.
Definition is_char (s : list Z) (ch : Z) : bool :=
  match s with [x] => x =? ch | _ => false end.

(** uart.py:268-283, the body of the loop. *)
Definition line_step (l : lines) (x : Q * list Z) : lines :=
  let (time, sym) := x in
  if is_char sym LF || semi_stop l then
    let ln := if is_char sym LF then line l ++ sym else line l in
    mkLines false None [] (l_out l ++ [(l_start l, ln)])
  else
    mkLines (is_char sym CR || semi_stop l)
            (match l_start l with None => Some time | s => s end)
            (line l ++ sym) (l_out l).

Definition lines_init : lines := mkLines false None [] [].

(** uart.py:255-285, get_lines *)
Definition get_lines (syms : list (Q * list Z)) : res (list (option Q * list Z)) :=
  match l_out (fold_left line_step syms lines_init) with
  | [] => Err ValueError
  | c => Ok c
  end.

(** uart.py:287-296, get_text *)
Definition get_text (syms : list (Q * list Z)) : res (list Z) :=
  let* ls := get_lines syms in Ok (concat (map snd ls)).
