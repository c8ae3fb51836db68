(** Model of the baud-rate detection and of the whole constructor in
    shepherd_core/shepherd_core/decoder_waveform/uart.py, on top of UartModel.v.

    As there, times are exact rationals; the roundings of the subtraction, of numpy's percentile
    and mean and of the final division are left out.
    detect_half_stop (uart.py:182-185) only sets an attribute nobody reads and cannot fail; it is
    left out.  The checks on frame length, parity and bit order are those of the defaults and
    pass. *)
From Coq Require Import QArith Qround Qabs.
From Verif Require Import PyBase UartModel RepModel.
Open Scope Z_scope.

(** uart.py:174, [events[1:, 0] - events[:-1, 0]]. *)
Fixpoint time_steps (ts : list Q) : list Q :=
  match ts with
  | a :: ((b :: _) as r) => (b - a)%Q :: time_steps r
  | _ => []
  end.

(** numpy sorts the values before it takes a percentile. *)
Fixpoint qinsert (x : Q) (l : list Q) : list Q :=
  match l with
  | [] => [x]
  | a :: r => if Qle_bool x a then x :: l else a :: qinsert x r
  end.
Definition qsort (l : list Q) : list Q := fold_right qinsert [] l.

(** [np.percentile(l, 10)], the default method: position (n - 1) / 10 of the sorted values, with
    linear interpolation between the two neighbours.  No values: IndexError (numpy since 1.22;
    earlier releases return NaN, and uart.py:179 then raises ValueError). *)
Definition percentile10 (l : list Q) : res Q :=
  match qsort l with
  | [] => Err IndexError
  | s =>
    let top := (length s - 1)%nat in
    let lo := (top / 10)%nat in
    let a := nth lo s 0%Q in
    let b := nth (Nat.min (lo + 1) top) s 0%Q in
    Ok (a + (b - a) * (Z.of_nat (top mod 10) # 10))%Q
  end.

(** The factors 0.66 and 1.33 of uart.py:177, as the exact values of these doubles. *)
Definition near_lo : Q := 5944751508129055 # 9007199254740992.
Definition near_hi : Q := 748723438050345 # 562949953421312.

(** uart.py:171-180, detect_baud_rate.  The mean of no steps is NaN, which round() refuses. *)
Definition detect_baud_rate (rows : list (Q * Z)) : res Z :=
  let dur_steps := time_steps (map fst (firstn 1000 rows)) in
  let* def_step := percentile10 (filter (fun d => negb (Qle_bool d 0)) dur_steps) in
  match filter (fun d => Qle_bool (near_lo * def_step) d && Qle_bool d (near_hi * def_step))%Q
               dur_steps with
  | [] => Err ValueError
  | near => Ok (qround (1 / qmean near))
  end.

(** uart.py:77-115, the whole constructor: the baud-rate is given or detected.  The result is the
    attributes baud_rate and events_sig. *)
Definition uart_new (baud_rate : option Z) (inversion : option bool) (rows : list (Q * Q))
  : res (Z * list event) :=
  if Nat.ltb (length rows) 8 then Err TypeError
  else if falling (map fst rows) then Err TypeError
  else
    let* rows := filter_redundant_states (analog2digital rows) in
    let* baud := match baud_rate with Some b => Ok b | None => detect_baud_rate rows end in
    if baud =? 0 then Err ZeroDivisionError
    else
      let evs := add_duration (1 / inject_Z baud)%Q rows in
      let* inv := match inversion with Some b => Ok b | None => detect_inversion evs end in
      let evs := if inv then invert_events evs else evs in
      let* _ := detect_inversion evs in
      Ok (baud, evs).

(** What the array handed to the constructor holds afterwards: events_sig is that array
    (uart.py:74), the first _convert_analog2digital writes into it (uart.py:129), and only
    _filter_redundant_states replaces it by a copy (uart.py:136). *)
Definition array_after (rows : list (Q * Q)) : list (Q * Q) :=
  if Nat.ltb (length rows) 8 then rows
  else if falling (map fst rows) then rows
  else map (fun r => (fst r, inject_Z (snd r))) (analog2digital rows).

(** The constructor followed by get_symbols (uart.py:194-253). *)
Definition decode (baud_rate : option Z) (inversion : option bool) (rows : list (Q * Q))
  : res (list (Q * list Z)) :=
  let* u := uart_new baud_rate inversion rows in get_symbols 8 (snd u).

(** reader.py:724-728, what gpio_to_uart hands to the decoder and gets back: times in ns become
    seconds, baud-rate and inversion are detected. *)
Definition seconds (wf : list (Z * Z)) : list (Q * Q) :=
  map (fun r => (inject_Z (fst r) / 1000000000, inject_Z (snd r))%Q) wf.
Definition decode_waveform (wf : list (Z * Z)) : res (list (option Q * list Z)) :=
  let* syms := decode None None (seconds wf) in get_lines syms.
