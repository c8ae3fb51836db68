(** Vocabulary for the UART and GPIO properties: what a transmitter puts on the wire. *)
From Verif Require Import PyBase UartModel.
From Coq Require Import QArith Qabs.
Open Scope Z_scope.

(** The ten bit-times of an 8N1 frame: start bit (low), eight data bits with the least significant
    first, stop bit (high). *)
Definition frame_bits (b : Z) : list bool :=
  false :: map (fun i => Z.testbit b i) [0; 1; 2; 3; 4; 5; 6; 7] ++ [true].

(** Run-length encoding: the signal only shows changes of level. *)
Fixpoint rle (l : list bool) : list (bool * Z) :=
  match l with
  | [] => []
  | a :: r => match rle r with
              | (b, n) :: r' => if Bool.eqb a b then (b, n + 1) :: r' else (a, 1) :: (b, n) :: r'
              | [] => [(a, 1)]
              end
  end.

Definition level (v : bool) : Z := if v then 1 else 0.

(** The recorded event for a run of [n] bit-times; the timing may be off by 10 % of a bit for high
    runs and by anything below half a bit for low runs. *)
Definition in_tolerance (run : bool * Z) (e : event) : Prop :=
  e_value e = level (fst run) /\
  (if fst run then (Qabs (e_steps e - inject_Z (snd run)) <= 1 # 10)%Q
   else (Qabs (e_steps e - inject_Z (snd run)) < 1 # 2)%Q).

(** The last run of a frame (high) lasts at least as long as the frame says, followed by an idle
    gap of any duration. *)
Definition at_least (run : bool * Z) (e : event) : Prop :=
  e_value e = level (fst run) /\ (inject_Z (snd run) - (1 # 10) <= e_steps e)%Q.

(** [sends t b evs d]: the events [evs] are byte [b] sent at time [t]; [d] is the duration of the
    closing high level. *)
Definition sends (t : Q) (b : Z) (evs : list event) (d : Q) : Prop :=
  exists front last,
    evs = front ++ [last] /\ d = e_steps last /\
    Forall2 in_tolerance (removelast (rle (frame_bits b))) front /\
    at_least (List.last (rle (frame_bits b)) (true, 1)) last /\
    (forall e0 r, front = e0 :: r -> e_time e0 = t).

(** A transmission is a sequence of frames (start time, byte, duration of the closing high level). *)
Inductive transmits : list (Q * Z * Q) -> list event -> Prop :=
| tx_none : transmits [] []
| tx_frame : forall t b d evs msg evs',
    sends t b evs d -> transmits msg evs' -> transmits ((t, b, d) :: msg) (evs ++ evs').

(** The line is idle (high) before the first frame. *)
Definition idle (e : event) : Prop := e_value e = 1.

(** Number of low-order bits of [b] below its leading block of ones (bits 7, 6, ... all set). *)
Fixpoint below_ones (b : Z) (k : nat) : Z :=
  match k with
  | O => 0
  | S k' => if Z.testbit b (Z.of_nat k') then below_ones b k' else Z.of_nat k
  end.

(** What is heard of byte [b] followed by a high level of [d] bit-times: bytes up to 127 arrive;
    larger ones lose bit 7, and with a long pause behind all ones adjacent to the stop bit;
    NUL characters never arrive. *)
Definition heard (b : Z) (d : Q) : list Z :=
  let v := if b <? 128 then b
           else if Qle_bool d 8 then b - 128
           else b mod 2 ^ below_ones b 8 in
  if v =? 0 then [] else [v].

(** The text of a decoding result; nothing if the decoder raised an error. *)
Definition text_of (r : res (list (Q * list Z))) : list Z :=
  match r with Ok l => concat (map snd l) | Err _ => [] end.

(** * Recordings *)

(** A recording of the line: the level changes [edges], starting with the first sample, and
    any number of samples in between that repeat the level. *)
Inductive recorded : list (Q * bool) -> list (Q * bool) -> Prop :=
| rec_nil : recorded [] []
| rec_edge t v again edges rows :
    Forall (fun r => snd r = v) again -> recorded edges rows ->
    match edges with [] => True | e :: _ => snd e = negb v end ->
    recorded ((t, v) :: edges) ((t, v) :: again ++ rows).

(** Two voltage levels; [inv]: the high voltage means a low line level. *)
Definition voltage (lo hi : Q) (inv v : bool) : Q := if xorb inv v then hi else lo.

(** The events of a line: each level with its duration in ticks; the last edge has none. *)
Inductive timed (tick : Q) : list (Q * bool) -> list event -> Prop :=
| timed_last t v : timed tick [(t, v)] []
| timed_next t v t' v' d edges evs :
    (t + d * tick == t')%Q -> timed tick ((t', v') :: edges) evs ->
    timed tick ((t, v) :: (t', v') :: edges) (mkEvent t (level v) d :: evs).

(** The line is high during all long pauses the decoder looks at. *)
Definition pauses_high (evs : list event) : Prop :=
  Forall (fun e => (80 < e_steps e)%Q -> e_value e = 1) (firstn 1000 evs).
Definition has_pause (evs : list event) : Prop :=
  Exists (fun e => (80 < e_steps e)%Q) (firstn 1000 evs).

(** Time does not run backwards. *)
Fixpoint ascending (ts : list Q) : Prop :=
  match ts with
  | a :: ((b :: _) as r) => (a <= b)%Q /\ ascending r
  | _ => True
  end.

(** * Lines *)

(** A line of text: no line-feed or carriage-return inside, closed by LF or CR LF. *)
Definition plain (c : Z) : Prop := c <> CR /\ c <> LF.
Definition proper_line (l : list Z) : Prop :=
  exists body, Forall plain body /\ (l = body ++ [LF] \/ l = body ++ [CR; LF]).

(** The time of a line is that of its first character; an empty line has none. *)
Fixpoint line_starts (ts : list Q) (ls : list (list Z)) : list (option Q) :=
  match ls with
  | [] => []
  | l :: ls' =>
    (match l with [c] => None | _ => hd_error ts end) :: line_starts (skipn (length l) ts) ls'
  end.

Definition chars_of (syms : list (Q * list Z)) : list Z := concat (map snd syms).

(** [sub a b]: [a] results from [b] by deleting elements. *)
Inductive sub {A} : list A -> list A -> Prop :=
| sub_nil : sub [] []
| sub_skip : forall x a b, sub a b -> sub a (x :: b)
| sub_keep : forall x a b, sub a b -> sub (x :: a) (x :: b).

(** * Waveforms *)

(** The state at the [k]-th original event, according to a filtered event list: the state of the
    last kept event at or before [k].  Kept events carry their original position. *)
Definition replay (kept : list (nat * Z)) (k : nat) : option Z :=
  fold_left (fun acc e => if Nat.leb (fst e) k then Some (snd e) else acc) kept None.

Fixpoint alternating (l : list Z) : Prop :=
  match l with
  | a :: ((b :: _) as r) => a <> b /\ alternating r
  | _ => True
  end.
