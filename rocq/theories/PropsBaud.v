(** Properties of UART decoding with detected baud-rate: C98, C99.
    Vocabulary: UartSpec.v, BaudSpec.v; code: UartModel.v, BaudModel.v. *)
From Coq Require Import String QArith Qabs Lia.
From Verif Require Import PyBase UartModel UartSpec PropsUart RepModel BaudModel BaudSpec BaudProofs.
From Coq Require Import List.
Import ListNotations.
Open Scope Z_scope.

(** ** C98: a text is decoded without being told its baud-rate *)

(** What is detected: the rate of the average single bit, no matter how the longer levels are
    distributed, provided single bits are frequent and glitches rare. *)
Theorem C98_detected tick eps lo hi inv edges rows evs given :
  (0 < tick)%Q -> (0 <= eps)%Q -> (eps <= 12 # 100)%Q -> (lo < hi)%Q -> recorded edges rows ->
  timed tick edges evs ->
  Forall (known_length eps) (looked_at evs) ->
  frequent_singles eps (looked_at evs) ->
  let V := map (fun r => (fst r, voltage lo hi inv (snd r))) rows in
  exists b, nearest b (1 / (tick * average (filter (one_bit eps) (looked_at evs)))) /\
    uart_new None given V = uart_new (Some b) given V.
Proof.
  intros H1 H2 H3 H4 H5 H6 H7 H8. eexists. split; [apply FileSiProofs.qround_half|].
  exact (detected tick eps lo hi inv edges rows evs given H1 H2 H3 H4 H5 H6 H7 H8).
Qed.
Print Assumptions C98_detected.

(** The attribute and the durations are those of the rate that is used. *)
Theorem C98_given b given rows : b <> 0 ->
  uart_new (Some b) given rows = let* evs := uart_init (1 / inject_Z b)%Q given rows in Ok (b, evs).
Proof. exact (uart_new_given b given rows). Qed.
Print Assumptions C98_given.

(** The text comes back if the average single bit is less than half a baud off. *)
Theorem C98_decodes_partial B lo hi inv given edges rows lead msg evs eps :
  let tick := (1 / inject_Z B)%Q in
  let avg := average (filter (one_bit eps) (looked_at (lead ++ evs))) in
  0 < B -> (lo < hi)%Q -> recorded edges rows -> (8 <= List.length rows)%nat ->
  ascending (map fst rows) -> timed tick edges (lead ++ evs) ->
  pauses_high (lead ++ evs) ->
  given = Some inv \/ given = None /\ (inv = false \/ has_pause (lead ++ evs)) ->
  transmits msg evs -> Forall idle lead -> msg <> [] ->
  Forall (fun x => 1 <= snd (fst x) <= 127) msg ->
  (0 <= eps)%Q -> (eps <= 12 # 100)%Q ->
  Forall (known_length eps) (looked_at (lead ++ evs)) ->
  frequent_singles eps (looked_at (lead ++ evs)) ->
  (Qabs (inject_Z B / avg - inject_Z B) < 1 # 2)%Q ->
  decode None given (map (fun r => (fst r, voltage lo hi inv (snd r))) rows)
  = Ok (map (fun x => (fst (fst x), [snd (fst x)])) msg).
Proof. exact (decodes B lo hi inv given edges rows lead msg evs eps). Qed.
Print Assumptions C98_decodes_partial.

(** So do the lines of a recorded pin, each with the time of its first character. *)
Theorem C98_lines_partial B inv edges rows lead msg evs eps wf ls :
  let tick := (1 / inject_Z B)%Q in
  let avg := average (filter (one_bit eps) (looked_at (lead ++ evs))) in
  seconds wf = map (fun r => (fst r, voltage 0 1 inv (snd r))) rows ->
  Forall proper_line ls -> concat ls = map (fun x => snd (fst x)) msg ->
  0 < B -> recorded edges rows -> (8 <= List.length rows)%nat ->
  ascending (map fst rows) -> timed tick edges (lead ++ evs) ->
  pauses_high (lead ++ evs) -> inv = false \/ has_pause (lead ++ evs) ->
  transmits msg evs -> Forall idle lead -> msg <> [] ->
  Forall (fun x => 1 <= snd (fst x) <= 127) msg ->
  (0 <= eps)%Q -> (eps <= 12 # 100)%Q ->
  Forall (known_length eps) (looked_at (lead ++ evs)) ->
  frequent_singles eps (looked_at (lead ++ evs)) ->
  (Qabs (inject_Z B / avg - inject_Z B) < 1 # 2)%Q ->
  decode_waveform wf = Ok (combine (line_starts (map (fun x => fst (fst x)) msg) ls) ls).
Proof. exact (lines_decoded B inv edges rows lead msg evs eps wf ls). Qed.
Print Assumptions C98_lines_partial.

(** A line whose levels last less than two seconds never ends the extraction: the text is
    found, or the file is skipped. *)
Theorem C98_total_partial g n w :
  find (fun p => contains "uart" (snd p)) (gp_pins g) = Some n -> 0 <= fst n ->
  List.length (gp_time g) = List.length (gp_value g) -> gp_value g <> [] ->
  pin_waveform (fst n) (gp_time g) (gp_value g) = Ok w -> brisk (map fst w) ->
  exists r, gpio_to_uart decode_waveform (Some g) = Ok r /\
    (forall ls, r = Some ls <-> decode_waveform w = Ok ls).
Proof. exact (uart_total g n w). Qed.
Print Assumptions C98_total_partial.

(** A recording at 1000 baud: the level before, and for each byte its start; 10 ms per frame and
    10 ms idle; a closing edge. *)
Fixpoint frame_levels (b : Z) (k : nat) : list bool :=
  match k with O => [] | S k' => Z.odd b :: frame_levels (b / 2) k' end.
Fixpoint stretch (t : Z) (l : list bool) : list (Q * Q) :=
  match l with
  | [] => []
  | v :: l' => ((t # 1000)%Q, if v then 3%Q else 0%Q) :: stretch (t + 1) l'
  end.
Fixpoint sent (t : Z) (bytes : list Z) : list (Q * Q) :=
  match bytes with
  | [] => [((t # 1000)%Q, 0%Q)]
  | b :: r => stretch t (false :: frame_levels b 8 ++ repeat true 12) ++ sent (t + 21) r
  end.

Example C98_example :
  (let* u := uart_new None None (sent 0 [72; 101; 108; 108; 111]) in Ok (fst u)) = Ok 1000 /\
  text_of (decode None None (sent 0 [72; 101; 108; 108; 111])) = [72; 101; 108; 108; 111].
Proof. split; vm_compute; reflexivity. Qed.

(** "Hi", a line feed; in ns. *)
Example C98_lines_example :
  exists t l, decode_waveform (map (fun r => (Qnum (fst r) * 1000000, Qnum (snd r) / 3)) (sent 0 [72; 105; 10])) = Ok [(Some t, l)]
  /\ (t == 0)%Q /\ l = [72; 105; 10].
Proof. vm_compute. eexists _, _. split; [reflexivity|]. split; reflexivity. Qed.

(** The recording of C39 (its example shows the other hypotheses), with its rate of 4 baud. *)
Example C98_hypotheses :
  let evs := [mkEvent 0 1 100; mkEvent 25 0 1; mkEvent (101 # 4) 1 1; mkEvent (102 # 4) 0 5;
              mkEvent (107 # 4) 1 1; mkEvent (108 # 4) 0 1; mkEvent (109 # 4) 1 131] in
  timed (1 / inject_Z 4) demo_edges evs /\
  Forall (known_length 0) (looked_at evs) /\
  frequent_singles 0 (looked_at evs) /\
  (Qabs (inject_Z 4 / average (filter (one_bit 0) (looked_at evs)) - inject_Z 4) < 1 # 2)%Q /\
  decode None None (map (fun r => (fst r, voltage 0 5 true (snd r))) demo_edges) = Ok [(25%Q, [65])].
Proof.
  cbv zeta. split; [unfold demo_edges; repeat (constructor; [reflexivity|]); constructor|].
  split; [|split; [|split; vm_compute; reflexivity]].
  - unfold known_length, longer. cbn.
    repeat (apply Forall_cons || apply Forall_nil);
      solve [right; left; reflexivity | right; right; discriminate].
  - eexists _, _, _. do 3 (split; [reflexivity|]). vm_compute. lia.
Qed.

(** Unless single bits are rare: "888" has none, and is taken for half the rate. *)
Theorem C98_no_singles_refuted : exists rows text,
  text_of (decode (Some 1000) None rows) = text /\ text = [56; 56; 56] /\
  (let* u := uart_new None None rows in Ok (fst u)) = Ok 500 /\
  text_of (decode None None rows) <> text.
Proof.
  exists (sent 0 [56; 56; 56]), [56; 56; 56]. split; [vm_compute; reflexivity|].
  split; [reflexivity|]. split; [vm_compute; reflexivity|]. vm_compute. discriminate.
Qed.
Print Assumptions C98_no_singles_refuted.

(** A pin that changes every three seconds ends the extraction, also of the recordings behind. *)
Definition blinking : gpio :=
  mkGpio (map (fun k => k * 3000000000) [0; 1; 2; 3; 4; 5; 6; 7; 8; 9])
         [1; 0; 1; 0; 1; 0; 1; 0; 1; 0] [(0, "uart")]%string false.

Theorem C98_slow_refuted : gpio_to_uart decode_waveform (Some blinking) = Err ZeroDivisionError /\
  exists g, gpio_to_uart decode_waveform (Some g) = Ok None /\
    gp_value g = gp_value blinking /\ gp_time g = map (fun t => t / 2) (gp_time blinking).
Proof.
  split; [vm_compute; reflexivity|].
  exists (mkGpio (map (fun t => t / 2) (gp_time blinking)) (gp_value blinking) (gp_pins blinking) false).
  split; [vm_compute; reflexivity|]. split; reflexivity.
Qed.
Print Assumptions C98_slow_refuted.

(** ** C99: decoding leaves the recording alone *)

(** It can be repeated on the same array, with any parameters ... *)
Theorem C99_again baud given rows :
  uart_new baud given (array_after rows) = uart_new baud given rows.
Proof. exact (decoded_again baud given rows). Qed.
Print Assumptions C99_again.

(** ... times stay, and so does everything if the signal is digital. *)
Theorem C99_times rows : map fst (array_after rows) = map fst rows.
Proof. exact (array_levels rows). Qed.
Print Assumptions C99_times.

Theorem C99_digital_partial rows :
  Forall (fun r => snd r = inject_Z 0 \/ snd r = inject_Z 1) rows ->
  Exists (fun r => snd r = inject_Z 1) rows -> array_after rows = rows.
Proof. exact (array_digital rows). Qed.
Print Assumptions C99_digital_partial.

(** An analog signal is overwritten by its levels. *)
Theorem C99_analog_refuted : exists rows,
  text_of (decode None None rows) = [72; 105] /\ map snd (array_after rows) <> map snd rows /\
  map snd (firstn 2 rows) = [0; 0]%Q /\ In 3%Q (map snd rows) /\ ~ In 3%Q (map snd (array_after rows)).
Proof.
  exists (sent 0 [72; 105]). split; [vm_compute; reflexivity|]. split; [vm_compute; discriminate|].
  split; [reflexivity|]. split; [vm_compute; tauto|]. vm_compute.
  intros H. repeat (destruct H as [H|H]; [discriminate H|]). exact H.
Qed.
Print Assumptions C99_analog_refuted.

Example C99_example : text_of (decode None None (array_after (sent 0 [72; 105]))) = [72; 105] /\
  map snd (firstn 5 (array_after (sent 0 [72; 105]))) = map inject_Z [0; 0; 0; 0; 1].
Proof. split; vm_compute; reflexivity. Qed.
