(** Properties of waveform filtering and UART decoding (C38 - C40).
    Vocabulary: UartSpec.v; code: UartModel.v. *)
From Verif Require Import PyBase UartModel UartSpec UartProofs UartInitProofs.
From Coq Require Import QArith Qabs.
Open Scope Z_scope.

(** * C38 GPIO waveform filtering is lossless *)

(** The waveform of a pin consists of original events in order, starts with the first one,
    alternates, and replaying it gives the state of the pin (one bit of the recorded value)
    at every original event. *)
Theorem C38_waveform_lossless :
  forall pin ts vs, length ts = length vs -> vs <> [] ->
    let states := map (fun v => if Z.testbit v pin then 1 else 0) vs in
    exists w keep,
      pin_waveform pin ts vs = Ok w /\ length keep = length vs /\
      (* original events, in order *)
      w = select keep (combine ts states) /\
      sub w (combine ts states) /\
      (* including the first one *)
      hd_error w = hd_error (combine ts states) /\
      (* strictly alternating *)
      alternating (map snd w) /\
      (* replaying reproduces every state *)
      (forall k v, nth_error vs k = Some v ->
         replay (combine (select keep (seq 0 (length vs))) (map snd w)) k =
         Some (if Z.testbit v pin then 1 else 0)).
Proof.
  intros pin ts vs Hlen Hne. cbv zeta. unfold pin_waveform.
  change (map (fun v => if Z.testbit v pin then 1 else 0) vs) with (map (pin_state pin) vs).
  set (ps := map (pin_state pin) vs).
  assert (Hl : length ts = length ps) by (unfold ps; rewrite map_length; exact Hlen).
  destruct (redundancy_filter ps) as [f|e] eqn:E;
    [|destruct vs; [contradiction|cbn in E; discriminate]].
  pose proof (filter_length _ _ E) as Hf.
  exists (combine (select f ts) (select f ps)), f. cbn [bind].
  assert (Hs : map snd (combine (select f ts) (select f ps)) = select f ps).
  { apply map_snd_select. exact Hl. }
  split; [reflexivity|]. split; [unfold ps in Hf; rewrite map_length in Hf; exact Hf|].
  rewrite Hs. rewrite nth_error_combine_select by exact Hl.
  split; [reflexivity|]. split; [apply select_sub|].
  destruct (filter_alternating ps f E) as [HA HH]. split; [|split; [exact HA|]].
  - destruct vs as [|v vs']; [contradiction|]. destruct ts as [|t ts']; [discriminate|].
    unfold ps in E. cbn [map] in E. rewrite filter_changes in E. injection E as <-. reflexivity.
  - intros k v Hk. replace (length vs) with (length ps) by (unfold ps; apply map_length).
    apply (filter_replay ps f k _ E). unfold ps. exact (map_nth_error (pin_state pin) k vs Hk).
Qed.
Print Assumptions C38_waveform_lossless.

Example C38_example :
  pin_waveform 1 [10; 20; 30; 40; 50] [2; 3; 1; 0; 2] = Ok [(10, 1); (30, 0); (50, 1)].
Proof. reflexivity. Qed.

(** * C39 UART decoding inverts UART encoding for 7 bit text *)

Theorem C39_uart_decodes :
  forall lead msg evs,
    transmits msg evs -> Forall idle lead -> msg <> [] ->
    Forall (fun x => 1 <= snd (fst x) <= 127) msg ->
    get_symbols 8 (lead ++ evs) = Ok (map (fun x => (fst (fst x), [snd (fst x)])) msg).
Proof. exact uart_text. Qed.
Print Assumptions C39_uart_decodes.

(** The same from the recorded samples: a line with two voltage levels, possibly inverted and
    sampled with repetitions, is prepared by the constructor and decoded.  The inversion is
    either given or detected from the pauses of more than 80 ticks. *)
Theorem C39_recording_decodes :
  forall tick lo hi inv given edges rows lead msg evs,
    (0 < tick)%Q -> (lo < hi)%Q -> recorded edges rows -> (8 <= length rows)%nat ->
    ascending (map fst rows) -> timed tick edges (lead ++ evs) ->
    pauses_high (lead ++ evs) ->
    given = Some inv \/ given = None /\ (inv = false \/ has_pause (lead ++ evs)) ->
    transmits msg evs -> Forall idle lead -> msg <> [] ->
    Forall (fun x => 1 <= snd (fst x) <= 127) msg ->
    bind (uart_init tick given (map (fun r => (fst r, voltage lo hi inv (snd r))) rows))
         (get_symbols 8) = Ok (map (fun x => (fst (fst x), [snd (fst x)])) msg).
Proof. exact uart_recording. Qed.
Print Assumptions C39_recording_decodes.

(** All 256 bytes: what exactly arrives. *)
Theorem C39_uart_all_bytes :
  forall lead msg evs,
    transmits msg evs -> Forall idle lead ->
    Forall (fun x => 0 <= snd (fst x) <= 255) msg ->
    text_of (get_symbols 8 (lead ++ evs)) = concat (map (fun x => heard (snd (fst x)) (snd x)) msg).
Proof. exact uart_any. Qed.
Print Assumptions C39_uart_all_bytes.

(** The restriction to 7 bit is necessary: the decoder mangles "ä" (0xE4). *)
Theorem C39_eight_bit_refuted :
  exists msg evs,
    transmits msg evs /\ Forall (fun x => 0 <= snd (fst x) <= 255) msg /\
    text_of (get_symbols 8 evs) <> map (fun x => snd (fst x)) msg.
Proof.
  exists [(0%Q, 228, 9%Q)],
    [mkEvent 0 0 3; mkEvent 3 1 1; mkEvent 4 0 2; mkEvent 6 1 9].
  split; [|split; [repeat constructor; cbn; lia|vm_compute; discriminate]].
  change ([mkEvent 0 0 3; mkEvent 3 1 1; mkEvent 4 0 2; mkEvent 6 1 9])
    with ([mkEvent 0 0 3; mkEvent 3 1 1; mkEvent 4 0 2; mkEvent 6 1 9] ++ []).
  constructor; [|constructor].
  exists [mkEvent 0 0 3; mkEvent 3 1 1; mkEvent 4 0 2], (mkEvent 6 1 9).
  split; [reflexivity|]. split; [reflexivity|]. split.
  - cbn. repeat constructor; cbn; try reflexivity; discriminate.
  - split; [split; [reflexivity|cbn; discriminate]|]. intros e0 r [= <- <-]. reflexivity.
Qed.
Print Assumptions C39_eight_bit_refuted.

(** "A" with jitter, sent at time 7, followed by a long pause, then "B" with a short one. *)
Example C39_example :
  let evs := [mkEvent 7 0 (14 # 10); mkEvent 8 1 (11 # 10); mkEvent 9 0 (47 # 10); mkEvent 14 1 (95 # 100);
              mkEvent 15 0 1; mkEvent 16 1 500] ++
             [mkEvent 600 0 2; mkEvent 602 1 1; mkEvent 603 0 4; mkEvent 607 1 1; mkEvent 608 0 1;
              mkEvent 609 1 1] ++ [] in
  transmits [(7%Q, 65, 500%Q); (600%Q, 66, 1%Q)] evs /\
  get_symbols 8 evs = Ok [(7%Q, [65]); (600%Q, [66])].
Proof.
  split; [|vm_compute; reflexivity].
  constructor; [|constructor; [|constructor]].
  - exists [mkEvent 7 0 (14 # 10); mkEvent 8 1 (11 # 10); mkEvent 9 0 (47 # 10); mkEvent 14 1 (95 # 100);
            mkEvent 15 0 1], (mkEvent 16 1 500).
    split; [reflexivity|]. split; [reflexivity|]. split.
    + cbn. repeat constructor; cbn; try reflexivity; discriminate.
    + split; [split; [reflexivity|cbn; discriminate]|]. intros e0 r [= <- <-]. reflexivity.
  - exists [mkEvent 600 0 2; mkEvent 602 1 1; mkEvent 603 0 4; mkEvent 607 1 1; mkEvent 608 0 1],
           (mkEvent 609 1 1).
    split; [reflexivity|]. split; [reflexivity|]. split.
    + cbn. repeat constructor; cbn; try reflexivity; discriminate.
    + split; [split; [reflexivity|cbn; discriminate]|]. intros e0 r [= <- <-]. reflexivity.
Qed.

(** "A" on an inverted 5 V line at 4 ticks per second, with repeated samples and a pause of 100
    ticks before it that tells the polarity. *)
Definition demo_edges : list (Q * bool) :=
  [(0%Q, true); (25%Q, false); ((101 # 4)%Q, true); ((102 # 4)%Q, false); ((107 # 4)%Q, true);
   ((108 # 4)%Q, false); ((109 # 4)%Q, true); (60%Q, false)].

Example C39_recording_example :
  let rows := (0%Q, true) :: [(10%Q, true); (20%Q, true)] ++ (25%Q, false) :: tl (tl demo_edges) in
  let evs := [mkEvent 25 0 1; mkEvent (101 # 4) 1 1; mkEvent (102 # 4) 0 5;
              mkEvent (107 # 4) 1 1; mkEvent (108 # 4) 0 1; mkEvent (109 # 4) 1 131] in
  recorded demo_edges rows /\
  timed (1 # 4) demo_edges ([mkEvent 0 1 100] ++ evs) /\
  transmits [(25%Q, 65, 131%Q)] evs /\
  bind (uart_init (1 # 4) None (map (fun r => (fst r, voltage 0 5 true (snd r))) rows))
       (get_symbols 8) = Ok [(25%Q, [65])].
Proof.
  cbv zeta. split; [|split; [|split; [|vm_compute; reflexivity]]].
  - unfold demo_edges. cbn [tl app].
    apply (rec_edge 0%Q true [(10%Q, true); (20%Q, true)]);
      [repeat constructor| |reflexivity].
    do 6 (match goal with |- recorded ((?t, ?v) :: ?e) _ =>
      apply (rec_edge t v []); [constructor| |reflexivity] end).
    apply (rec_edge 60%Q false []); repeat constructor.
  - unfold demo_edges. repeat (constructor; [reflexivity|]). constructor.
  - match goal with |- transmits _ ?l => rewrite <- (app_nil_r l) end.
    constructor; [|constructor].
    exists [mkEvent 25 0 1; mkEvent (101 # 4) 1 1; mkEvent (102 # 4) 0 5;
            mkEvent (107 # 4) 1 1; mkEvent (108 # 4) 0 1], (mkEvent (109 # 4) 1 131).
    split; [reflexivity|]. split; [reflexivity|]. split.
    + cbn. repeat constructor; cbn; try reflexivity; discriminate.
    + split; [split; [reflexivity|cbn; discriminate]|]. intros e0 r [= <- <-]. reflexivity.
Qed.

(** * C40 Line splitting of UART text loses nothing *)

(** False: a character after a lone carriage-return is lost ... *)
Theorem C40_lone_cr_refuted :
  exists syms txt, get_text syms = Ok txt /\ txt <> chars_of syms /\ last (chars_of syms) 0 = LF.
Proof.
  exists [(0%Q, [65]); (1%Q, [CR]); (2%Q, [66]); (3%Q, [LF])], [65; CR; LF].
  split; [reflexivity|]. split; [discriminate|reflexivity].
Qed.
Print Assumptions C40_lone_cr_refuted.

(** ... and so is an unterminated last line; if there is no line end at all, ValueError is raised. *)
Theorem C40_unterminated_refuted :
  exists syms txt, get_text syms = Ok txt /\ txt <> chars_of syms /\ ~ In CR (chars_of syms).
Proof.
  exists [(0%Q, [65]); (1%Q, [LF]); (2%Q, [66])], [65; LF].
  split; [reflexivity|]. split; [discriminate|]. cbn. unfold CR, LF. lia.
Qed.
Print Assumptions C40_unterminated_refuted.

(** What holds: properly terminated lines come back one by one with the time of their first
    character ... *)
Theorem C40_proper_lines_partial :
  forall ls ts, Forall proper_line ls -> ls <> [] -> length ts = length (concat ls) ->
    get_lines (combine ts (map (fun c => [c]) (concat ls))) = Ok (combine (line_starts ts ls) ls).
Proof. exact get_lines_proper. Qed.
Print Assumptions C40_proper_lines_partial.

Theorem C40_proper_text_partial :
  forall ls ts, Forall proper_line ls -> ls <> [] -> length ts = length (concat ls) ->
    get_text (combine ts (map (fun c => [c]) (concat ls))) = Ok (concat ls).
Proof. exact get_text_proper. Qed.
Print Assumptions C40_proper_text_partial.

(** ... and whatever comes back was received, in that order. *)
Theorem C40_nothing_invented_partial :
  forall syms txt, get_text syms = Ok txt -> sub txt (chars_of syms).
Proof. exact get_text_sub. Qed.
Print Assumptions C40_nothing_invented_partial.

Example C40_example :
  Forall proper_line [[72; 105; CR; LF]; [LF]; [33; LF]] /\
  get_text (combine (map inject_Z [0; 1; 2; 3; 4; 5; 6])
                    (map (fun c => [c]) (concat [[72; 105; CR; LF]; [LF]; [33; LF]])))
  = Ok [72; 105; CR; LF; LF; 33; LF].
Proof.
  split; [|vm_compute; reflexivity].
  constructor; [|constructor; [|constructor; [|constructor]]].
  - exists [72; 105]. split; [|right; reflexivity]. repeat constructor; discriminate.
  - exists []. split; [constructor|left; reflexivity].
  - exists [33]. split; [|left; reflexivity]. repeat constructor; discriminate.
Qed.
