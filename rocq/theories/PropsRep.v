(** Properties of reports about recordings and of what is extracted from them: C93 - C97.
    Vocabulary: RepSpec.v; code: RepModel.v. *)
From Coq Require Import Permutation String Ascii Lia.
From Verif Require Import PyBase FileModel FileSpec UartModel FwModel StoModel RepModel RepSpec RepProofs.
From Coq Require Import QArith.
Open Scope Z_scope.

(** ** C93: the metadata show everything that is in the file *)

(** What is at a place in the file is at the same place in the metadata. *)
Theorem C93_found yaml minimal t m p u : clear minimal t -> get_metadata yaml minimal t = Ok m ->
  node_at p t = Some u -> exists mu, meta_at p m = Some mu /\ get_metadata yaml minimal u = Ok mu.
Proof. exact (found yaml minimal p t m u). Qed.
Print Assumptions C93_found.

(** Each attribute is there, with its value. *)
Theorem C93_attributes yaml minimal t d k v : clear minimal t ->
  get_metadata yaml minimal t = Ok (MDict d) -> assoc k (attrs t) = Some v ->
  exists m, assoc k d = Some m /\ attr_value yaml v = Ok m.
Proof. intro C. exact (attr_found yaml minimal t d k v (clear_here _ _ C)). Qed.
Print Assumptions C93_attributes.

(** Numbers are shown as they are, text that is no YAML as well. *)
Theorem C93_values yaml minimal t d k : clear minimal t -> get_metadata yaml minimal t = Ok (MDict d) ->
  (forall z, assoc k (attrs t) = Some (AInt z) -> assoc k d = Some (MVal (YInt z))) /\
  (forall q, assoc k (attrs t) = Some (AFloat q) -> assoc k d = Some (MVal (YFloat q))) /\
  (forall q, assoc k (attrs t) = Some (AVec [q]) -> assoc k d = Some (MVal (YFloat q))) /\
  (forall s, yaml s = None -> assoc k (attrs t) = Some (AStr s) -> assoc k d = Some (MVal (YStr s))) /\
  (forall s y, yaml s = Some (Ok y) -> assoc k (attrs t) = Some (AStr s) -> assoc k d = Some (MVal y)).
Proof.
  intros C H.
  assert (G : forall v, assoc k (attrs t) = Some v -> forall m, attr_value yaml v = Ok m -> assoc k d = Some m).
  { intros v K m V. destruct (C93_attributes yaml minimal t d k v C H K) as (m' & E & V'). congruence. }
  split; [| split; [| split; [| split]]].
  - intros z K. now apply (G _ K).
  - intros q K. now apply (G _ K).
  - intros q K. now apply (G _ K).
  - intros s Y K. apply (G _ K). cbn. now rewrite Y.
  - intros s y Y K. apply (G _ K). cbn. now rewrite Y.
Qed.
Print Assumptions C93_values.

(** And nothing else: the names are those of the attributes, the children and the description. *)
Theorem C93_names yaml minimal t d : clear minimal t -> get_metadata yaml minimal t = Ok (MDict d) ->
  Permutation (map fst d) (extra minimal t ++ map fst (attrs t) ++ map fst (children t)).
Proof. intro C. exact (names yaml minimal t d (clear_here _ _ C)). Qed.
Print Assumptions C93_names.

(** Metadata exist for files with attributes that can be shown. *)
Theorem C93_shown yaml minimal t : all_fine yaml minimal t -> exists m, get_metadata yaml minimal t = Ok m.
Proof. exact (shown yaml minimal t). Qed.
Print Assumptions C93_shown.

(** Some texts of PyYAML: a word for false, a day that does not exist, and a tab. *)
Definition yaml0 (s : string) : option (res yval) :=
  if (s =? "no")%string then Some (Ok (YBool false))
  else if (s =? "2022-99-99")%string then Some (Err ValueError)
  else if prefix tab s then None
  else Some (Ok (YStr s)).

Definition recording : tree :=
  Group None [("mode", AStr "harvester"); ("window", AInt 0)]%string
    [("data"%string, Group (Some (Ok (MVal (YStr "short")))) [("hostname", AStr "sheep0")]%string
        [("time"%string, Dataset (Ok (MVal (YStr "uint64"))) [("unit", AStr "ns"); ("gain", AFloat (1 # 1000000000))]%string);
         ("voltage"%string, Dataset (Ok (MVal (YStr "uint32"))) [("gain", AVec [3 # 1000])]%string)])].

Example C93_example :
  clear false recording /\ all_fine yaml0 false recording /\
  exists m, get_metadata yaml0 false recording = Ok m /\
    meta_at ["data"; "voltage"; "gain"]%string m = Some (MVal (YFloat (3 # 1000))) /\
    meta_at ["data"; "_group_info"]%string m = Some (MVal (YStr "short")) /\
    meta_at ["mode"]%string m = Some (MVal (YStr "harvester")).
Proof.
  split; [| split].
  - cbn. repeat split; repeat constructor; cbn; intuition congruence.
  - cbn. repeat split; repeat constructor; cbn; try (intros e E; discriminate E);
      intros; match goal with H : _ = Some _ |- _ => injection H as <- | H : _ = None |- _ => discriminate H | _ => idtac end;
      try discriminate; eexists; reflexivity.
  - eexists. repeat split.
Qed.

(** An attribute with the name of a child is lost. *)
Theorem C93_same_name_refuted : exists t m,
  assoc "data" (attrs t) = Some (AInt 5) /\ get_metadata yaml0 true t = Ok m /\
  meta_at ["data"%string] m = Some (MDict []).
Proof.
  exists (Group None [("data"%string, AInt 5)] [("data"%string, Group None [] [])]). eexists. repeat split.
Qed.
Print Assumptions C93_same_name_refuted.

(** Text is read as YAML: a host called "no" becomes false. *)
Theorem C93_text_refuted : exists t m,
  assoc "hostname" (attrs t) = Some (AStr "no") /\ get_metadata yaml0 true t = Ok m /\
  meta_at ["hostname"%string] m = Some (MVal (YBool false)).
Proof. exists (Group None [("hostname", AStr "no")]%string []). eexists. repeat split. Qed.
Print Assumptions C93_text_refuted.

(** One attribute can prevent the metadata of the whole file: text like a date, or an array. *)
Theorem C93_attribute_refuted :
  get_metadata yaml0 true (Group None [] [("data", Group None [("label", AStr "2022-99-99")] [])])%string = Err ValueError /\
  get_metadata yaml0 true (Group None [] [("data", Group None [("range", AVec [0%Q; 5%Q])] [])])%string = Err TypeError.
Proof. split; reflexivity. Qed.
Print Assumptions C93_attribute_refuted.

(** ** C94: waveforms belong to the pins they are named after *)

(** All pins: each name with the waveform of its own bit (see C38 for what that contains). *)
Theorem C94_all g : usable g -> exists l, gpio_to_waveforms (Some g) None = Ok l /\
  map fst l = map snd (gp_pins g) /\
  (forall n s, In (n, s) (gp_pins g) -> exists w, In (s, w) l /\ pin_waveform n (gp_time g) (gp_value g) = Ok w).
Proof.
  intro U. destruct (all_pins g U) as [E F]. eexists. split; [exact E |]. rewrite map_map. split; [reflexivity |].
  intros n s H. exists (wf_of g n). split.
  - apply in_map_iff. now exists (n, s).
  - rewrite Forall_forall in F. exact (F _ H).
Qed.
Print Assumptions C94_all.

(** One pin by its name, if no earlier name contains it; also if the numbers are quoted. *)
Theorem C94_named g pre n s post w : gp_pins g = pre ++ (n, s) :: post ->
  Forall (fun p => contains s (snd p) = false) pre -> 0 <= n ->
  pin_waveform n (gp_time g) (gp_value g) = Ok w ->
  get_gpio_pin_num (Some g) s = Some n /\ gpio_to_waveforms (Some g) (Some s) = Ok [(s, w)].
Proof.
  intros E F H W. pose proof (own_pin g pre n s post E F) as P. split; [exact P |].
  unfold gpio_to_waveforms. rewrite P. cbn [each_pin waveform].
  destruct (Z.leb_spec 0 n); [| lia]. cbn [bind]. rewrite W. reflexivity.
Qed.
Print Assumptions C94_named.

(** What [contains] means: the name occurs somewhere in the other one. *)
Theorem C94_contains a b : contains a b = true <-> exists x y, b = (x ++ a ++ y)%string.
Proof. exact (contains_spec a b). Qed.
Print Assumptions C94_contains.

(** A recording without pins has no waveforms and no text. *)
Theorem C94_none {L} (decode : list (Z * Z) -> res L) name :
  gpio_to_waveforms None name = Ok [] /\ gpio_to_uart decode None = Ok None.
Proof. split; reflexivity. Qed.
Print Assumptions C94_none.

(** UART is decoded from the waveform of the first pin whose name contains uart. *)
Theorem C94_uart {L} (decode : list (Z * Z) -> res L) g pre n s post w :
  gp_pins g = pre ++ (n, s) :: post -> contains "uart" s = true ->
  Forall (fun p => contains "uart" (snd p) = false) pre -> 0 <= n ->
  pin_waveform n (gp_time g) (gp_value g) = Ok w ->
  gpio_to_uart decode (Some g) = match decode w with
    | Ok l => Ok (Some l)
    | Err e => match e with TypeError | ValueError => Ok None | _ => Err e end end.
Proof. exact (uart_pin decode g pre n s post w). Qed.
Print Assumptions C94_uart.

Definition trace : gpio :=
  mkGpio [10; 20; 30; 40; 50] [2; 3; 1; 0; 2] [(0, "gpio0"); (1, "uart")]%string false.

Example C94_example : usable trace /\
  gpio_to_waveforms (Some trace) None
    = Ok [("gpio0", [(10, 0); (20, 1); (40, 0)]); ("uart", [(10, 1); (30, 0); (50, 1)])]%string /\
  gpio_to_waveforms (Some trace) (Some "uart"%string) = Ok [("uart"%string, [(10, 1); (30, 0); (50, 1)])].
Proof.
  split; [| split; reflexivity]. split; [discriminate |]. split; [repeat constructor; cbn; lia |].
  split; [repeat constructor; cbn; intuition congruence | reflexivity].
Qed.

(** gpio1 finds gpio10, if that one comes first. *)
Theorem C94_substring_refuted : exists g, usable g /\ In (1, "gpio1"%string) (gp_pins g) /\
  get_gpio_pin_num (Some g) "gpio1" = Some 10 /\
  gpio_to_waveforms (Some g) (Some "gpio1"%string) = Ok [("gpio1"%string, [(7, 0)])] /\
  pin_waveform 1 (gp_time g) (gp_value g) = Ok [(7, 1)].
Proof.
  exists (mkGpio [7] [2] [(10, "gpio10"); (1, "gpio1")]%string false).
  split; [| repeat split; now (right; left) || reflexivity].
  split; [discriminate |]. split; [repeat constructor; cbn; lia |].
  split; [repeat constructor; cbn; intuition congruence | reflexivity].
Qed.
Print Assumptions C94_substring_refuted.

(** A name that no pin contains is a TypeError; so is UART of a recording without such a pin. *)
Theorem C94_unknown_refuted :
  (forall g s, Forall (fun p => contains s (snd p) = false) (gp_pins g) ->
     gpio_to_waveforms (Some g) (Some s) = Err TypeError) /\
  (exists g, usable g /\ forall L (decode : list (Z * Z) -> res L), gpio_to_uart decode (Some g) = Err TypeError).
Proof.
  split; [exact missing_pin |]. exists (mkGpio [7] [2] [(0, "gpio0")]%string false).
  split; [| reflexivity].
  split; [discriminate |]. split; [repeat constructor; cbn; lia |].
  split; [repeat constructor; cbn; intuition congruence | reflexivity].
Qed.
Print Assumptions C94_unknown_refuted.

(** Quoted numbers work by name, but not for all pins; an empty trace works in neither way. *)
Theorem C94_all_refuted :
  (exists g w, gpio_to_waveforms (Some g) (Some "uart"%string) = Ok [("uart"%string, w)] /\
     gpio_to_waveforms (Some g) None = Err TypeError) /\
  (exists g, gp_time g = [] /\ gp_value g = [] /\ gpio_to_waveforms (Some g) None = Err IndexError /\
     gpio_to_waveforms (Some g) (Some "uart"%string) = Err IndexError).
Proof.
  split.
  - exists (mkGpio [7] [2] [(1, "uart")]%string true), [(7, 1)]. split; reflexivity.
  - exists (mkGpio [] [] [(1, "uart")]%string false). repeat split.
Qed.
Print Assumptions C94_all_refuted.

(** ** C95: an extracted log has one line for each entry *)

Theorem C95_saved stamp d file name t0 times cols :
  no_slash (strip_slash name) -> find_text d (log_file file name) = None ->
  Forall (fun l => (List.length (t0 :: times) <= List.length l)%nat /\ Forall readable l) cols ->
  exists d', save_log stamp d file name (Some (t0 :: times)) (map Some cols) true
    = (d', Ok (Z.of_nat (List.length (t0 :: times)))) /\
  find_text d' (log_file file name) = Some (all_lines stamp 0 (t0 :: times) cols) /\
  forall q, q <> log_file file name -> find_text d' q = find_text d q.
Proof. exact (log_saved stamp d file name t0 times cols). Qed.
Print Assumptions C95_saved.

(** A log that is there already stays as it is. *)
Theorem C95_kept stamp d file name times cols b s d' r :
  find_text d (log_file file name) = Some s -> save_log stamp d file name times cols b = (d', r) ->
  d' = d /\ (no_slash (strip_slash name) -> r = Ok 0).
Proof. exact (log_kept stamp d file name times cols b s d' r). Qed.
Print Assumptions C95_kept.

(** No other file is touched, however it ends. *)
Theorem C95_only stamp d file name times cols b d' r q :
  save_log stamp d file name times cols b = (d', r) -> q <> log_file file name -> find_text d' q = find_text d q.
Proof. exact (log_only stamp d file name times cols b d' r q). Qed.
Print Assumptions C95_only.

(** Without entries there is no file. *)
Theorem C95_empty stamp d file name cols b :
  save_log stamp d file name None cols b = (d, Ok 0) /\ save_log stamp d file name (Some []) cols b = (d, Ok 0).
Proof. split; reflexivity. Qed.
Print Assumptions C95_empty.

(** The file is called after the group: slashes around its name do not matter. *)
Theorem C95_name a b s file : no_slash s ->
  log_file file (string_of_list_ascii (repeat "/"%char a ++ list_ascii_of_string s ++ repeat "/"%char b))
  = (fst file, (stem (snd file) ++ "." ++ s ++ ".log")%string).
Proof. intros H. unfold log_file. now rewrite (stripped a b s H). Qed.
Print Assumptions C95_name.

Definition stamp0 (t : Z) : string := if t =? 1 then "one" else "two".

Example C95_example : exists d',
  save_log stamp0 [] ("/d", "rec.h5")%string "/sheep" (Some [1; 2])
    [Some [Ok "start"; Ok "stop"]%string; Some [Ok "20"%string; Err OSError]] true = (d', Ok 2) /\
  find_text d' ("/d", "rec.sheep.log")%string
    = Some ("one:" ++ tab ++ "start" ++ tab ++ "20" ++ newline ++
            "two:" ++ tab ++ "stop" ++ tab ++ "[[[ extractor - faulty element ]]]" ++ newline)%string.
Proof. eexists. split; reflexivity. Qed.

(** A subgroup ends the extraction with a TypeError, in the middle of the first line; the rest of
    the log is then never written, because the file is there. *)
Theorem C95_subgroup_refuted : exists d cols d1 s,
  save_log stamp0 d ("/d", "rec.h5")%string "sheep" (Some [1; 2]) cols true = (d1, Err TypeError) /\
  find_text d1 ("/d", "rec.sheep.log")%string = Some s /\ s = ("one:" ++ tab ++ "start")%string /\
  save_log stamp0 d1 ("/d", "rec.h5")%string "sheep" (Some [1; 2])
    [Some [Ok "start"; Ok "stop"]%string] true = (d1, Ok 0).
Proof.
  exists [], [Some [Ok "start"; Ok "stop"]%string; None]. eexists _, _. repeat split.
Qed.
Print Assumptions C95_subgroup_refuted.

(** A group inside another one has no log: its name is no suffix. *)
Theorem C95_nested_refuted stamp d file t times cols b :
  save_log stamp d file "/data/inner" (Some (t :: times)) cols b = (d, Err ValueError).
Proof. reflexivity. Qed.
Print Assumptions C95_nested_refuted.

(** ** C96: warnings are counted completely and shown in order *)

Theorem C96_count levels times msgs min_level limit : 
  List.length levels = List.length times -> List.length msgs = List.length times -> 1 <= limit ->
  let all := at_least min_level (entries times levels msgs) in
  warn_logs (Some levels) times msgs min_level limit true =
  Ok (Z.of_nat (List.length all),
      map (fun e => (level_of (fst (snd e)), fst e, snd (snd e))) (firstn (Z.to_nat limit) all)).
Proof. exact (warned levels times msgs min_level limit). Qed.
Print Assumptions C96_count.

(** Quiet, only the number; and nothing if there is no log. *)
Theorem C96_quiet levels times msgs min_level limit :
  List.length levels = List.length times -> List.length msgs = List.length times ->
  warn_logs (Some levels) times msgs min_level limit false
    = Ok (Z.of_nat (List.length (at_least min_level (entries times levels msgs))), []) /\
  warn_logs None times msgs min_level limit true = Ok (0, []) /\
  warn_logs None times msgs min_level limit false = Ok (0, []).
Proof. exact (warned_quiet levels times msgs min_level limit). Qed.
Print Assumptions C96_quiet.

Example C96_example :
  warn_logs (Some [20; 30; 10; 50; 40]) [1; 2; 3; 4; 5] ["a"; "b"; "c"; "d"; "e"]%string 30 2 true
  = Ok (3, [(Warning, 2, "b"%string); (Error, 4, "d"%string)]).
Proof. reflexivity. Qed.

(** The number alone: each entry of that level or above counts once, and a missing log has none. *)
Theorem C96_errors m : count_errors_in_log None m = 0 /\ count_errors_in_log (Some []) m = 0 /\
  forall x l, count_errors_in_log (Some (x :: l)) m
    = count_errors_in_log (Some l) m + (if x <? m then 0 else 1).
Proof.
  split; [reflexivity|]. split; [reflexivity|]. intros x l. unfold count_errors_in_log. cbn [filter].
  destruct (Z.leb_spec m x), (Z.ltb_spec x m); try lia; cbn [List.length]; lia.
Qed.
Print Assumptions C96_errors.

(** A limit of 0 (or less) shows one message. *)
Theorem C96_limit_refuted : exists limit levels times msgs r,
  limit = 0 /\ warn_logs (Some levels) times msgs 30 limit true = Ok r /\ List.length (snd r) = 1%nat.
Proof. exists 0, [40; 40], [1; 2], ["a"; "b"]%string. eexists. repeat split. Qed.
Print Assumptions C96_limit_refuted.

(** ** C97: extracting from several recordings *)

(** Every pin of every recording gets its file, with its own waveform; files that were there are
    kept, others are not touched. *)
Theorem C97_gpio secs sep files d :
  Forall extractable files -> Forall undotted files -> apart files ->
  exists d', extract_gpio secs sep d files = (d', Ok tt) /\
  (forall file g n s, In (file, Ok (Some g)) files -> In (n, s) (gp_pins g) ->
     exists w, pin_waveform n (gp_time g) (gp_value g) = Ok w /\
     find_text d' (csv_file file s) = kept_or (find_text d (csv_file file s)) (csv secs s sep w)) /\
  (forall q, (forall file g n s, In (file, Ok (Some g)) files -> In (n, s) (gp_pins g) -> q <> csv_file file s) ->
     find_text d' q = find_text d q).
Proof. exact (gpio_extracted secs sep files d). Qed.
Print Assumptions C97_gpio.

Theorem C97_uart stamp decode render files d :
  Forall (fun f => forall e, (let* g := snd f in gpio_to_uart decode g) = Err e -> e = TypeError) files -> apart files ->
  exists d', extract_uart stamp decode render d files = (d', Ok tt) /\
  (forall file g ls, In (file, Ok g) files -> gpio_to_uart decode g = Ok (Some ls) ->
     find_text d' (uart_file file) = kept_or (find_text d (uart_file file))
       (String.concat "" (map (uart_line stamp render) ls))) /\
  (forall q, (forall file g ls, In (file, Ok g) files -> gpio_to_uart decode g = Ok (Some ls) -> q <> uart_file file) ->
     find_text d' q = find_text d q).
Proof. exact (uart_extracted stamp decode render files d). Qed.
Print Assumptions C97_uart.

(** A line of the text, if it has a time. *)
Theorem C97_line stamp render t s :
  uart_line stamp render (Some t, s) = (stamp t ++ ":" ++ tab ++ render s ++ newline)%string.
Proof. reflexivity. Qed.
Print Assumptions C97_line.

Definition two : list (path * res (option gpio)) :=
  [(("/d", "a.h5"), Ok (Some trace)); (("/d", "bad.h5"), Err TypeError); (("/d", "a.b.h5"), Ok (Some trace))]%string.

Example C97_example : Forall extractable two /\ Forall undotted two /\ apart two /\
  exists d', extract_gpio stamp0 ";" [] two = (d', Ok tt) /\
  find_text d' ("/d", "a.b.waveform.uart.csv")%string
  = Some ("timestamp [s],uart" ++ newline ++ "two;1" ++ newline ++ "two;0" ++ newline ++ "two;1" ++ newline)%string /\
  List.length d' = 4%nat.
Proof.
  destruct C94_example as [U _].
  split; [| split; [| split]].
  - assert (P : Forall (fun p : Z * string => no_slash (snd p)) (gp_pins trace))
      by (repeat constructor; cbn; intuition congruence).
    repeat (apply Forall_cons || apply Forall_nil); cbn; try exact (conj U P); reflexivity.
  - repeat constructor; cbn; intuition congruence.
  - unfold apart. cbn. repeat constructor; cbn; intuition congruence.
  - eexists. repeat split.
Qed.

(** A recording with an empty trace, or with a pin like "a/b", ends the command: the recordings
    after it are not extracted. *)
Theorem C97_abort_refuted : exists g1 g2,
  extract_gpio stamp0 ";" [] [(("/d", "a.h5"), Ok (Some g1)); (("/d", "b.h5"), Ok (Some trace))]%string = ([], Err IndexError) /\
  extract_gpio stamp0 ";" [] [(("/d", "a.h5"), Ok (Some g2)); (("/d", "b.h5"), Ok (Some trace))]%string = ([], Err ValueError) /\
  snd (extract_gpio stamp0 ";" [] [(("/d", "b.h5"), Ok (Some trace))]%string) = Ok tt.
Proof.
  exists (mkGpio [] [] [(1, "uart")]%string false), (mkGpio [7] [2] [(1, "a/b")]%string false). repeat split.
Qed.
Print Assumptions C97_abort_refuted.

(** The header separates by a comma, whatever the separator of the lines is. *)
Theorem C97_header_refuted : exists secs sep s w d,
  extract_gpio secs sep [] [(("/d", "a.h5"), Ok (Some (mkGpio [7] [2] [(1, s)] false)))]%string = (d, Ok tt) /\
  sep = ";"%string /\ find_text d ("/d", "a.waveform.p.csv")%string = Some w /\
  w = ("timestamp [s],p" ++ newline ++ "7;1" ++ newline)%string.
Proof. exists (fun _ => "7"%string), ";"%string, "p"%string. eexists _, _. repeat split. Qed.
Print Assumptions C97_header_refuted.

(** Lines without a time are left out of the text. *)
Theorem C97_lines_refuted : exists decode d,
  decode [(10, 1); (30, 0); (50, 1)] = Ok [(None, "lost"); (Some 1, "kept")]%string /\
  extract_uart stamp0 decode (fun s => s) [] [(("/d", "a.h5"), Ok (Some trace))]%string = (d, Ok tt) /\
  find_text d ("/d", "a.uart_from_wf.log")%string = Some ("one:" ++ tab ++ "kept" ++ newline)%string.
Proof. exists (fun _ => Ok [(None, "lost"); (Some 1, "kept")]%string). eexists. repeat split. Qed.
Print Assumptions C97_lines_refuted.

(** Recordings that differ only in the suffix share their files: the second one is skipped. *)
Theorem C97_apart_refuted : exists g d,
  extract_gpio stamp0 ";" [] [(("/d", "a.h5"), Ok (Some trace)); (("/d", "a.hdf5"), Ok (Some g))]%string = (d, Ok tt) /\
  extract_gpio stamp0 ";" [] [(("/d", "a.h5"), Ok (Some trace))]%string = (d, Ok tt) /\
  gp_value g <> gp_value trace.
Proof.
  exists (mkGpio [1] [0] [(0, "gpio0"); (1, "uart")]%string false). eexists. repeat split. discriminate.
Qed.
Print Assumptions C97_apart_refuted.

(** A log whose columns have different lengths is an IndexError, nothing else goes wrong. *)
Theorem C96_short levels times msgs min_level limit show e :
  warn_logs levels times msgs min_level limit show = Err e ->
  e = IndexError /\ exists lv, levels = Some lv /\ (length lv < length times \/ length msgs < length times)%nat.
Proof. exact (warn_short levels times msgs min_level limit show e). Qed.
Print Assumptions C96_short.
Example C96_example_short : warn_logs (Some [40; 40]) [1; 2] ["a"]%string 20 10 true = Err IndexError.
Proof. reflexivity. Qed.
