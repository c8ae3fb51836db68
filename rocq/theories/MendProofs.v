(** Proofs about the repair of recordings. *)
From Coq Require Import QArith Qabs Lqa String Ascii.
From Verif Require Import PyBase UartModel UartProofs FileModel FileSpec FileSysProofs FileDataProofs
  MendModel MendSpec.
From RecordUpdate Require Import RecordUpdate.
Open Scope Z_scope.

Notation len := (@List.length Z).

(** Calibration attributes of a dataset, and what a missing one counts as. *)
Definition attrs : Type := (option Q * option Q)%type.
Definition cpair (dflt : pair) (a : attrs) : pair :=
  mkPair (match fst a with Some x => x | None => gain dflt end)
         (match snd a with Some x => x | None => offset dflt end).
Definition fill (dflt : pair) (a : attrs) : attrs := (Some (gain (cpair dflt a)), Some (offset (cpair dflt a))).
Definition dst (a : attrs) (l : list Z) : dset := mkDset (fst a) (snd a) l.

Lemma cpair_fill dflt a : cpair dflt (fill dflt a) = cpair dflt a.
Proof. reflexivity. Qed.
Lemma cal_dst dflt a l : cal_dset None dflt (dst a l) = dst (fill dflt a) l.
Proof. reflexivity. Qed.

(** Files with all parts. *)
Definition fil (m s : option string) (cf gc : option cfg) (wn : option Z) (h : option string)
    (at_ av ai : attrs) (T V I : list Z) : h5 :=
  mkH5 m cf h (Some (mkGrp s wn gc (Some (dst at_ T)) (Some (dst av V)) (Some (dst ai I)))).

Definition dt := c_time series_default.
Definition dv := c_voltage series_default.
Definition di := c_current series_default.
Definition cser (at_ av ai : attrs) : series := mkSeries (cpair dv av) (cpair di ai) (cpair dt at_).

Definition positive (at_ av ai : attrs) : Prop :=
  (0 < gain (cpair dt at_))%Q /\ (0 < gain (cpair dv av))%Q /\ (0 < gain (cpair di ai))%Q
  /\ (0 <= offset (cpair dt at_))%Q.

Lemma positive_fill a b c : positive a b c -> positive (fill dt a) (fill dv b) (fill di c).
Proof. intros H. exact H. Qed.

Lemma pair_from_ok dflt a l : (0 < gain (cpair dflt a))%Q -> pair_from dflt (dst a l) = Ok (cpair dflt a).
Proof.
  intros H. unfold pair_from, dst, cpair in *. cbn [ds_gain ds_offset gain fst snd] in *.
  destruct (Qle_bool _ 0) eqn:E; [|reflexivity]. apply Qle_bool_iff in E. lra.
Qed.

Lemma init_file m s cf gc wn h a b c T V I : positive a b c ->
  exists st, refresh (cser a b c) T stats_init = Ok st
    /\ reader_init (fil m s cf gc wn h a b c T V I) = Ok (mkReader (fil m s cf gc wn h a b c T V I) (cser a b c) st 4000000).
Proof.
  intros (Pt & Pv & Pi & Po).
  destruct (refresh_ok (cser a b c) T stats_init Pt Po) as [st E]. exists st. split; [exact E|].
  unfold reader_init. cbn [opt bind fil f_data g_time g_voltage g_current].
  fold di dv dt.
  rewrite !pair_from_ok by assumption. cbn [bind]. cbn [dst ds_val].
  fold (cser a b c). rewrite E. cbn [bind]. reflexivity.
Qed.

Section Typed.
Variables (m s : string) (cf gc : option cfg).
Notation file := (fil (Some m) (Some s) cf gc).

Variable allowed : list dtype.
Hypothesis (Hm : mode_dtypes m = Some allowed) (Hs : dtype_in (dtype_of_name s) allowed = true).

Lemma configure_file wo wn h a b c T V I :
  configure (mkArgs None None wo None true false) (file wn h a b c T V I)
  = (file (Some (match wo with Some x => x | None => match wn with Some x => x | None => 0 end end)) h
       (fill dt a) (fill dv b) (fill di c) T V I,
     reader_init (file (Some (match wo with Some x => x | None => match wn with Some x => x | None => 0 end end)) h
       (fill dt a) (fill dv b) (fill di c) T V I)).
Proof.
  unfold configure. cbn [a_mode a_datatype a_window a_cal]. unfold step_mode, get_mode.
  cbn [fil f_mode]. rewrite Hm. cbn [opt]. unfold step_datatype. cbn [fil f_data g_datatype].
  unfold get_datatype. cbn [g_datatype]. rewrite Hs.
  unfold step_window. cbn -[reader_init cal_dset].
  destruct wo as [x|], wn as [y|]; cbn -[reader_init cal_dset]; rewrite !cal_dst; reflexivity.
Qed.

(** Closing a writer: what is cut. *)
Definition cut (n : nat) (l : list Z) : list Z :=
  if Z.of_nat n mod 10000 =? 0 then l else resize (Z.to_nat (Z.of_nat n / 10000 * 10000)) l.

Lemma cut_whole n l : (n <= len l)%nat -> Z.of_nat n mod 10000 <> 0 ->
  cut n l = firstn (Z.to_nat (Z.of_nat n / 10000 * 10000)) l.
Proof.
  intros L H. unfold cut. destruct (Z.eqb_spec (Z.of_nat n mod 10000) 0); [contradiction|].
  apply resize_le. pose proof (whole_facts n). cbn zeta in *. lia.
Qed.

Lemma close_file wn h a b c T V I st :
  positive a b c -> st_rate st = 100000 -> default_rate (cpair dt a) T ->
  close (mkReader (file wn h a b c T V I) (cser a b c) st 4000000)
  = Ok (file wn h a b c (cut (len V) T) (cut (len V) V) (cut (len V) I))
  /\ exists w', align (mkReader (file wn h a b c T V I) (cser a b c) st 4000000) = Ok w'.
Proof.
  intros (Pt & Pv & Pi & Po) Hr Hd. unfold close, align. cbn [r_cal r_file r_stats].
  change (f_time (file wn h a b c T V I)) with T. change (f_voltage (file wn h a b c T V I)) with V.
  change (f_current (file wn h a b c T V I)) with I.
  destruct (refresh_ok (cser a b c) T st Pt Po) as [s1 E1]. rewrite E1. cbn [bind].
  assert (R1 : st_rate s1 = 100000) by (exact (refresh_rate (cser a b c) T st s1 Hr Hd E1)).
  assert (Hdm := Z.div_mod (Z.of_nat (len V)) 10000 ltac:(lia)).
  assert (Hmb := Z.mod_pos_bound (Z.of_nat (len V)) 10000 ltac:(lia)).
  unfold samples_per_buffer, samplerate_sps_default, cut. rewrite R1. cbn [Z.eqb Pos.eqb negb].
  destruct (Z.ltb_spec (Z.of_nat (len V) / 10000 * 10000) (Z.of_nat (len V))) as [L|L];
    destruct (Z.eqb_spec (Z.of_nat (len V) mod 10000) 0) as [Z0|Z0]; try lia; cbn [bind r_cal r_file r_stats].
  - split; [|eexists; reflexivity].
    set (n := Z.to_nat (Z.of_nat (len V) / 10000 * 10000)).
    destruct (refresh_ok (cser a b c) (resize n T) s1 Pt Po) as [s2 E2].
    change (bind (refresh (cser a b c) (resize n T) s1)
      (fun _ => Ok (file wn h a b c (resize n T) (resize n V) (resize n I)))
      = Ok (file wn h a b c (resize n T) (resize n V) (resize n I))).
    now rewrite E2.
  - split; [|eexists; reflexivity].
    destruct (refresh_ok (cser a b c) T s1 Pt Po) as [s2 E2].
    change (bind (refresh (cser a b c) T s1) (fun _ => Ok (file wn h a b c T V I)) = Ok (file wn h a b c T V I)).
    now rewrite E2.
Qed.

(** One block with a writer, for the bodies of the script. *)
Lemma modified_file wo wn h a b c T V I body h' T' V' I' :
  positive a b c -> default_rate (cpair dt a) T -> default_rate (cpair dt a) T' ->
  (forall wn' a b c st, body (mkReader (file wn' h a b c T V I) (cser a b c) st 4000000)
                        = mkReader (file wn' h' a b c T' V' I') (cser a b c) st 4000000) ->
  reopened (modified None None wo body (file wn h a b c T V I))
  = (file (Some (match wo with Some x => x | None => match wn with Some x => x | None => 0 end end)) h'
       (fill dt a) (fill dv b) (fill di c) (cut (len V') T') (cut (len V') V') (cut (len V') I'), Ok tt).
Proof.
  intros P D D' B. unfold modified. rewrite configure_file.
  set (w := Some (match wo with Some _ => _ | None => _ end)). destruct (init_file (Some m) (Some s) cf gc w h _ _ _ T V I (positive_fill _ _ _ P)) as (st & R & ->).
  rewrite B.
  assert (Rt : st_rate st = 100000) by (exact (refresh_rate (cser (fill dt a) (fill dv b) (fill di c)) T stats_init st eq_refl D R)).
  destruct (close_file w h' (fill dt a) (fill dv b) (fill di c) T' V' I' st P Rt D') as [-> _].
  unfold reopened. cbn [fst snd bind].
  destruct (init_file (Some m) (Some s) cf gc w h' _ _ _ (cut (len V') T') (cut (len V') V') (cut (len V') I') (positive_fill _ _ _ P))
    as (st' & _ & ->). reflexivity.
Qed.

(* ------------------------------------------------------------------ the columns *)

(** Attributes are kept, missing ones may be filled. *)
Definition from (dflt : pair) (a a' : attrs) : Prop := a' = a \/ a' = fill dflt a.
Lemma from_refl dflt a : from dflt a a.
Proof. now left. Qed.
Lemma from_fill dflt a a' : from dflt a a' -> from dflt a (fill dflt a').
Proof. intros [->| ->]; right; reflexivity. Qed.
Lemma from_pair dflt a a' : from dflt a a' -> cpair dflt a' = cpair dflt a.
Proof. intros [->| ->]; reflexivity. Qed.
Lemma from_positive a b c a' b' c' : from dt a a' -> from dv b b' -> from di c c' ->
  positive a b c -> positive a' b' c'.
Proof.
  intros Ha Hb Hc. unfold positive. rewrite (from_pair _ _ _ Ha), (from_pair _ _ _ Hb), (from_pair _ _ _ Hc).
  exact (fun x => x).
Qed.

Variables (a0 b0 c0 : attrs) (T V I : list Z) (wn0 : option Z).
Hypothesis (P0 : positive a0 b0 c0).
Hypothesis (Steady : forall k, default_rate (cpair dt a0) (firstn k T)).
Hypothesis (Lt : (len V <= len T)%nat) (Li : (len V <= len I)%nat).

(** Files met during the repair: the columns are prefixes. *)
Definition wend (wn : option Z) : Prop := wn = wn0 \/ wn = Some (match wn0 with Some x => x | None => 0 end).
Definition stage (h : option string) (kt kv ki : nat) (f : h5) : Prop :=
  exists wn a b c, f = file wn h a b c (firstn kt T) (firstn kv V) (firstn ki I)
    /\ from dt a0 a /\ from dv b0 b /\ from di c0 c /\ wend wn
    /\ (kt <= len T)%nat /\ (kv <= len V)%nat /\ (ki <= len I)%nat.

Definition W : nat := Z.to_nat (Z.of_nat (len V) / 10000 * 10000).

Lemma wend_step wn : wend wn -> wend (Some (match wn with Some x => x | None => 0 end)).
Proof. intros [->| ->]; right; reflexivity. Qed.

Lemma stage_lens h kt kv ki f : stage h kt kv ki f ->
  len (f_time f) = kt /\ len (f_voltage f) = kv /\ len (f_current f) = ki.
Proof.
  intros (wn & a & b & c & -> & _ & _ & _ & _ & H1 & H2 & H3).
  unfold f_time, f_voltage, f_current. cbn [fil f_data g_time g_voltage g_current values dst ds_val].
  rewrite !firstn_length. lia.
Qed.

Lemma firstn_min k n (l : list Z) : (k <= n)%nat -> firstn k (firstn n l) = firstn k l.
Proof. intros H. rewrite firstn_firstn. f_equal. lia. Qed.

Definition cutn (n k : nat) : nat := if Z.of_nat n mod 10000 =? 0 then k else Z.to_nat (Z.of_nat n / 10000 * 10000).

Lemma cut_firstn n k l : (n <= k)%nat -> (k <= len l)%nat -> cut n (firstn k l) = firstn (cutn n k) l.
Proof.
  intros H L. unfold cut, cutn. destruct (Z.of_nat n mod 10000 =? 0); [reflexivity|].
  pose proof (whole_facts n) as F. cbn zeta in F.
  rewrite resize_le by (rewrite firstn_length; lia). apply firstn_min. lia.
Qed.
Lemma cutn_le n k : (n <= k)%nat -> (cutn n k <= k)%nat.
Proof.
  intros H. unfold cutn. destruct (_ =? 0); [lia|]. pose proof (whole_facts n) as F. cbn zeta in F. lia.
Qed.

(** A writer whose body changes the numbers of elements and the name. *)
Lemma stage_step wo h h' kt kv ki kt' kv' ki' f body :
  stage h kt kv ki f -> (wo = None \/ (wn0 = None /\ wo = Some 0)) ->
  (kt' <= kt)%nat -> (kv' <= kv)%nat -> (ki' <= ki)%nat -> (kv' <= kt')%nat -> (kv' <= ki')%nat ->
  (forall wn' a b c st, body (mkReader (file wn' h a b c (firstn kt T) (firstn kv V) (firstn ki I)) (cser a b c) st 4000000)
     = mkReader (file wn' h' a b c (firstn kt' T) (firstn kv' V) (firstn ki' I)) (cser a b c) st 4000000) ->
  exists f', reopened (modified None None wo body f) = (f', Ok tt)
    /\ stage h' (cutn kv' kt') (cutn kv' kv') (cutn kv' ki') f'
    /\ exists g, f_data f' = Some g /\ g_window g <> None.
Proof.
  intros (wn & a & b & c & -> & Fa & Fb & Fc & Wn & Kt & Kv & Ki) Hwo H1 H2 H3 H4 H5 B.
  assert (Pa := from_positive _ _ _ _ _ _ Fa Fb Fc P0).
  assert (Da : forall k, default_rate (cpair dt a) (firstn k T)) by (intros k; rewrite (from_pair _ _ _ Fa); apply Steady).
  rewrite (modified_file wo wn h a b c _ _ _ body h' (firstn kt' T) (firstn kv' V) (firstn ki' I) Pa (Da _) (Da _) B).
  eexists; split; [reflexivity|].
  assert (L : len (firstn kv' V) = kv') by (rewrite firstn_length; lia). rewrite L.
  split.
  - exists (Some (match wo with Some x => x | None => match wn with Some x => x | None => 0 end end)), (fill dt a), (fill dv b), (fill di c).
    rewrite !cut_firstn by lia. repeat split; try (now apply from_fill); try (etransitivity; [apply cutn_le|]; lia).
    destruct Hwo as [->|[E ->]]; [now apply wend_step|]. right. now rewrite E.
  - eexists. split; [reflexivity|]. cbn. discriminate.
Qed.

Lemma same_file h kt kv ki wn a b c :
  forall st, (fun w : reader => w) (mkReader (file wn h a b c (firstn kt T) (firstn kv V) (firstn ki I)) (cser a b c) st 4000000)
  = mkReader (file wn h a b c (firstn kt T) (firstn kv V) (firstn ki I)) (cser a b c) st 4000000.
Proof. reflexivity. Qed.

Lemma W_facts : (W <= len V)%nat /\ Z.of_nat W mod 10000 = 0 /\ Z.of_nat (len V) - Z.of_nat W < 10000.
Proof. unfold W. apply (whole_facts (len V)). Qed.
Lemma cutn_V k : Z.of_nat (len V) mod 10000 <> 0 -> cutn (len V) k = W.
Proof. intros H. unfold cutn, W. destruct (Z.eqb_spec (Z.of_nat (len V) mod 10000) 0); [contradiction|reflexivity]. Qed.
Lemma cutn_aligned n k : Z.of_nat n mod 10000 = 0 -> cutn n k = k.
Proof. intros H. unfold cutn. now rewrite H. Qed.
Lemma W_aligned : Z.of_nat (len V) mod 10000 = 0 -> W = len V.
Proof. intros H. unfold W. pose proof (Z.div_mod (Z.of_nat (len V)) 10000). lia. Qed.

(** The first steps: sizes and alignment. *)
Lemma sizes_stage h f : stage h (len T) (len V) (len I) f ->
  exists f1, mend_sizes f = (f1, Ok tt)
    /\ (stage h W W W f1 \/ stage h (len V) (len V) (len V) f1).
Proof.
  intros S. destruct (stage_lens _ _ _ _ _ S) as (E1 & E2 & E3).
  unfold mend_sizes. rewrite E2.
  assert (Cur : exists f1, mend_current (len V) f = (f1, Ok tt)
    /\ (stage h W W W f1 \/ stage h (len T) (len V) (len V) f1)).
  { unfold mend_current. rewrite E3. destruct (Nat.eqb_spec (len V) (len I)) as [E|E].
    - exists f. split; [reflexivity|]. right. now rewrite E at 2.
    - rewrite Nat.min_l by lia.
      destruct (stage_step None h h _ _ _ (len T) (len V) (len V) f (resize_current (len V)) S) as (f1 & -> & S1 & _);
        try lia; [now left| |].
      + intros. unfold resize_current. cbn -[resize firstn]. unfold fil. rewrite !resize_le by (rewrite firstn_length; lia).
        now rewrite !firstn_min by lia.
      + exists f1. split; [reflexivity|].
        destruct (Z.eq_dec (Z.of_nat (len V) mod 10000) 0) as [Z0|Z0].
        * rewrite !cutn_aligned in S1 by exact Z0. now right.
        * rewrite !cutn_V in S1 by exact Z0. now left. }
  destruct Cur as (f1 & -> & [S1|S1]); cbn [andthen]; unfold mend_time.
  - destruct (stage_lens _ _ _ _ _ S1) as (F1 & F2 & F3). rewrite F1.
    destruct (Nat.eqb_spec (len V) W) as [E|E]; [exists f1; split; [reflexivity|]; now left|].
    rewrite Nat.min_r by (pose proof W_facts; lia).
    destruct (stage_step None h h _ _ _ W W W f1 (resize_time W) S1) as (f2 & -> & S2 & _); try lia; [now left| |].
    + intros. unfold resize_time. cbn -[resize firstn W]. unfold fil.
      rewrite !resize_le by (rewrite firstn_length; pose proof W_facts; lia). now rewrite !firstn_min by lia.
    + exists f2. split; [reflexivity|]. left. rewrite !cutn_aligned in S2 by apply W_facts. exact S2.
  - destruct (stage_lens _ _ _ _ _ S1) as (F1 & F2 & F3). rewrite F1.
    destruct (Nat.eqb_spec (len V) (len T)) as [E|E].
    + exists f1. split; [reflexivity|]. right. rewrite E at 1. exact S1.
    + rewrite Nat.min_l by lia.
      destruct (stage_step None h h _ _ _ (len V) (len V) (len V) f1 (resize_time (len V)) S1) as (f2 & -> & S2 & _); try lia; [now left| |].
      * intros. unfold resize_time. cbn -[resize firstn]. unfold fil.
        rewrite !resize_le by (rewrite firstn_length; lia). now rewrite !firstn_min by lia.
      * exists f2. split; [reflexivity|].
        destruct (Z.eq_dec (Z.of_nat (len V) mod 10000) 0) as [Z0|Z0].
        -- rewrite !cutn_aligned in S2 by exact Z0. now right.
        -- rewrite !cutn_V in S2 by exact Z0. now left.
Qed.

Lemma alignment_stage h f : stage h W W W f \/ stage h (len V) (len V) (len V) f ->
  exists f1, mend_alignment f = (f1, Ok tt) /\ stage h W W W f1.
Proof.
  intros [S|S]; destruct (stage_lens _ _ _ _ _ S) as (E1 & E2 & E3); unfold mend_alignment; rewrite E2;
    unfold samples_per_buffer.
  - destruct W_facts as (_ & -> & _). exists f. split; [reflexivity|exact S].
  - destruct (Z.eqb_spec (Z.of_nat (len V) mod 10000) 0) as [Z0|Z0].
    + exists f. split; [reflexivity|]. rewrite (W_aligned Z0). exact S.
    + destruct (stage_step None h h _ _ _ (len V) (len V) (len V) f (fun w => w) S) as (f1 & -> & S1 & _);
        try lia; [now left|reflexivity|].
      exists f1. split; [reflexivity|]. rewrite !cutn_V in S1 by exact Z0. exact S1.
Qed.

(** The last steps: window and name. *)
Lemma hostname_stage h f : stage h W W W f -> (exists g, f_data f = Some g /\ g_window g <> None) ->
  exists f1, mend_hostname f = (f1, Ok tt)
    /\ stage (Some (match h with Some x => x | None => "SheepX"%string end)) W W W f1
    /\ exists g, f_data f1 = Some g /\ g_window g <> None.
Proof.
  intros S G. unfold mend_hostname.
  assert (E : f_hostname f = h) by (destruct S as (? & ? & ? & ? & -> & _); reflexivity). rewrite E.
  destruct h as [x|]; [exists f; split; [reflexivity|]; now split|].
  destruct (stage_step None None (Some "SheepX"%string) _ _ _ W W W f (fun w => store_hostname w "SheepX") S)
    as (f1 & -> & S1 & G1); try lia; [now left|reflexivity|].
  rewrite !cutn_aligned in S1 by apply W_facts. exists f1. split; [reflexivity|]. now split.
Qed.

Lemma window_stage h f d : stage h W W W f -> (wn0 = None -> d <> Some ivcurve) ->
  exists f1, mend_window d f = (f1, Ok tt)
    /\ stage (Some (match h with Some x => x | None => "SheepX"%string end)) W W W f1
    /\ exists g, f_data f1 = Some g /\ g_window g <> None.
Proof.
  intros S Hd. unfold mend_window. assert (S0 := S). destruct S as (wn & a & b & c & E & S).
  assert (Ef : exists g, f_data f = Some g /\ g_window g = wn) by (rewrite E; eexists; split; reflexivity).
  destruct Ef as (g & -> & ->). destruct wn as [w|].
  - apply hostname_stage; [exact S0|]. rewrite E. eexists; split; [reflexivity|]. cbn. discriminate.
  - assert (wn0 = None) as Hw.
    { destruct S as (_ & _ & _ & Wn & _). destruct Wn as [<-|C]; [reflexivity|discriminate]. }
    assert (Hgo : exists f1, andthen (reopened (modified None None (Some 0) (fun w => w) f)) mend_hostname = (f1, Ok tt)
      /\ stage (Some (match h with Some x => x | None => "SheepX"%string end)) W W W f1
      /\ exists g, f_data f1 = Some g /\ g_window g <> None).
    { destruct (stage_step (Some 0) h h _ _ _ W W W f (fun w => w) S0) as (f1 & -> & S1 & G1);
        try lia; [right; auto|reflexivity|].
      rewrite !cutn_aligned in S1 by apply W_facts. cbn [andthen]. now apply hostname_stage. }
    destruct d as [[| |]|]; try exact Hgo. now destruct (Hd Hw).
Qed.

Lemma mend_file h : (wn0 = None -> dtype_of_name s <> Some ivcurve) ->
  exists f1, mend (file wn0 h a0 b0 c0 T V I) = (f1, Ok tt)
    /\ stage (Some (match h with Some x => x | None => "SheepX"%string end)) W W W f1
    /\ exists g, f_data f1 = Some g /\ g_window g <> None.
Proof.
  intros Hd. unfold mend.
  destruct (init_file (Some m) (Some s) cf gc wn0 h a0 b0 c0 T V I P0) as (st & _ & ->).
  assert (S : stage h (len T) (len V) (len I) (file wn0 h a0 b0 c0 T V I)).
  { exists wn0, a0, b0, c0. rewrite !firstn_all. repeat split; try apply from_refl; try lia. now left. }
  destruct (sizes_stage h _ S) as (f1 & -> & S1). cbn [andthen].
  destruct (alignment_stage h f1 S1) as (f2 & -> & S2). cbn [andthen].
  unfold mend_mode.
  assert (Em : get_mode f2 = m) by (destruct S2 as (? & ? & ? & ? & -> & _); reflexivity).
  rewrite Em, Hm. unfold mend_datatype.
  assert (Eg : exists g, f_data f2 = Some g /\ get_datatype g = dtype_of_name s)
    by (destruct S2 as (? & ? & ? & ? & -> & _); eexists; split; reflexivity).
  destruct Eg as (g & -> & Eg). rewrite Hm, Eg, Hs. now apply window_stage.
Qed.
End Typed.

(* ------------------------------------------------------------------ mode and datatype *)

Definition keep (w : reader) : reader := w.

Lemma configure_mode m l wo f : mode_dtypes m = Some l ->
  configure (mkArgs (Some m) None wo None true false) f
  = configure (mkArgs None None wo None true false) (f <| f_mode := Some m |>).
Proof. intros H. unfold configure. cbn. unfold get_mode. cbn. rewrite H. reflexivity. Qed.

Lemma configure_datatype m l wo s cf gc wn h a b c T V I : mode_dtypes m = Some l ->
  dtype_in (Some ivsample) l = true ->
  configure (mkArgs None (Some "ivsample"%string) wo None true false) (fil (Some m) s cf gc wn h a b c T V I)
  = configure (mkArgs None None wo None true false) (fil (Some m) (Some "ivsample"%string) cf gc wn h a b c T V I).
Proof.
  intros H Hi. unfold configure. cbn [a_mode a_datatype a_window a_cal]. unfold step_mode, get_mode.
  cbn [fil f_mode]. rewrite H. cbn [opt]. unfold step_datatype.
  cbn -[dtype_in step_window step_cal reader_init]. rewrite Hi. cbn -[step_window step_cal reader_init].
  unfold step_window. cbn -[step_cal reader_init].
  destruct wo, wn; cbn -[step_cal reader_init]; reflexivity.
Qed.

Lemma sized_done f : len (f_time f) = len (f_voltage f) -> len (f_current f) = len (f_voltage f) ->
  mend_sizes f = (f, Ok tt).
Proof.
  intros Ht Hi. unfold mend_sizes, mend_current. rewrite Hi, Nat.eqb_refl. cbn [andthen done].
  unfold mend_time. rewrite Ht, Nat.eqb_refl. reflexivity.
Qed.
Lemma aligned_done f : Z.of_nat (len (f_voltage f)) mod 10000 = 0 -> mend_alignment f = (f, Ok tt).
Proof. intros H. unfold mend_alignment, samples_per_buffer. now rewrite H. Qed.

Section Cured.
Variables (s : string) (cf gc : option cfg) (a0 b0 c0 : attrs) (T V I : list Z) (wn0 : option Z) (h : option string).
Hypothesis (P0 : positive a0 b0 c0).
Hypothesis (Steady : forall k, default_rate (cpair dt a0) (firstn k T)).
Hypothesis (Lt : len T = len V) (Li : len I = len V) (Al : Z.of_nat (len V) mod 10000 = 0).

(** A step that ends like a writer on a file of known type. *)
Lemma cured_stage m l (H : mode_dtypes m = Some l) (Hs : dtype_in (dtype_of_name s) l = true) :
  exists f1,
  reopened (modified None None None keep (fil (Some m) (Some s) cf gc wn0 h a0 b0 c0 T V I)) = (f1, Ok tt)
  /\ stage m s cf gc a0 b0 c0 T V I wn0 h (W V) (W V) (W V) f1
  /\ exists g, f_data f1 = Some g /\ g_window g <> None.
Proof.
  assert (S : stage m s cf gc a0 b0 c0 T V I wn0 h (len T) (len V) (len I)
            (fil (Some m) (Some s) cf gc wn0 h a0 b0 c0 T V I)).
  { exists wn0, a0, b0, c0. rewrite !firstn_all. repeat split; try apply from_refl; try lia. now left. }
  destruct (stage_step m s cf gc l H Hs a0 b0 c0 T V I wn0 P0 Steady ltac:(lia) ltac:(lia) None h h _ _ _ (len T) (len V) (len I) _ keep S)
    as (f1 & E & S1 & G); try lia; [now left|reflexivity|].
  exists f1. split; [exact E|]. rewrite !cutn_aligned in S1 by exact Al.
  assert (WA : W V = len V) by (unfold W; pose proof (Z.div_mod (Z.of_nat (len V)) 10000); lia).
  rewrite WA. rewrite Lt, Li in S1. now split.
Qed.

Lemma finish_stage m l f1 : mode_dtypes m = Some l -> dtype_in (dtype_of_name s) l = true ->
  stage m s cf gc a0 b0 c0 T V I wn0 h (W V) (W V) (W V) f1 ->
  (exists g, f_data f1 = Some g /\ g_window g <> None) ->
  exists f2, (forall d, mend_window d f1 = (f2, Ok tt)) /\ mend_datatype m f1 mend_window = (f2, Ok tt)
    /\ stage m s cf gc a0 b0 c0 T V I wn0 (Some (match h with Some x => x | None => "SheepX"%string end))
         (W V) (W V) (W V) f2
    /\ exists g, f_data f2 = Some g /\ g_window g <> None.
Proof.
  intros H Hs S G.
  destruct (hostname_stage m s cf gc l H Hs a0 b0 c0 T V I wn0 P0 Steady ltac:(lia) ltac:(lia) h f1 S G) as (f2 & E & S2 & G2).
  assert (Ew : forall d, mend_window d f1 = (f2, Ok tt)).
  { intros d. unfold mend_window. destruct G as (g & -> & Gw). destruct (g_window g); [exact E|now destruct Gw]. }
  exists f2. split; [exact Ew|]. split; [|now split].
  unfold mend_datatype.
  assert (Eg : exists g, f_data f1 = Some g /\ get_datatype g = dtype_of_name s)
    by (destruct S as (? & ? & ? & ? & -> & _); eexists; split; reflexivity).
  destruct Eg as (g & -> & Eg). rewrite H, Eg, Hs. apply Ew.
Qed.

Lemma mode_file om m' l : mode_dtypes (match om with Some x => x | None => ""%string end) = None ->
  m' = guess_mode (match om with Some x => x | None => ""%string end) ->
  mode_dtypes m' = Some l -> dtype_in (dtype_of_name s) l = true ->
  exists f1, mend (fil om (Some s) cf gc wn0 h a0 b0 c0 T V I) = (f1, Ok tt)
    /\ stage m' s cf gc a0 b0 c0 T V I wn0 (Some (match h with Some x => x | None => "SheepX"%string end))
         (W V) (W V) (W V) f1
    /\ exists g, f_data f1 = Some g /\ g_window g <> None.
Proof.
  intros Hn -> H Hs. unfold mend.
  destruct (init_file om (Some s) cf gc wn0 h a0 b0 c0 T V I P0) as (st & _ & ->).
  rewrite sized_done by assumption. cbn [andthen]. rewrite aligned_done by exact Al. cbn [andthen].
  unfold mend_mode. unfold get_mode. cbn [fil f_mode]. rewrite Hn. cbv zeta.
  set (m' := guess_mode _) in *. unfold modified. rewrite (configure_mode m' l) by exact H.
  change (mkH5 om cf h (Some (mkGrp (Some s) wn0 gc (Some (dst a0 T)) (Some (dst b0 V)) (Some (dst c0 I)))))
    with (fil om (Some s) cf gc wn0 h a0 b0 c0 T V I).
  change (fil om (Some s) cf gc wn0 h a0 b0 c0 T V I <| f_mode := Some m' |>)
    with (fil (Some m') (Some s) cf gc wn0 h a0 b0 c0 T V I).
  destruct (cured_stage m' l H Hs) as (f1 & E1 & S1 & G1). unfold modified, keep in E1. rewrite E1. cbn [andthen].
  destruct (finish_stage m' l f1 H Hs S1 G1) as (f2 & _ & E2 & S2 & G2).
  exists f2. now split.
Qed.
End Cured.

Lemma datatype_file m l os cf gc a0 b0 c0 T V I wn0 h :
  positive a0 b0 c0 -> (forall k, default_rate (cpair dt a0) (firstn k T)) ->
  len T = len V -> len I = len V -> Z.of_nat (len V) mod 10000 = 0 ->
  mode_dtypes m = Some l ->
  dtype_in (match os with Some s => dtype_of_name s | None => None end) l = false ->
  match os with Some s => dtype_of_name s | None => None end <> Some ivcurve ->
  exists f1, mend (fil (Some m) os cf gc wn0 h a0 b0 c0 T V I) = (f1, Ok tt)
    /\ stage m "ivsample" cf gc a0 b0 c0 T V I wn0 (Some (match h with Some x => x | None => "SheepX"%string end))
         (W V) (W V) (W V) f1
    /\ exists g, f_data f1 = Some g /\ g_window g <> None.
Proof.
  intros P0 Steady Lt Li Al H Hn Hc. unfold mend.
  assert (Hs : dtype_in (dtype_of_name "ivsample") l = true).
  { revert H. unfold mode_dtypes. destruct (m =? "harvester")%string; [intros [= <-]; reflexivity|].
    destruct (m =? "emulator")%string; [intros [= <-]; reflexivity|discriminate]. }
  destruct (init_file (Some m) os cf gc wn0 h a0 b0 c0 T V I P0) as (st & _ & ->).
  rewrite sized_done by assumption. cbn [andthen]. rewrite aligned_done by exact Al. cbn [andthen].
  unfold mend_mode, get_mode. cbn [fil f_mode]. rewrite H.
  unfold mend_datatype. cbn [fil f_data]. unfold get_datatype. cbn [g_datatype]. rewrite H, Hn.
  set (x := match os with Some s => dtype_of_name s | None => None end) in *.
  assert (Ex : match x with Some ivcurve => ivcurve | _ => ivsample end = ivsample)
    by (destruct x as [[| |]|]; try reflexivity; now destruct Hc).
  rewrite Ex. cbn [dtype_name]. cbv zeta.
  change (mkH5 (Some m) cf h (Some (mkGrp os wn0 gc (Some (dst a0 T)) (Some (dst b0 V)) (Some (dst c0 I)))))
    with (fil (Some m) os cf gc wn0 h a0 b0 c0 T V I).
  unfold modified. rewrite (configure_datatype m l) by assumption.
  destruct (cured_stage "ivsample" cf gc a0 b0 c0 T V I wn0 h P0 Steady Lt Li Al m l H Hs) as (f1 & E1 & S1 & G1).
  unfold modified, keep in E1. rewrite E1. cbn [andthen].
  destruct (finish_stage "ivsample" cf gc a0 b0 c0 T V I wn0 h P0 Steady Lt Li m l f1 H Hs S1 G1) as (f2 & E2 & _ & S2 & G2).
  exists f2. split; [apply E2|]. now split.
Qed.

(* ------------------------------------------------------------------ statements *)

Lemma typed_allowed m s : In s ["ivsample"; "ivsamples"]%string /\ In m ["harvester"; "emulator"]%string
    \/ In s ["isc_voc"; "ivcurve"; "ivcurves"; "ivsurface"]%string /\ m = "harvester"%string ->
  exists l, mode_dtypes m = Some l /\ dtype_in (dtype_of_name s) l = true.
Proof.
  intros [[Hs Hm]|[Hs ->]].
  - destruct Hs as [<-|[<-|[]]], Hm as [<-|[<-|[]]]; eexists; split; reflexivity.
  - destruct Hs as [<-|[<-|[<-|[<-|[]]]]]; eexists; split; reflexivity.
Qed.

Lemma positive_of t v i : calibrated t v i ->
  positive (ds_gain t, ds_offset t) (ds_gain v, ds_offset v) (ds_gain i, ds_offset i).
Proof.
  intros (Ht & Hv & Hi & Ho). unfold scaled in *. repeat split; cbn [cpair gain offset fst snd].
  - destruct (ds_gain t); [now apply Ht|reflexivity].
  - destruct (ds_gain v); [now apply Hv|reflexivity].
  - destruct (ds_gain i); [now apply Hi|reflexivity].
  - destruct (ds_offset t); [now apply Ho|]. cbn. lra.
Qed.

Lemma fil_of f g t v i : parts f g t v i ->
  f = fil (f_mode f) (g_datatype g) (f_config f) (g_config g) (g_window g) (f_hostname f)
        (ds_gain t, ds_offset t) (ds_gain v, ds_offset v) (ds_gain i, ds_offset i)
        (ds_val t) (ds_val v) (ds_val i).
Proof.
  intros (E & Et & Ev & Ei). destruct f as [? ? ? fd], g as [? ? ? gt gv gi]. cbn in *. subst fd gt gv gi.
  destruct t, v, i. reflexivity.
Qed.

Lemma from_keeps dflt g o a' : from dflt (g, o) a' -> keeps_attr g (fst a') /\ keeps_attr o (snd a').
Proof.
  intros [->| ->]; split; intros x E; cbn in *; subst; reflexivity.
Qed.

Lemma whole_buffers_W V : whole_buffers (len V) (W V).
Proof.
  exists (Z.to_nat (Z.of_nat (len V) / 10000)). unfold W.
  pose proof (Z.div_mod (Z.of_nat (len V)) 10000 ltac:(lia)).
  pose proof (Z.mod_pos_bound (Z.of_nat (len V)) 10000 ltac:(lia)).
  pose proof (Z.div_pos (Z.of_nat (len V)) 10000 ltac:(lia) ltac:(lia)).
  rewrite Z2Nat.inj_mul by lia. split; [reflexivity|]. lia.
Qed.

Lemma stage_repaired m s f0 f0m f1 g t v i :
  parts f0 g t v i -> f0m = Some m -> g_datatype g = Some s -> f_mode f0 = f0m ->
  stage m s (f_config f0) (g_config g) (ds_gain t, ds_offset t) (ds_gain v, ds_offset v) (ds_gain i, ds_offset i)
    (ds_val t) (ds_val v) (ds_val i) (g_window g)
    (Some (match f_hostname f0 with Some x => x | None => "SheepX"%string end))
    (W (ds_val v)) (W (ds_val v)) (W (ds_val v)) f1 ->
  (exists g, f_data f1 = Some g /\ g_window g <> None) ->
  repaired (W (ds_val v)) f0 f1.
Proof.
  intros P -> Es Em (wn & a & b & c & E & Fa & Fb & Fc & Wn & Kt & Kv & Ki) (g' & Eg & Hw).
  destruct (from_keeps _ _ _ _ Fa), (from_keeps _ _ _ _ Fb), (from_keeps _ _ _ _ Fc).
  exists g, t, v, i. subst f1. injection Eg as <-. cbn in Hw.
  do 4 eexists. split; [exact P|]. split; [repeat split; reflexivity|].
  split; [apply whole_buffers_W|]. unfold cut_column, dst. cbn [ds_val ds_gain ds_offset].
  split; [now repeat split|]. split; [now repeat split|]. split; [now repeat split|].
  cbn [fil f_mode f_config f_hostname g_datatype g_config g_window].
  repeat split; try congruence.
  destruct Wn as [E|E]; [|now rewrite E]. subst wn. destruct (g_window g); [reflexivity|now destruct Hw].
Qed.

Lemma mend_curable f : curable f -> exists n f', mend f = (f', Ok tt) /\ repaired n f f'.
Proof.
  intros (g & t & v & i & P & C & (m & s & Em & Es & Ty) & St & Lt & Li & Hw).
  destruct (typed_allowed m s Ty) as (l & Hm & Hs).
  assert (E := fil_of f g t v i P). rewrite Em, Es in E.
  destruct (mend_file m s (f_config f) (g_config g) l Hm Hs (ds_gain t, ds_offset t) (ds_gain v, ds_offset v)
    (ds_gain i, ds_offset i) (ds_val t) (ds_val v) (ds_val i) (g_window g) (positive_of t v i C) St Lt Li (f_hostname f))
    as (f1 & E1 & S1 & G1).
  { intros N D. apply (Hw N). rewrite Es. clear -D. unfold dtype_of_name in D.
    destruct ((s =? "ivsample")%string || (s =? "ivsamples")%string); [discriminate|].
    destruct ((s =? "ivcurve")%string || (s =? "ivcurves")%string || (s =? "ivsurface")%string) eqn:X;
      [|destruct (s =? "isc_voc")%string; discriminate].
    apply orb_true_iff in X. destruct X as [X|X]; [apply orb_true_iff in X; destruct X as [X|X]|];
      apply String.eqb_eq in X; subst s; cbn; tauto. }
  rewrite <- E in E1. exists (W (ds_val v)), f1. split; [exact E1|].
  apply (stage_repaired m s f (Some m) f1 g t v i); auto.
Qed.

Lemma within_inside a b : within a b = true <-> inside a b.
Proof.
  assert (Pre : forall a b, prefix a b = true <-> exists y, b = (a ++ y)%string).
  { clear. induction a as [|x a IH]; intros [|y b].
    - cbn. split; [intros _; exists EmptyString; reflexivity|reflexivity].
    - cbn. split; [intros _; eexists; reflexivity|reflexivity].
    - cbn. split; [discriminate|intros (y & E); discriminate].
    - cbn [prefix append]. destruct (ascii_dec x y) as [->|N].
      + rewrite IH. split; intros (z & E); exists z; [now rewrite E|now injection E].
      + split; [discriminate|]. intros (z & E). injection E as E1 _. now destruct N. }
  induction b as [|y b IH]; cbn [within].
  - rewrite orb_false_r, Pre. split.
    + intros (y & E). exists EmptyString, y. exact E.
    + intros (x & y & E). destruct x as [|]; [exists y; exact E|discriminate].
  - rewrite orb_true_iff, Pre, IH. split.
    + intros [(z & E)|(x & z & E)]; [exists EmptyString, z; exact E|].
      exists (String y x), z. cbn. now rewrite E.
    + intros (x & z & E). destruct x as [|c x]; [left; exists z; exact E|].
      right. injection E as _ E. now exists x, z.
Qed.
Lemma not_within a b : within a b = false <-> ~ inside a b.
Proof. rewrite <- within_inside. destruct (within a b); intuition congruence. Qed.

(** Unknown mode. *)
Lemma mend_unknown_mode f g t v i m m' :
  parts f g t v i -> calibrated t v i -> steady t -> same_sizes f ->
  (exists k, length (ds_val v) = k * Z.to_nat 10000)%nat ->
  m = (match f_mode f with Some x => x | None => ""%string end) ->
  ~ In m ["harvester"; "emulator"]%string ->
  ((inside "har" m -> m' = "harvester"%string)
   /\ (~ inside "har" m -> inside "emu" m -> m' = "emulator"%string)
   /\ (~ inside "har" m -> ~ inside "emu" m -> m' = "harvester"%string)) ->
  typed (f <| f_mode := Some m' |>) g ->
  exists n f', mend f = (f', Ok tt) /\ repaired n (f <| f_mode := Some m' |>) f'.
Proof.
  intros P C St (Lt & Li) (k & Al) -> Hn (G1 & G2 & G3) (m0 & s & Em & Es & Ty).
  cbn in Em. injection Em as <-.
  destruct (typed_allowed m' s Ty) as (l & Hm & Hs).
  assert (E := fil_of f g t v i P). rewrite Es in E.
  rewrite E in Lt, Li. cbn in Lt, Li.
  set (m := match f_mode f with Some x => x | None => ""%string end) in *.
  assert (Un : mode_dtypes m = None).
  { unfold mode_dtypes. destruct (m =? "harvester")%string eqn:X; [apply String.eqb_eq in X; destruct Hn; cbn; auto|].
    destruct (m =? "emulator")%string eqn:Y; [apply String.eqb_eq in Y; destruct Hn; cbn; auto|reflexivity]. }
  assert (Gm : m' = guess_mode m).
  { unfold guess_mode. destruct (within "har" m) eqn:X.
    - apply within_inside in X. now apply G1.
    - apply not_within in X. destruct (within "emu" m) eqn:Y;
        [apply within_inside in Y; now apply G2|apply not_within in Y; now apply G3]. }
  destruct (mode_file s (f_config f) (g_config g) (ds_gain t, ds_offset t) (ds_gain v, ds_offset v)
    (ds_gain i, ds_offset i) (ds_val t) (ds_val v) (ds_val i) (g_window g) (f_hostname f) (positive_of t v i C) St
    Lt Li) with (om := f_mode f) (m' := m') (l := l) as (f1 & E1 & S1 & W1); try assumption.
  { rewrite Al, Nat2Z.inj_mul, Z2Nat.id by lia. apply Z_mod_mult. }
  rewrite <- E in E1. exists (W (ds_val v)), f1. split; [exact E1|].
  apply (stage_repaired m' s (f <| f_mode := Some m' |>) (Some m') f1 g t v i); auto.
Qed.

(** Unknown datatype. *)
Lemma mend_unknown_datatype f g t v i m :
  parts f g t v i -> calibrated t v i -> steady t -> same_sizes f ->
  (exists k, length (ds_val v) = k * Z.to_nat 10000)%nat ->
  f_mode f = Some m -> In m ["harvester"; "emulator"]%string ->
  ~ In (g_datatype g) (map (@Some string) ["ivsample"; "ivsamples"; "ivcurve"; "ivcurves"; "ivsurface"; "isc_voc"]%string) ->
  exists n f', mend f = (f', Ok tt)
    /\ repaired n (f <| f_data := Some (g <| g_datatype := Some "ivsample"%string |>) |>) f'.
Proof.
  intros P C St (Lt & Li) (k & Al) Em Hm Hn.
  assert (E := fil_of f g t v i P). rewrite Em in E. rewrite E in Lt, Li. cbn in Lt, Li.
  assert (Hl : exists l, mode_dtypes m = Some l) by (destruct Hm as [<-|[<-|[]]]; eexists; reflexivity).
  destruct Hl as (l & Hl).
  assert (Un : match g_datatype g with Some s => dtype_of_name s | None => None end = None).
  { destruct (g_datatype g) as [s|]; [|reflexivity]. unfold dtype_of_name. cbn in Hn.
    repeat match goal with |- context [(s =? ?x)%string] =>
      destruct (String.eqb_spec s x) as [->|]; [exfalso; apply Hn; tauto|] end. reflexivity. }
  destruct (datatype_file m l (g_datatype g) (f_config f) (g_config g) (ds_gain t, ds_offset t) (ds_gain v, ds_offset v)
    (ds_gain i, ds_offset i) (ds_val t) (ds_val v) (ds_val i) (g_window g) (f_hostname f) (positive_of t v i C) St
    Lt Li) as (f1 & E1 & S1 & W1); try assumption.
  { rewrite Al, Nat2Z.inj_mul, Z2Nat.id by lia. apply Z_mod_mult. }
  { rewrite Un. reflexivity. }
  { rewrite Un. discriminate. }
  rewrite <- E in E1. exists (W (ds_val v)), f1. split; [exact E1|].
  eapply (stage_repaired m "ivsample" (f <| f_data := Some (g <| g_datatype := Some "ivsample"%string |>) |>)
    (Some m) f1 (g <| g_datatype := Some "ivsample"%string |>) t v i); eauto.
  destruct P as (_ & ? & ? & ?). repeat split; assumption.
Qed.

(** Nothing to repair. *)
Lemma mend_fine f : well_structured f -> same_sizes f ->
  (exists k, length (f_voltage f) = k * Z.to_nat 10000)%nat -> f_hostname f <> None ->
  (exists r, reader_init f = Ok r) -> mend f = (f, Ok tt).
Proof.
  intros (g & m & s & w & Eg & Em & Es & Ew & _ & _ & _ & Ty) (Lt & Li) (k & Al) Hh (r & Er).
  unfold mend. rewrite Er, sized_done by assumption. cbn [andthen].
  rewrite aligned_done by (rewrite Al, Nat2Z.inj_mul, Z2Nat.id by lia; apply Z_mod_mult).
  cbn [andthen]. destruct (typed_allowed m s) as (l & Hm & Hs).
  { destruct Ty as [T|[[-> ->]|(T & -> & _)]]; [now left|right; cbn; tauto|right; cbn in *; tauto]. }
  unfold mend_mode, get_mode. rewrite Em, Hm. unfold mend_datatype. rewrite Eg, Hm.
  unfold get_datatype. rewrite Es, Hs. unfold mend_window. rewrite Eg, Ew.
  unfold mend_hostname. destruct (f_hostname f); [reflexivity|now destruct Hh].
Qed.

(** The whole directory. *)
Lemma mend_directory files : forall d, NoDup files ->
  (forall p, In p files -> lookup d p = None \/ lookup d p = Some NDir
     \/ exists f f', lookup d p = Some (NFile f) /\ mend f = (f', Ok tt)) ->
  exists d', mend_all d files = (d', Ok tt)
    /\ (forall p f, In p files -> lookup d p = Some (NFile f) -> lookup d' p = Some (NFile (fst (mend f))))
    /\ (forall p, (In p files -> lookup d p = None \/ lookup d p = Some NDir) -> lookup d' p = lookup d p).
Proof.
  induction files as [|p files IH]; intros d ND H.
  - exists d. split; [reflexivity|]. split; [intros p f []|reflexivity].
  - inversion ND as [|? ? Np ND']; subst. cbn [mend_all].
    assert (Skip : lookup d p = None \/ lookup d p = Some NDir ->
      exists d', mend_all d files = (d', Ok tt)
      /\ (forall q f, In q (p :: files) -> lookup d q = Some (NFile f) -> lookup d' q = Some (NFile (fst (mend f))))
      /\ (forall q, (In q (p :: files) -> lookup d q = None \/ lookup d q = Some NDir) -> lookup d' q = lookup d q)).
    { intros E. destruct (IH d ND') as (d' & E' & R & U); [intros q Hq; apply H; now right|].
      exists d'. split; [exact E'|]. split.
      - intros q f [<-|Hq] Hf; [destruct E; congruence|]. now apply R.
      - intros q Hq. apply U. intros Hi. apply Hq. now right. }
    destruct (H p (or_introl eq_refl)) as [E|[E|(f & f' & E & M)]].
    + rewrite E. apply Skip. now left.
    + rewrite E. apply Skip. now right.
    + rewrite E, M.
      assert (L : forall q, q <> p -> lookup (store d p (NFile f')) q = lookup d q).
      { intros q Hq. rewrite lookup_store. destruct (path_eqb p q) eqn:X; [|reflexivity].
        apply path_eqb_eq in X. now destruct Hq. }
      destruct (IH (store d p (NFile f')) ND') as (d' & E' & R & U).
      { intros q Hq. assert (q <> p) by (intros ->; contradiction). rewrite L by assumption. apply H. now right. }
      exists d'. split; [exact E'|]. split.
      * intros q h [<-|Hq] Hf.
        -- rewrite E in Hf. injection Hf as <-. rewrite U by contradiction.
           rewrite lookup_store, path_eqb_refl, M. reflexivity.
        -- apply R; [exact Hq|]. rewrite L; [exact Hf|]. intros ->. contradiction.
      * intros q Hq. destruct (path_eqb q p) eqn:X.
        -- apply path_eqb_eq in X. subst q. destruct (Hq (or_introl eq_refl)); congruence.
        -- assert (q <> p) by (intros ->; now rewrite path_eqb_refl in X).
           rewrite U by (intros Hi; rewrite L by assumption; apply Hq; now right). now apply L.
Qed.

(** A recording with equidistant times. *)
Lemma steady_equidistant t0 n g o :
  (g == 1 # 1000000000)%Q -> (o == 0)%Q -> steady (mkDset (Some g) (Some o) (equidistant t0 10000 n)).
Proof.
  intros Hg Ho k. unfold time_pair. cbn [ds_gain ds_offset ds_val].
  assert (E : firstn k (equidistant t0 10000 n) = equidistant t0 10000 (Nat.min k n)).
  { unfold equidistant. rewrite firstn_map. f_equal. generalize 0%nat. revert n.
    induction k as [|k IH]; intros [|n] s; cbn; [reflexivity..|]. now rewrite IH. }
  rewrite E. set (j := Nat.min k n). unfold default_rate. cbv zeta.
  destruct j as [|j]; [left; cbn; lia|].
  assert (L : last (equidistant t0 10000 (S j)) 0 = t0 + 10000 * Z.of_nat j).
  { unfold equidistant. rewrite seq_S, map_app. cbn [map]. rewrite last_last, Nat.add_0_l. reflexivity. }
  rewrite L. cbn [equidistant seq map hd]. change (Z.of_nat 0) with 0. rewrite Z.mul_0_r, Z.add_0_r.
  change (map _ _) with (map (fun k0 => t0 + 10000 * Z.of_nat k0) (seq 1 j)).
  replace (length (t0 :: map (fun k0 => t0 + 10000 * Z.of_nat k0) (seq 1 j))) with (S j)
    by (cbn; now rewrite map_length, seq_length).
  replace (t0 + 10000 * Z.of_nat j - t0) with (10000 * Z.of_nat j) by lia.
  destruct j as [|j]; [left; lia|right].
  unfold raw_to_si. cbn [gain offset].
  assert (J : (0 < inject_Z (Z.of_nat (S j)))%Q) by (change 0%Q with (inject_Z 0); rewrite <- Zlt_Qlt; lia).
  rewrite inject_Z_mult. change (inject_Z 10000) with (10000 # 1)%Q.
  replace (Z.of_nat (S (S j)) - 1) with (Z.of_nat (S j)) by lia.
  rewrite Hg, Ho. split.
  - set (x := inject_Z (Z.of_nat (S j))) in *. lra.
  - assert (Q : (inject_Z (Z.of_nat (S j)) / ((10000 # 1) * inject_Z (Z.of_nat (S j)) * (1 # 1000000000) + 0) - 100000 == 0)%Q)
      by (field; lra).
    rewrite Q. reflexivity.
Qed.

(** The repaired recording is a complete one. *)
Lemma repaired_valid n f f' : repaired n f f' ->
  (exists g t v i, parts f g t v i /\ typed f g /\ has_part (Some t) /\ has_part (Some v) /\ has_part (Some i)
     /\ (In (g_datatype g) [Some "ivcurve"; Some "ivcurves"; Some "ivsurface"]%string ->
         exists w, g_window g = Some w /\ 1 <= w)) ->
  well_structured f'.
Proof.
  intros (g & t & v & i & g' & t' & v' & i' & (E & Et & Ev & Ei) & (E' & Et' & Ev' & Ei') & _ & Ct & Cv & Ci & Em & Es & _ & _ & Ew & _)
    (g0 & t0 & v0 & i0 & (E0 & Et0 & Ev0 & Ei0) & (m & s & Hm & Hs & Ty) & Pt & Pv & Pi & Hc).
  assert (g0 = g) by congruence. subst g0. assert (t0 = t) by congruence. assert (v0 = v) by congruence.
  assert (i0 = i) by congruence. subst t0 v0 i0.
  assert (K : forall d d', has_part (Some d) -> cut_column n d d' -> has_part (Some d')).
  { intros d d' (x & y & l & [= ->]) (_ & _ & K1 & K2). exists x, y, (ds_val d'). destruct d' as [u w z].
    cbn in *. now rewrite (K1 x eq_refl), (K2 y eq_refl). }
  exists g', m, s, (match g_window g with Some w => w | None => 0 end).
  rewrite Em, Es, Et', Ev', Ei'. split; [exact E'|]. split; [exact Hm|]. split; [exact Hs|]. split; [exact Ew|].
  split; [exact (K t t' Pt Ct)|]. split; [exact (K v v' Pv Cv)|]. split; [exact (K i i' Pi Ci)|].
  destruct Ty as [Ty|[Ty ->]]; [now left|].
  destruct Ty as [<-|Ty]; [right; left; now split|]. right; right. split; [exact Ty|]. split; [reflexivity|].
  destruct Hc as (w & -> & Hw); [|exact Hw]. rewrite Hs. destruct Ty as [<-|[<-|[<-|[]]]]; cbn; tauto.
Qed.
