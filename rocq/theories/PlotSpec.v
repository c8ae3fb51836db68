(** Vocabulary for the properties of plots, independent of how [PlotModel] computes. *)
From Coq Require Import QArith Qabs Qminmax String Ascii.
From Verif Require Import PyBase FileModel FileSpec DsModel DsSpec PlotModel.
Open Scope Z_scope.

(** The duration of a recording: full tenths of a second, as near as possible. *)
Definition duration (r : reader) (T : Q) : Prop :=
  let n := List.length (f_voltage (r_file r)) in
  (exists k, T == inject_Z k / 10)%Q /\
  (Qabs (T - inject_Z (Z.of_nat n) / inject_Z (st_rate (r_stats r))) <= 1 # 20)%Q.

(** The window that is asked for, limited to the recording, in seconds. *)
Definition limits (T : Q) (start_s end_s : option Q) (a b : Q) : Prop :=
  (a == match start_s with Some x => Qmax 0 x | None => 0 end)%Q /\
  (b == match end_s with Some x => Qmin T x | None => T end)%Q.
(** Number [k] of the sample nearest to [x] seconds. *)
Definition nearest (rate : Z) (x : Q) (k : Z) : Prop := (Qabs (x * inject_Z rate - inject_Z k) <= 1 # 2)%Q.

(** A recording with [L] samples in each of its columns. *)
Definition even_columns (r : reader) (L : nat) : Prop :=
  List.length (f_time (r_file r)) = L /\ List.length (f_voltage (r_file r)) = L
  /\ List.length (f_current (r_file r)) = L.

(** [out]: the raw values in physical units, counted from [zero]. *)
Definition physical (c : pair) (zero : Q) (raw : list Z) (out : list Q) : Prop :=
  Forall2 (fun x y => y == inject_Z x * gain c + offset c - zero)%Q raw out.
(** The beginning of the time axis: the first timestamp or none. *)
Definition origin (r : reader) (relative : bool) : Q :=
  if relative
  then (inject_Z (hd 0%Z (f_time (r_file r))) * gain (c_time (r_cal r)) + offset (c_time (r_cal r)))%Q
  else 0%Q.

(** Host and window in [pd]. *)
Definition headed (r : reader) (a b : Q) (pd : plot_data) : Prop :=
  pd_name pd = get_hostname (r_file r) /\ (pd_start pd == a)%Q /\ (pd_end pd == b)%Q.

(** [pd] shows the samples from [i] up to [j] one by one. *)
Definition shows_all (r : reader) (relative : bool) (i j : Z) (pd : plot_data) : Prop :=
  let part l := slice (Z.to_nat i) (Z.to_nat j) l in
  physical (c_time (r_cal r)) (origin r relative) (part (f_time (r_file r))) (pd_time pd)
  /\ physical (c_voltage (r_cal r)) 0 (part (f_voltage (r_file r))) (pd_voltage pd)
  /\ physical (c_current (r_cal r)) 0 (part (f_current (r_file r))) (pd_current pd).

(** [out]: every [n]-th of [len] values of a signal, in physical units. *)
Definition thinned (c : pair) (zero : Q) (n len : nat) (sig : nat -> option Q) (out : list Q) : Prop :=
  List.length out = (len / n)%nat /\
  forall k, (k < len / n)%nat -> exists x y, sig (k * n)%nat = Some x /\ nth_error out k = Some y
    /\ (y == x * gain c + offset c - zero)%Q.
(** What is thinned out: the timestamps themselves, the filtered voltages and currents. *)
Definition plain (l : list Z) (k : nat) : option Q := option_map inject_Z (nth_error l k).
Definition filtered (fl : pfilt) (n : nat) (l : list Z) (k : nat) : option Q :=
  if (n <=? 1)%nat then plain l k else response (pf_step fl n) (pf_zero fl) l k.
Definition shows_every (fl : pfilt) (r : reader) (relative : bool) (n : nat) (i j : Z) (pd : plot_data) : Prop :=
  let part l := slice (Z.to_nat i) (Z.to_nat j) l in
  let len := List.length (part (f_time (r_file r))) in
  thinned (c_time (r_cal r)) (origin r relative) n len (plain (part (f_time (r_file r)))) (pd_time pd)
  /\ thinned (c_voltage (r_cal r)) 0 n len (filtered fl n (part (f_voltage (r_file r)))) (pd_voltage pd)
  /\ thinned (c_current (r_cal r)) 0 n len (filtered fl n (part (f_current (r_file r)))) (pd_current pd).

(** [n] samples for each point of a plot of about [m] points in [w] seconds: the number that is
    not too many points by rounding down. *)
Definition spread (rate m : Z) (w : Q) (n : nat) : Prop :=
  (n = 1%nat \/ inject_Z (Z.of_nat n) * (inject_Z m / w - (1 # 2000)) <= inject_Z rate)%Q /\
  (inject_Z rate < inject_Z (Z.of_nat n + 1) * Qmax (inject_Z m / w + (1 # 2000)) (1 # 1000))%Q.

(** What a picture shows of some data. *)
Definition curve_of (d : plot_data) (y : Q -> Q -> Q) (c : curve) : Prop :=
  cu_label c = pd_name d /\ cu_x c = pd_time d /\
  Forall2 (fun '(v, i) z => z == y v i)%Q (combine (pd_voltage d) (pd_current d)) (cu_y c).
Definition voltage_axis (d : plot_data) : curve -> Prop := curve_of d (fun v _ => v).
Definition current_axis (d : plot_data) : curve -> Prop := curve_of d (fun _ i => 1000 * i)%Q.
Definition power_axis (d : plot_data) : curve -> Prop := curve_of d (fun v i => 1000 * (v * i))%Q.
Definition pictured (data : list plot_data) (only_pwr : bool) (fig : figure) : Prop :=
  if only_pwr
  then exists p, fig = [("power [mW]"%string, p)] /\ Forall2 power_axis data p
  else exists v i p,
    fig = [("voltage [V]"%string, v); ("current [mA]"%string, i); ("power [mW]"%string, p)]
    /\ Forall2 voltage_axis data v /\ Forall2 current_axis data i /\ Forall2 power_axis data p.
(** Data with as many times as voltages and currents. *)
Definition aligned (d : plot_data) : Prop :=
  List.length (pd_voltage d) = List.length (pd_time d)
  /\ List.length (pd_current d) = List.length (pd_time d).

(** Pictures that were there stay as they are. *)
Definition kept (g g' : pictures) : Prop := forall p x, find_picture g p = Some x -> find_picture g' p = Some x.

(** A text like 12s345 is a time in milliseconds. *)
Definition is_digit (c : ascii) : Prop := (48 <= nat_of_ascii c <= 57)%nat.
Fixpoint digits (s : string) : Prop :=
  match s with EmptyString => True | String c s' => is_digit c /\ digits s' end.
Fixpoint number (acc : Z) (s : string) : Z :=
  match s with EmptyString => acc | String c s' => number (10 * acc + (Z.of_nat (nat_of_ascii c) - 48)) s' end.
Definition clock (x : Q) (s : string) : Prop :=
  exists u v, s = (u ++ "s" ++ v)%string /\ u <> EmptyString /\ digits u /\ digits v /\ String.length v = 3%nat
    /\ (Qabs (x * 1000 - inject_Z (number 0 u * 1000 + number 0 v)) <= 1 # 2)%Q.
(** The file for a picture of [d], beside something called [base]. *)
Definition called (kind : string) (dir base : string) (d : plot_data) (q : path) : Prop :=
  exists a b, q = (dir, (base ++ "." ++ kind ++ "_" ++ a ++ "_to_" ++ b ++ ".png")%string)
    /\ clock (pd_start d) a /\ clock (pd_end d) b.

Definition occupied (d : fs) (g : pictures) (q : path) : Prop := lookup d q <> None \/ find_picture g q <> None.

(** What the plot of one file is made of. *)
Definition attempt (fl : pfilt) (d : fs) (start_s end_s : option Q) (p : path) : res (option plot_data) :=
  match open_reader d p with
  | Ok r => generate_plot_data fl r start_s end_s true
  | Err e => Err e
  end.
(** A file that can be plotted, has nothing to be plotted or is skipped. *)
Definition harmless (o : res (option plot_data)) : Prop :=
  o = Err TypeError \/ o = Ok None \/ exists pd, o = Ok (Some pd) /\ aligned pd.
(** All the data of some files, in order. *)
Definition all_data (l : list (res (option plot_data))) : list plot_data :=
  flat_map (fun o => match o with Ok (Some pd) => [pd] | _ => [] end) l.
(** The name of a recording without its ending. *)
Definition recording (p : path) (base : string) : Prop := base <> EmptyString /\ snd p = (base ++ ".h5")%string.
