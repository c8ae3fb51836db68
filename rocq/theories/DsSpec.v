(** Vocabulary for the properties of the data tools, independent of how [DsModel] computes. *)
From Coq Require Import QArith Qround String.
From Verif Require Import PyBase UartModel FileModel DsModel.
Open Scope Z_scope.

(** A filter is a state machine; its state after some samples, and its output at sample [j]. *)
Definition after {S X W} (step : S -> X -> S * W) (st : S) (l : list X) : S :=
  fold_left (fun s x => fst (step s x)) l st.
Definition response {S X W} (step : S -> X -> S * W) (st : S) (l : list X) (j : nat) : option W :=
  match nth_error l j with
  | Some x => Some (snd (step (after step st (firstn j l)) x))
  | None => None
  end.

(** The signal that is to be thinned out: the samples themselves for timestamps or a factor of one,
    the response of the filter to the whole selected range otherwise. *)
Definition signal {S X W} (env : dsenv S X W) (is_time : bool) (n : nat) (range : list X) (j : nat)
  : option W :=
  if is_time || (n <=? 1)%nat then option_map (e_copy env) (nth_error range j)
  else response (e_step env n) (e_zero env) range j.

(** [out] is every [n]-th value of [sig], [len / n] of them. *)
Definition every_nth {W} (n len : nat) (sig : nat -> option W) (out : list W) : Prop :=
  List.length out = (len / n)%nat /\
  forall j, (j < len / n)%nat -> nth_error out j = sig (j * n)%nat.

(** The given limits in seconds select these samples of a recording of [len] samples. *)
Definition from_sample (rate : Z) (start_s : option Q) : nat :=
  match start_s with
  | Some x => if Qlt_le_dec x 0 then 0%nat else Z.to_nat (qround (x * inject_Z rate))
  | None => 0%nat
  end.

(** All three columns of [f] are the same rows of what [t], [v], [i] select. *)
Definition columns (f : h5) (t v i : list Z) : Prop := f_time f = t /\ f_voltage f = v /\ f_current f = i.

(** A cell after calibration with gain [g] and offset [o]. *)
Definition calibrated (g o : Q) (x y : cell) : Prop :=
  match x, y with
  | One a, One b => (b == a * g + o)%Q
  | Row a, Row b => Forall2 (fun u w => w == u * g + o)%Q a b
  | _, _ => False
  end.

(** A file that the validation accepts: opened, complete, evenly sampled. *)
Definition accepted (d : fs) (p : path) : Prop :=
  exists r, open_reader d p = Ok r /\ is_valid (r_file r) = true /\ check_timediffs r = Ok true.
(** Not an HDF5 file. *)
Definition unreadable (d : fs) (p : path) : Prop := lookup d p = Some NOther.
