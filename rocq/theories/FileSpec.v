(** What the recording files should look like, stated without the operations of FileModel.v. *)
From Coq Require Import QArith Qabs String Ascii.
From Verif Require Import PyBase FileModel.
Open Scope Z_scope.

(** One append: timestamp(s), voltages, currents. *)
Definition buffer : Type := (tstamp * list Z * list Z)%type.
Definition usable (b : buffer) : Prop := fst (fst b) <> TsOther.

(** The rows (time, voltage, current) that an append has to add to a file sampled every 10 us. *)
Definition rows (b : buffer) : list (Z * Z * Z) :=
  let '(ts, v, i) := b in
  match ts with
  | TsArray t => combine (combine t v) i
  | TsScalar t0 => combine (combine (map (fun k => t0 + 10000 * Z.of_nat k) (seq 0 (length v))) v) i
  | TsOther => []
  end.

(** A sequence of appends on an opened file. *)
Fixpoint appends (w : reader) (bs : list buffer) : res reader :=
  match bs with
  | [] => Ok w
  | (ts, v, i) :: bs' => bind (append_raw w ts v i) (fun w' => appends w' bs')
  end.

(** The file contains exactly these rows, in this order. *)
Definition holds_rows (f : h5) (rs : list (Z * Z * Z)) : Prop :=
  f_time f = map (fun r => fst (fst r)) rs /\ f_voltage f = map (fun r => snd (fst r)) rs
  /\ f_current f = map snd rs.

(** The time stamps are those of a recording with 100 kHz: too short to tell, or the mean rate
    (n - 1) / duration is within half a sample per second. *)
Definition default_rate (c : pair) (time : list Z) : Prop :=
  let d := last time 0 - hd 0 time in
  d <= 0 \/ (0 < raw_to_si c d
             /\ Qabs (inject_Z (Z.of_nat (length time) - 1) / raw_to_si c d - 100000) < 1 # 2)%Q.

(** Sum of v * i over two recordings of equal length. *)
Fixpoint power_sum (cv ci : pair) (v i : list Z) : Q :=
  match v, i with
  | x :: v', y :: i' =>
    ((inject_Z x * gain cv + offset cv) * (inject_Z y * gain ci + offset ci) + power_sum cv ci v' i')%Q
  | _, _ => 0%Q
  end.

(** Mean of calibrated values. *)
Fixpoint si_sum (c : pair) (l : list Z) : Q :=
  match l with [] => 0%Q | x :: l' => ((inject_Z x * gain c + offset c) + si_sum c l')%Q end.

(** The distance of two neighbouring buffers is 10 us per sample, to within half a microsecond per
    sample (the resolution of the check). *)
Definition buffer_ok (c : pair) (time : list Z) (b : nat) : Prop :=
  let s := Z.to_nat 10000 in
  let d := (nth ((b + 1) * s) time 0 - nth (b * s) time 0) mod 2 ^ 64 in
  (Qabs (raw_to_si c d / 10000 * 1000000 - 10) <= 1 # 2)%Q.

(** [n] samples with a distance of [d], starting at [t0]. *)
Definition equidistant (t0 d : Z) (n : nat) : list Z := map (fun k => t0 + d * Z.of_nat k) (seq 0 n).

(** Neighbouring elements satisfy [P]. *)
Fixpoint adjacent (P : Z -> Z -> Prop) (l : list Z) : Prop :=
  match l with a :: ((b :: _) as l') => P a b /\ adjacent P l' | _ => True end.

(** A string without dots. *)
Fixpoint no_dot (s : string) : Prop :=
  match s with EmptyString => True | String c s' => c <> "."%char /\ no_dot s' end.

(** Every file and directory of [d] is unchanged in [d']. *)
Definition preserved (d d' : fs) : Prop := forall p n, lookup d p = Some n -> lookup d' p = Some n.

(** The tuple yielded for the stored slices (time, voltage, current): raw integers, or SI values. *)
Definition tup_raw (omit : bool) (x : list Z * list Z * list Z) : tuple :=
  let '(t, v, i) := x in Raw (if omit then None else Some t) v i.
Definition tup_si (c : series) (omit : bool) (x : list Z * list Z * list Z) : tuple :=
  let '(t, v, i) := x in
  let si p l := map (fun z => (inject_Z z * gain p + offset p)%Q) l in
  Si (if omit then None else Some (si (c_time c) t)) (si (c_voltage c) v) (si (c_current c) i).

(** The file stores these three columns and the given calibration, nothing else. *)
Definition simple_file (c : series) (t v i : list Z) : h5 :=
  let ds p l := Some (mkDset (Some (gain p)) (Some (offset p)) l) in
  mkH5 (Some "harvester"%string) None None
    (Some (mkGrp (Some "ivsample"%string) (Some 0) None
       (ds (c_time c) t) (ds (c_voltage c) v) (ds (c_current c) i))).
Definition simple_reader (c : series) (t v i : list Z) : reader :=
  mkReader (simple_file c t v i) c stats_init 4000000.

(** What is_valid promises: all parts are there, mode and datatype are known and go together. *)
Definition has_part (d : option dset) : Prop :=
  exists g o l, d = Some (mkDset (Some g) (Some o) l).
Definition well_structured (f : h5) : Prop :=
  exists g m s w,
    f_data f = Some g /\ f_mode f = Some m /\ g_datatype g = Some s /\ g_window g = Some w
    /\ has_part (g_time g) /\ has_part (g_voltage g) /\ has_part (g_current g)
    /\ (In s ["ivsample"; "ivsamples"]%string /\ In m ["harvester"; "emulator"]%string
        \/ s = "isc_voc"%string /\ m = "harvester"%string
        \/ In s ["ivcurve"; "ivcurves"; "ivsurface"]%string /\ m = "harvester"%string /\ 1 <= w).

(** A value in SI units is stored as the nearest raw value, the offset being the smallest. *)
Definition stored_as (p : pair) (si : Q) (raw : Z) : Prop :=
  (Qabs (inject_Z raw * gain p + offset p - (if Qlt_le_dec si (offset p) then offset p else si))
   <= gain p / 2)%Q.
Definition row_stored (c : series) (x : Q * Q * Q) (r : Z * Z * Z) : Prop :=
  stored_as (c_time c) (fst (fst x)) (fst (fst r))
  /\ stored_as (c_voltage c) (snd (fst x)) (snd (fst r)) /\ stored_as (c_current c) (snd x) (snd r).

(** The rows of an append in SI units; a single time is that of the first row. *)
Definition buffer_si : Type := (tstamp_si * list Q * list Q)%type.
Definition rows_si (c : pair) (b : buffer_si) : list (Q * Q * Q) :=
  let '(ts, v, i) := b in
  let time := match ts with
              | SiArray t => t
              | SiScalar t =>
                let t0 := if Qlt_le_dec t (offset c) then offset c else t in
                map (fun k => t0 + 10000 * inject_Z (Z.of_nat k) * gain c)%Q (seq 0 (length v))
              end in
  combine (combine time v) i.
Fixpoint appends_si (w : reader) (bs : list buffer_si) : res reader :=
  match bs with
  | [] => Ok w
  | (ts, v, i) :: bs' => bind (append_si w ts v i) (fun w' => appends_si w' bs')
  end.
