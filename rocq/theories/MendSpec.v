(** What the repair of recordings is for, stated without the operations of MendModel.v. *)
From Coq Require Import QArith String Ascii.
From Verif Require Import PyBase FileModel FileSpec.
Open Scope Z_scope.

(** The parts of a recording. *)
Definition parts (f : h5) (g : grp) (t v i : dset) : Prop :=
  f_data f = Some g /\ g_time g = Some t /\ g_voltage g = Some v /\ g_current g = Some i.

(** Gains that are there are positive, an offset of the time is not negative. *)
Definition scaled (d : dset) : Prop := forall x, ds_gain d = Some x -> (0 < x)%Q.
Definition calibrated (t v i : dset) : Prop :=
  scaled t /\ scaled v /\ scaled i /\ forall x, ds_offset t = Some x -> (0 <= x)%Q.

(** Mode and datatype are known and go together. *)
Definition typed (f : h5) (g : grp) : Prop :=
  exists m s, f_mode f = Some m /\ g_datatype g = Some s
    /\ (In s ["ivsample"; "ivsamples"]%string /\ In m ["harvester"; "emulator"]%string
        \/ In s ["isc_voc"; "ivcurve"; "ivcurves"; "ivsurface"]%string /\ m = "harvester"%string).

(** Recorded with 100 kHz, whatever part is looked at. *)
Definition time_pair (t : dset) : pair :=
  mkPair (match ds_gain t with Some x => x | None => 1 # 1000000000 end)
         (match ds_offset t with Some x => x | None => 0%Q end).
Definition steady (t : dset) : Prop := forall k, default_rate (time_pair t) (firstn k (ds_val t)).

(** The column is cut to [n] elements; nothing else of it is changed, except that a missing gain or
    offset may have been filled in. *)
Definition keeps_attr (a b : option Q) : Prop := forall x, a = Some x -> b = Some x.
Definition cut_column (n : nat) (d d' : dset) : Prop :=
  ds_val d' = firstn n (ds_val d) /\ (n <= length (ds_val d))%nat
  /\ keeps_attr (ds_gain d) (ds_gain d') /\ keeps_attr (ds_offset d) (ds_offset d').

(** The number of samples in whole buffers. *)
Definition whole_buffers (len n : nat) : Prop :=
  exists k, (n = k * Z.to_nat 10000 /\ n <= len < n + Z.to_nat 10000)%nat.

(** The recording [f] is repaired as [f']: [n] samples of every column, a window, a name. *)
Definition repaired (n : nat) (f f' : h5) : Prop :=
  exists g t v i g' t' v' i',
    parts f g t v i /\ parts f' g' t' v' i'
    /\ whole_buffers (length (ds_val v)) n
    /\ cut_column n t t' /\ cut_column n v v' /\ cut_column n i i'
    /\ f_mode f' = f_mode f /\ g_datatype g' = g_datatype g
    /\ f_config f' = f_config f /\ g_config g' = g_config g
    /\ g_window g' = Some (match g_window g with Some w => w | None => 0 end)
    /\ f_hostname f' = Some (match f_hostname f with Some h => h | None => "SheepX"%string end).

(** A recording that only has one of the curable defects: columns longer than the voltages, an
    incomplete buffer at the end, no window (unless it has curves) or no name. *)
Definition curable (f : h5) : Prop :=
  exists g t v i,
    parts f g t v i /\ calibrated t v i /\ typed f g /\ steady t
    /\ (length (ds_val v) <= length (ds_val t))%nat /\ (length (ds_val v) <= length (ds_val i))%nat
    /\ (g_window g = None -> ~ In (g_datatype g)
          [Some "ivcurve"; Some "ivcurves"; Some "ivsurface"]%string).

(** The columns have the same length. *)
Definition same_sizes (f : h5) : Prop :=
  length (f_time f) = length (f_voltage f) /\ length (f_current f) = length (f_voltage f).

(** One text inside of another one. *)
Definition inside (a b : string) : Prop := exists x y, b = (x ++ a ++ y)%string.
