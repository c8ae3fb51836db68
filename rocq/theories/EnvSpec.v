(** Vocabulary for the properties of EnvModel.v. *)
From Coq Require Import String Ascii.
From Verif Require Import PyBase FixModel EnvModel.
Open Scope Z_scope.

(** The clock on the wall, in microseconds. *)
Definition wall_clock (z : zone) (now : Z) : Z :=
  now + (if z_summer z now then z_dst z else z_std z) * 1000000.

(** A zone without daylight saving time has no summer. *)
Definition proper_zone (z : zone) : Prop := z_daylight z = false -> forall t, z_summer z t = false.

(** Files as they should be: sequences of proper entries, among other things. *)
Definition entry_ok (i : item) : Prop := match i with Entry (Err _) => False | _ => True end.
Definition readable (d : document) : Prop :=
  match d with Sequence l => Forall entry_ok l | Iterable => True | Scalar => False end.

(** Their entries, in order. *)
Definition entries_of (d : document) : list wrapper :=
  match d with
  | Sequence l => flat_map (fun i => match i with Entry (Ok w) => [w] | _ => [] end) l
  | _ => []
  end.

(** The documents a path stands for. *)
Definition documents (n : node) : option (list document) :=
  match n with File d => Some [d] | Dir l => Some l | Nothing => None end.

(** A cache file that is no older than 24 hours at [now]. *)
Definition recent (m : machine) (now : Z) : Prop :=
  exists t x, m_cache m = Some (t, x) /\ now <= t + 86400000000.

(** [key]: the value a device has for a field. *)
Definition has (i : inventory) (key : string) (v : ival) : Prop := In (key, v) (kept i).

(** Number of commas in a text. *)
Fixpoint commas (s : string) : nat :=
  match s with
  | EmptyString => 0%nat
  | String c s' => ((if Ascii.eqb c "," then 1 else 0) + commas s')%nat
  end.

(** The texts of a device, one for each field; nothing for None. *)
Definition shown (v : ival) : string :=
  match v with INone => EmptyString | IText s | IPlain s | IList s | IDict s => s end.
Definition row (i : inventory) : string :=
  String.concat ", " (map (fun f => shown (snd (fst f))) (i_fields i)).
Definition header (i : inventory) : string :=
  String.concat ", " (map (fun f => fst (fst f)) (i_fields i)).

(** Constructions one after the other: instant, path, reset. *)
Fixpoint constructions (m : machine) (l : list (Z * option string * bool)) : machine * list (res fixtures) :=
  match l with
  | [] => (m, [])
  | (now, p, reset) :: l' =>
      let '(m1, r) := fixtures_init m now p reset in
      let '(m2, rs) := constructions m1 l' in
      (m2, r :: rs)
  end.

(** What the files at a path say. *)
Definition reading (m : machine) (path : string) : res fixtures :=
  match documents (m_files m path) with
  | Some l => insert_files [] l
  | None => Err ValueError
  end.
Definition path_of (p : option string) : string := match p with Some p => p | None => data_models end.

(** Up to 30 hours without a restart, and clocks that agree up to 10 s. *)
Definition in_order (l : list inventory) : Prop :=
  (forall i, In i l -> i_uptime i <= 108000) /\
  (forall i j, In i l -> In j l -> i_created i - i_created j <= 10000000).

(** An inventory from a device. *)
Definition collected (i : inventory) : Prop :=
  exists host now psutil others ptp fs_root beagle versions,
    collect host now psutil others ptp fs_root beagle versions = Ok i.

(** A key that is not there, or None. *)
Definition absent (k : string) (d : dict) : Prop := dget k d = None \/ dget k d = Some none_.
