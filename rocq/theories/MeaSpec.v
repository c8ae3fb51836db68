(** What a calibration by measurement should give, in terms of the measured pairs
    (raw value, reference value) only. *)
From Verif Require Import PyBase.
From Coq Require Import QArith.
Open Scope Q_scope.

(** The distance of a line from measured points, as sum of squares. *)
Fixpoint off_line (g o : Q) (pts : list (Q * Q)) : Q :=
  match pts with
  | [] => 0
  | (x, y) :: rest => (y - (g * x + o)) ^ 2 + off_line g o rest
  end.

(** No line is nearer to the points. *)
Definition best_line (g o : Q) (pts : list (Q * Q)) : Prop :=
  forall g' o', off_line g o pts <= off_line g' o' pts.

(** The spread [s] of the reference values: their distance from the best constant. *)
Definition spread (s : Q) (pts : list (Q * Q)) : Prop :=
  (exists o, off_line 0 o pts == s) /\ forall o, s <= off_line 0 o pts.

(** Measurements at two different raw values. *)
Definition two_raws (pts : list (Q * Q)) : Prop :=
  exists p q, In p pts /\ In q pts /\ ~ fst p == fst q.

(** All points are on the line. *)
Definition on_line (g o : Q) (pts : list (Q * Q)) : Prop :=
  Forall (fun p => snd p == g * fst p + o) pts.

(** Sum of squared differences of two lines at the measured raw values. *)
Fixpoint apart (g o g' o' : Q) (xs : list Q) : Q :=
  match xs with
  | [] => 0
  | x :: rest => ((g * x + o) - (g' * x + o')) ^ 2 + apart g o g' o' rest
  end.

(** The share of the spread that may be left over: one per mille (of the double 0.999). *)
Definition left_over : Q := 9007199254741 # 9007199254740992.
