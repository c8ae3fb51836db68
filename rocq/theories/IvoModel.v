(** Converters for IVonne recordings (shepherd_data/shepherd_data/mppt.py and ivonne.py).

    The coefficients and the curves are binary64; numpy's [exp] and [log] are parameters.  Rows of the recording are
    equidistant in time; time stamps are integers (ns).  The cubic spline of scipy is a parameter.
    Left out: the pickle file, logging, the progress bar, and the rounding of the time column (a spline through equidistant
    times gives equidistant times; the model takes them as exact). *)
From Coq Require Import ZArith QArith Qround Bool List.
From Flocq Require Import IEEE754.BinarySingleNaN.
From Verif Require Import PyBase F64.
From Verif Require UartModel.
Import ListNotations.
Open Scope Z_scope.

(** numpy.exp and numpy.log on one element. *)
Record npmath := mkNp { np_exp : f64 -> f64; np_log : f64 -> f64 }.

(** A row of the recording: the three coefficients of the curve. *)
Record coef := mkCoef { c_a : f64; c_b : f64; c_c : f64 }.

(** numpy.linspace(0, stop, num) of mppt.py line 52 and ivonne.py line 133, as written in numpy/_core/function_base.py:
    0 .. num-1 times the step (or divided first when the step is 0), last element replaced by [stop]. *)
Definition lin_point (delta : f64) (div k : Z) : f64 :=
  let step := idiv delta (fz div) in
  fadd (if feq step (fz 0) then fmul (idiv (fz k) (fz div)) delta else fmul (fz k) step) (fz 0).
Definition linspace (stop : f64) (num : Z) : res (list f64) :=
  guard 0 <=? num or ValueError ;;
  let delta := fsub stop (fz 0) in
  let div := num - 1 in
  if 0 <? div
  then Ok (map (fun k => lin_point delta div (Z.of_nat k)) (seq 0 (Z.to_nat div)) ++ [stop])
  else Ok (map (fun k => fadd (fmul (fz (Z.of_nat k)) delta) (fz 0)) (seq 0 (Z.to_nat num))).

(** mppt.py:15-30, iv_model, for one voltage of an array (line 26: negative currents become 0). *)
Definition iv_raw (m : npmath) (r : coef) (v : f64) : f64 :=
  fsub (c_a r) (fmul (c_b r) (fsub (np_exp m (fmul (c_c r) v)) (fz 1))).
Definition iv_model (m : npmath) (r : coef) (v : f64) : f64 :=
  let i := iv_raw m r v in if flt i (fz 0) then fz 0 else i.
(** mppt.py:28, the scalar variant: max(0.0, currents). *)
Definition iv_model_scalar (m : npmath) (r : coef) (v : f64) : f64 := fmax (fz 0) (iv_raw m r v).

(** numpy.argmax for floats: replaced by every later element that is not less or equal; stops at the first NaN. *)
Fixpoint argmax_from (best : f64) (at_ now : nat) (l : list f64) : nat :=
  match l with
  | [] => at_
  | x :: l => if is_nan best then at_
              else if negb (fle x best) then argmax_from x now (S now) l
              else argmax_from best at_ (S now) l
  end.
Definition argmax (l : list f64) : res nat :=
  match l with [] => Err ValueError | x :: l => Ok (argmax_from x 0 1 l) end.

(** numpy.argmax for booleans: the first true, or 0. *)
Fixpoint first_true (n : nat) (l : list bool) : option nat :=
  match l with [] => None | b :: l => if b then Some n else first_true (S n) l end.
Definition argmax_b (l : list bool) : res nat :=
  match l with [] => Err ValueError | _ => Ok (match first_true 0 l with Some k => k | None => 0%nat end) end.

(** Indexing of an array. *)
Definition at_pos {A} (l : list A) (k : nat) : res A :=
  match nth_error l k with Some x => Ok x | None => Err IndexError end.

(** mppt.py:33-39. *)
Definition find_oc (v_arr i_arr : list f64) (ratio : f64) : res f64 :=
  let* i0 := at_pos i_arr 0 in
  let* k := argmax_b (map (fun i => flt i (fmul i0 ratio)) i_arr) in
  at_pos v_arr k.

(** mppt.py:105-116, OptimalTracker.process for one row. *)
Definition optimal_row (m : npmath) (grid : list f64) (r : coef) : res (f64 * f64) :=
  let icurve := map (iv_model m r) grid in
  let pcurve := map (fun vi => fmul (fst vi) (snd vi)) (combine grid icurve) in
  let* k := argmax pcurve in
  let* i := at_pos icurve k in
  let* v := at_pos grid k in
  Ok (v, i).

(** mppt.py:75-90, OpenCircuitTracker.process for one row and its open-circuit voltage. *)
Definition oc_row (m : npmath) (grid : list f64) (ratio : f64) (r : coef) (voc : f64) : res (f64 * f64) :=
  let icurve := map (iv_model m r) grid in
  let* k := argmax (filter (fun v => flt v (fmul ratio voc)) grid) in
  let* i := at_pos icurve k in
  let* v := at_pos grid k in
  Ok (v, i).

Fixpoint map_res {A B} (f : A -> res B) (l : list A) : res (list B) :=
  match l with
  | [] => Ok []
  | x :: l => let* y := f x in let* ys := map_res f l in Ok (y :: ys)
  end.

(** mppt.py:49-52 and 105-116: all rows. *)
Definition optimal_process (m : npmath) (v_max : f64) (pts : Z) (rows : list coef) : res (list (f64 * f64)) :=
  let* grid := linspace v_max pts in map_res (optimal_row m grid) rows.

(** mppt.py:71-90: all rows; [vocs] is the column "voc" when there is one.  Without it line 82 asks every row for its column
    "ivcurve", which does not exist (it is called "icurve").  A frame without rows is left out. *)
Definition oc_process (m : npmath) (v_max : f64) (pts : Z) (ratio : f64) (rows : list coef) (vocs : option (list f64)) :
  res (list (f64 * f64)) :=
  let* grid := linspace v_max pts in
  match vocs with
  | None => Err KeyError
  | Some vs => map_res (fun rv => oc_row m grid ratio (fst rv) (snd rv)) (combine rows vs)
  end.

(** ivonne.py:33-35 and 224-225, 275-276: open-circuit voltage of a row, limited to the supported voltage. *)
Definition get_voc (m : npmath) (r : coef) : f64 := idiv (np_log m (fadd (idiv (c_a r) (c_b r)) (fz 1))) (c_c r).
Definition limited_voc (m : npmath) (v_max : f64) (r : coef) : f64 :=
  let voc := get_voc m r in if fle v_max voc then v_max else voc.

(** ivonne.py:226 with the two trackers: what happens to the rows of one slice. *)
Definition track_optimal (m : npmath) (v_max : f64) (pts : Z) (rows : list coef) : res (list (f64 * f64)) :=
  optimal_process m v_max pts rows.
Definition track_oc (m : npmath) (v_max t_max : f64) (pts : Z) (ratio : f64) (rows : list coef) : res (list (f64 * f64)) :=
  oc_process m t_max pts ratio rows (Some (map (limited_voc m v_max) rows)).

(** ** Up-sampling *)

(** pandas: the row with exactly this time stamp. *)
Fixpoint row_at {V} (t : Z) (rows : list (Z * V)) : option V :=
  match rows with [] => None | (u, x) :: rows => if u =? t then Some x else row_at t rows end.

(** Times from the first to the last row in steps of [d] (pandas: timedelta_range). *)
Definition grid_times {V} (rows : list (Z * V)) (d : Z) : list Z :=
  match rows with
  | [] => []
  | (t0, _) :: _ => map (fun j => t0 + Z.of_nat j * d) (seq 0 (Z.to_nat ((last (map fst rows) t0 - t0) / d + 1)))
  end.

(** The points of the grid that coincide with a row. *)
Definition known {V} (rows : list (Z * V)) (grid : list Z) : list (Z * V) :=
  flat_map (fun t => match row_at t rows with Some x => [(t, x)] | None => [] end) grid.

(** ivonne.py:145-150, 227-231, 278-282: resample(d).interpolate(method="cubic").  Rows that are on the grid are kept, the
    gaps are filled by the spline (scipy.interpolate.interp1d: a cubic one needs four points); pandas returns early
    when there is nothing to fill. *)
Definition resample {V} (spline : list (Z * V) -> Z -> V) (rows : list (Z * V)) (d : Z) : res (list (Z * V)) :=
  let grid := grid_times rows d in
  let pts := known rows grid in
  if (List.length pts =? List.length grid)%nat then Ok pts
  else guard (4 <=? List.length pts)%nat or ValueError ;;
       Ok (map (fun t => (t, match row_at t rows with Some x => x | None => spline pts t end)) grid).

(** Lines 142-152, 219-232, 270-283: one pass of the loop over the recording: the rows from [idx] up to and including
    [idx_top], converted by [f], up-sampled, without the last point. *)
Definition one_slice {A V} (f : list A -> res (list V)) (spline : list (Z * V) -> Z -> V) (d : Z)
    (rows : list (Z * A)) (used step idx : nat) : res (list (Z * V)) :=
  let top := Nat.min (idx + step) used in
  let slice := firstn (top + 1 - idx) (skipn idx rows) in
  let* vs := f (map snd slice) in
  let* up := resample spline (combine (map fst slice) vs) d in
  Ok (removelast up).

Fixpoint all_slices {A V} (f : list A -> res (list V)) (spline : list (Z * V) -> Z -> V) (d : Z)
    (rows : list (Z * A)) (used step : nat) (idxs : list nat) : res (list (Z * V)) :=
  match idxs with
  | [] => Ok []
  | i :: idxs => let* out := one_slice f spline d rows used step i in
                 let* rest := all_slices f spline d rows used step idxs in
                 Ok (out ++ rest)
  end.

(** Writer defaults: shepherd_core reader.py:78-82 and commons.py. *)
Definition shp_rate : Z := 100000.
Definition shp_interval : Z := 10 ^ 9 / shp_rate.
Definition shp_max_elements : Z := 40 * shp_rate.

(** Lines 62 and 101: interval and duration of the recording. *)
Definition ivo_interval (rate : Z) : Z := 10 ^ 9 / rate.
Definition ivo_runtime (rate : Z) (n : nat) : Q :=
  (inject_Z (UartModel.qround (inject_Z (Z.of_nat n) / inject_Z rate * inject_Z 1000)) / inject_Z 1000)%Q.

(** int() of an exact value: towards 0. *)
Definition qint (x : Q) : Z := if Qle_bool 0 x then Qfloor x else Qceiling x.

(** Lines 123-127, 195-199, 253-257: number of rows to convert. *)
Definition used_rows (rate : Z) (n : nat) (duration : option Q) : Z :=
  match duration with
  | Some s => if negb (Qle_bool (ivo_runtime rate n) s) then Z.min (Z.of_nat n) (qint (s * inject_Z rate)) else Z.of_nat n
  | None => Z.of_nat n
  end.

(** Lines 138-139, 213-214, 266-267: rows per pass. *)
Definition slice_rows (rate : Z) : res Z :=
  let up := ivo_interval rate / shp_interval in
  guard negb (up =? 0) or ZeroDivisionError ;; Ok (shp_max_elements / up).

(** range(0, n, step) for a positive step. *)
Definition py_range (n step : nat) : list nat := map (fun j => (j * step)%nat) (seq 0 ((n + step - 1) / step)).

(** All three converters; [d] is the interval of the output in ns. *)
Definition convert {A V} (f : list A -> res (list V)) (spline : list (Z * V) -> Z -> V) (d : Z)
    (rate : Z) (duration : option Q) (rows : list (Z * A)) : res (list (Z * V)) :=
  let used := Z.to_nat (used_rows rate (List.length rows) duration) in
  let* step := slice_rows rate in
  guard negb (step =? 0) or ValueError ;;
  all_slices f spline d rows used (Z.to_nat step) (py_range used (Z.to_nat step)).

(** Lines 105-157: curves of [pts] samples each. *)
Definition convert_2_ivcurves (m : npmath) (spline : list (Z * coef) -> Z -> coef) (rate : Z) (v_max : f64) (pts : Z)
    (duration : option Q) (rows : list (Z * coef)) : res (list (Z * list (f64 * f64))) :=
  let* grid := linspace v_max pts in
  let* out := convert (fun l => Ok l) spline (shp_interval * pts) rate duration rows in
  Ok (map (fun tc => (fst tc, map (fun v => (v, iv_model m (snd tc) v)) grid)) out).

(** Lines 167-237. *)
Definition convert_2_ivsamples (track : list coef -> res (list (f64 * f64))) (spline : list (Z * (f64 * f64)) -> Z -> f64 * f64)
    (rate : Z) (duration : option Q) (rows : list (Z * coef)) : res (list (Z * (f64 * f64))) :=
  convert track spline shp_interval rate duration rows.

(** Lines 239-288. *)
Definition upsample_2_isc_voc (m : npmath) (spline : list (Z * (f64 * f64)) -> Z -> f64 * f64)
    (rate : Z) (v_max : f64) (duration : option Q) (rows : list (Z * coef)) : res (list (Z * (f64 * f64))) :=
  convert (fun l => Ok (map (fun r => (limited_voc m v_max r, c_a r)) l)) spline shp_interval rate duration rows.
