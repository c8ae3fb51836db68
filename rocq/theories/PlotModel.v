(** Model of the plotting part of the data tools: shepherd_data/shepherd_data/reader.py
    (generate_plot_data, assemble_plot, plot_to_file, multiplot_to_file) and
    shepherd_data/shepherd_data/cli.py (plot), on top of the recordings of [FileModel] and the
    downsampling of [DsModel].

    Simplifications: seconds, factors and calibrated values are exact rationals; a picture is what
    is drawn into it (curves with their labels), its size, title and legend are left out; logging is
    left out; paths are resolved. *)
From Coq Require Import QArith Qround String.
From Verif Require Import PyBase UartModel FileModel DsModel.
Open Scope Z_scope.

(* ------------------------------------------------------------------ plot data *)

(** The dictionary that generate_plot_data returns, reader.py:486-506. *)
Record plot_data := mkPlotData {
  pd_name : string; pd_time : list Q; pd_voltage : list Q; pd_current : list Q;
  pd_start : Q; pd_end : Q
}.

(** The filter of scipy on numbers (see [filt]), and what np.empty leaves in memory. *)
Record pfilt := mkPfilt {
  pf_state : Type; pf_zero : pf_state; pf_step : nat -> pf_state -> Z -> pf_state * Q; pf_junk : Q
}.
(** reader.py:210-213, the destination is a new numpy array of floats: ValueError at a mismatch. *)
Definition plot_env (fl : pfilt) : dsenv (pf_state fl) Z Q :=
  mkEnv (pf_zero fl) (pf_step fl) inject_Z (pf_junk fl) ValueError.

(** calibration.py:58-60, raw_to_si for an array of floats. *)
Definition to_si (p : pair) (l : list Q) : list Q := map (fun x => (x * gain p + offset p)%Q) l.

(** round(x, 3) *)
Definition round3 (x : Q) : Q := (inject_Z (qround (x * 1000)) / 1000)%Q.

(** reader.py:484-485, the factor for a window of [w] seconds. *)
Definition plot_factor (r : reader) (w : Q) : Q :=
  let samplerate_dst := qmax2 (round3 (inject_Z (r_max_elements r) / w)) (1 # 1000) in
  (inject_Z (st_rate (r_stats r)) / samplerate_dst)%Q.

(** reader.py:488-503, one column: downsample and raw_to_si; without any sample downsample returns
    None, and None * gain raises TypeError. *)
Definition plot_column (fl : pfilt) (r : reader) (c : pair) (src : list Z) (a b : nat) (factor : Q)
  (is_time : bool) : res (list Q) :=
  match downsample (plot_env fl) (Z.to_nat (r_max_elements r)) src None a (Some b) factor is_time with
  | (_, Some e) => Err e
  | (None, None) => Err TypeError
  | (Some l, None) => Ok (to_si c l)
  end.

(** reader.py:457-509, generate_plot_data; limits that are no numbers are None. *)
Definition generate_plot_data (fl : pfilt) (r : reader) (start_s end_s : option Q) (relative : bool)
  : res (option plot_data) :=
  let s := cut_start start_s in
  let e := cut_end r end_s in
  let a := to_sample r s in
  let b := to_sample r e in
  if b - a <? 5 then Ok None
  else
    let factor := plot_factor r (e - s)%Q in
    let f := r_file r in
    let c := r_cal r in
    let* t := plot_column fl r (c_time c) (f_time f) (Z.to_nat a) (Z.to_nat b) factor true in
    let* v := plot_column fl r (c_voltage c) (f_voltage f) (Z.to_nat a) (Z.to_nat b) factor false in
    let* i := plot_column fl r (c_current c) (f_current f) (Z.to_nat a) (Z.to_nat b) factor false in
    let* t' := if relative
               then match f_time f with
                    | [] => Err IndexError
                    | t0 :: _ => Ok (map (fun x => (x - raw_to_si (c_time c) t0)%Q) t)
                    end
               else Ok t in
    Ok (Some (mkPlotData (get_hostname f) t' v i s e)).

(* ------------------------------------------------------------------ pictures *)

(** A curve with its label, and a picture: its axes with their description. *)
Record curve := mkCurve { cu_label : string; cu_x : list Q; cu_y : list Q }.
Definition figure : Type := list (string * list curve).

(** numpy: element-wise product; one element is repeated, other differences raise ValueError. *)
Definition np_mul (a b : list Q) : res (list Q) :=
  if (List.length a =? List.length b)%nat then Ok (map (fun '(x, y) => (x * y)%Q) (combine a b))
  else match a, b with
       | [x], _ => Ok (map (fun y => (x * y)%Q) b)
       | _, [y] => Ok (map (fun x => (x * y)%Q) a)
       | _, _ => Err ValueError
       end.
(** matplotlib: ax.plot(x, y, label=...) with different lengths raises ValueError. *)
Definition draw (label : string) (x y : list Q) : res curve :=
  guard (List.length x =? List.length y)%nat or ValueError;; Ok (mkCurve label x y).
(** array * 10**3 *)
Definition milli (l : list Q) : list Q := map (fun x => (x * 1000)%Q) l.

Fixpoint draw_all (f : plot_data -> res curve) (data : list plot_data) : res (list curve) :=
  match data with
  | [] => Ok []
  | d :: data' => let* c := f d in let* l := draw_all f data' in Ok (c :: l)
  end.

(** reader.py:540-546, the three kinds of curves. *)
Definition curve_v (d : plot_data) : res curve := draw (pd_name d) (pd_time d) (pd_voltage d).
Definition curve_i (d : plot_data) : res curve := draw (pd_name d) (pd_time d) (milli (pd_current d)).
Definition curve_p (d : plot_data) : res curve :=
  let* p := np_mul (pd_voltage d) (pd_current d) in
  draw (pd_name d) (pd_time d) (milli p).

(** reader.py:511-556, assemble_plot for a list of data.  All exceptions here are ValueError, so
    their order is left out. *)
Definition assemble_plot (data : list plot_data) (only_pwr : bool) : res figure :=
  let* p := draw_all curve_p data in
  if only_pwr then Ok [("power [mW]"%string, p)]
  else
    let* v := draw_all curve_v data in
    let* i := draw_all curve_i data in
    Ok [("voltage [V]"%string, v); ("current [mA]"%string, i); ("power [mW]"%string, p)].

(* ------------------------------------------------------------------ files *)

(** The pictures on the disk, beside the recordings and other files of [fs]. *)
Definition pictures : Type := list (path * figure).
Fixpoint find_picture (g : pictures) (p : path) : option figure :=
  match g with
  | [] => None
  | (q, x) :: g' => if path_eqb q p then Some x else find_picture g' p
  end.
(** Path.exists() *)
Definition taken (d : fs) (g : pictures) (p : path) : bool :=
  exists_ d p || match find_picture g p with Some _ => true | None => false end.

(** PurePath.with_suffix; a path without a name (the root) raises ValueError. *)
Definition with_suffix (p : path) (s : string) : res path :=
  guard negb (snd p =? "")%string or ValueError;; Ok (fst p, (stem (snd p) ++ s)%string).

(** reader.py:584-586 and 614-618, ".plot_0s000_to_1s500.png" *)
Definition plot_suffix (kind : string) (d : plot_data) : string :=
  ("." ++ kind ++ "_" ++ fmt3 (pd_start d) ++ "_to_" ++ fmt3 (pd_end d) ++ ".png")%string.

(** reader.py:558-594, plot_to_file for the recording opened from [p]. *)
Definition plot_to_file (fl : pfilt) (d : fs) (g : pictures) (p : path) (r : reader)
  (start_s end_s : option Q) (only_pwr : bool) : pictures * res unit :=
  match generate_plot_data fl r start_s end_s true with
  | Err e => (g, Err e)
  | Ok None => (g, Ok tt)
  | Ok (Some data) =>
    match with_suffix p (plot_suffix "plot" data) with
    | Err e => (g, Err e)
    | Ok q =>
      if taken d g q then (g, Ok tt)
      else match assemble_plot [data] only_pwr with
           | Err e => (g, Err e)
           | Ok fig => ((q, fig) :: g, Ok tt)
           end
    end
  end.

(** reader.py:596-626, multiplot_to_file; data[0] of an empty list raises IndexError. *)
Definition multiplot_to_file (d : fs) (g : pictures) (data : list plot_data) (p : path)
  (only_pwr : bool) : pictures * res (option path) :=
  match data with
  | [] => (g, Err IndexError)
  | d0 :: _ =>
    match with_suffix p (plot_suffix "multiplot" d0) with
    | Err e => (g, Err e)
    | Ok q =>
      if taken d g q then (g, Ok None)
      else match assemble_plot data only_pwr with
           | Err e => (g, Err e)
           | Ok fig => ((q, fig) :: g, Ok (Some q))
           end
    end
  end.

(* ------------------------------------------------------------------ command line *)

(** cli.py:411-424, the loop over the files; only TypeError is caught. *)
Fixpoint plot_files (fl : pfilt) (d : fs) (g : pictures) (files : list path) (start_s end_s : option Q)
  (multiplot only_pwr : bool) (data : list plot_data) : pictures * res (list plot_data) :=
  match files with
  | [] => (g, Ok data)
  | p :: files' =>
    let next g' data' := plot_files fl d g' files' start_s end_s multiplot only_pwr data' in
    match open_reader d p with
    | Err TypeError => next g data
    | Err e => (g, Err e)
    | Ok r =>
      if multiplot then
        match generate_plot_data fl r start_s end_s true with
        | Err TypeError | Ok None => next g data
        | Err e => (g, Err e)
        | Ok (Some x) => next g (data ++ [x])
        end
      else
        match plot_to_file fl d g p r start_s end_s only_pwr with
        | (g', Ok _) | (g', Err TypeError) => next g' data
        | (g', Err e) => (g', Err e)
        end
    end
  end.

(** cli.py:396-431, plot. *)
Definition cli_plot (fl : pfilt) (d : fs) (g : pictures) (in_data : path) (start_s end_s : option Q)
  (multiplot only_pwr : bool) : pictures * res unit :=
  let files := path_to_flist d in_data in
  let multi := multiplot && (1 <? List.length files)%nat in
  match plot_files fl d g files start_s end_s multi only_pwr [] with
  | (g', Err e) => (g', Err e)
  | (g', Ok data) =>
    if multi then
      match multiplot_to_file d g' data in_data only_pwr with
      | (g2, Err e) => (g2, Err e)
      | (g2, Ok _) => (g2, Ok tt)
      end
    else (g', Ok tt)
  end.
