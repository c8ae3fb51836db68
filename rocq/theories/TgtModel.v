(** Virtual targets (shepherd_core/shepherd_core/vsource/target_model.py) and GPIO events
    (shepherd_core/shepherd_core/data_models/experiment/observer_features.py, class GpioEvent).

    Floats are binary64, voltages handed to a target are integers (uV), as the signatures say and as the
    simulation does (virtual_source_simulation.py line 90).  [math.log] and [math.expm1] are parameters. *)
From Coq Require Import ZArith Bool List.
From Flocq Require Import IEEE754.BinarySingleNaN.
From Verif Require Import PyBase F64 CfgModel.
Import ListNotations.
Open Scope Z_scope.

(** A literal with an exponent that [fdec] does not cover, by its exact binary value [m * 2^e]. *)
Definition fbin (m e : Z) : f64 := binary_normalize 53 1024 eq_refl eq_refl mode_NE m e false.

(** ** Resistor, lines 28-42 *)
Record rtarget := mkR { rt_kOhm : f64; rt_ctrl : bool }.
Definition res_init (R_Ohm : f64) (ctrl : bool) : res rtarget :=
  guard negb (fle R_Ohm (fdec 1 3)) or ValueError ;;
  Ok (mkR (fmul (fdec 1 3) R_Ohm) ctrl).
Definition res_step (t : rtarget) (uV : Z) (pg : bool) : res f64 :=
  if pg || negb (rt_ctrl t) then let* v := py_float uV in fdiv v (rt_kOhm t) else Ok (fz 0).

(** ** Constant current, lines 104-115 *)
Record ctarget := mkC { ct_active : f64; ct_sleep : f64 }.
Definition cur_init (active sleep : f64) : res ctarget :=
  guard negb (fle active (fz 0) || flt sleep (fz 0)) or ValueError ;;
  Ok (mkC (fmul (fz (10 ^ 9)) active) (fmul (fz (10 ^ 9)) sleep)).
Definition cur_step (t : ctarget) (uV : Z) (pg : bool) : res f64 := Ok (if pg then ct_active t else ct_sleep t).

(** ** Constant power, lines 118-128 *)
Record ptarget := mkP { pt_active : f64; pt_sleep : f64 }.
Definition pow_init (active sleep : f64) : res ptarget :=
  guard negb (fle active (fz 0) || flt sleep (fz 0)) or ValueError ;;
  Ok (mkP (fmul (fz (10 ^ 15)) active) (fmul (fz (10 ^ 15)) sleep)).
Definition pow_step (t : ptarget) (uV : Z) (pg : bool) : res f64 :=
  let* v := py_float uV in fdiv (if pg then pt_active t else pt_sleep t) v.

(** ** Diode and resistor, lines 45-101 *)

(** Python's [math.log] and [math.expm1]. *)
Record pymath := mkMath { m_log : f64 -> res f64; m_expm1 : f64 -> res f64 }.

(** Lines 76-83: the constants 1.380649e-23, 1.6021766e-19 and the thermal voltage times the ideality factor. *)
Definition k_boltzmann : f64 := fbin 4698105096070268 (-128).
Definition q_charge : f64 := fbin 6655181221598409 (-115).
Definition T_junction : f64 := fadd (fz 100) (fdec 27315 2).
Definition c1 : f64 := fmul (idiv (fmul k_boltzmann T_junction) q_charge) (fz 2).

Record dtarget := mkD { dt_IS : f64; dt_R : f64; dt_ctrl : bool }.
(** Lines 59-87. *)
Definition diode_init (m : pymath) (Vf If R_Ohm : f64) (ctrl : bool) : res dtarget :=
  guard negb (fle R_Ohm (fdec 1 3)) or ValueError ;;
  guard negb (fle Vf (fdec 2 1)) or ValueError ;;
  guard negb (fle If (fz 0)) or ValueError ;;
  let* a := fdiv Vf c1 in
  let* e := m_expm1 m a in
  let* IS := fdiv If e in
  Ok (mkD IS R_Ohm ctrl).

(** Lines 95-107: one pass of the loop: new diode voltage, both currents, and whether the loop ends. *)
Definition diode_pass (m : pymath) (t : dtarget) (Vcc Vd : f64) : res (f64 * f64 * f64 * bool) :=
  let* x := fdiv (fsub Vcc Vd) (fmul (dt_R t) (dt_IS t)) in
  let* Vd1 := match m_log m (fadd (fz 1) x) with
              | Ok l => Ok (fmul c1 l)
              | Err ValueError => Ok Vd
              | Err e => Err e
              end in
  let* ir := fdiv (fsub Vcc Vd1) (dt_R t) in
  let IR := fmax (fz 0) ir in
  let* a := fdiv Vd1 c1 in
  let* e := m_expm1 m a in
  let ID := fmax (fz 0) (fmul (dt_IS t) e) in
  let stop := match fdiv IR ID with
              | Ok q => flt (fabs (fsub q (fz 1))) (fdec 1 6)
              | Err _ => false
              end in
  let* h := fdiv (fmul (dt_R t) (fadd IR ID)) (fz 2) in
  Ok (fsub Vcc h, IR, ID, stop).

(** The loop, [n + 1] passes left; the currents of the last pass. *)
Fixpoint diode_loop (m : pymath) (t : dtarget) (n : nat) (Vcc Vd : f64) : res (f64 * f64) :=
  let* r := diode_pass m t Vcc Vd in
  let '(Vd', IR, ID, stop) := r in
  match n with
  | S k => if stop then Ok (IR, ID) else diode_loop m t k Vcc Vd'
  | O => Ok (IR, ID)
  end.

(** Lines 89-109. *)
Definition diode_step (m : pymath) (t : dtarget) (uV : Z) (pg : bool) : res f64 :=
  if pg || negb (dt_ctrl t) then
    let* v := py_float uV in
    let Vcc := fmul v (fdec 1 6) in
    let* Vd := fdiv Vcc (fz 2) in
    let* r := diode_loop m t 9 Vcc Vd in
    fdiv (fmul (fz (10 ^ 9)) (fadd (fst r) (snd r))) (fz 2)
  else Ok (fz 0).

(** The targets together. *)
Inductive target := T_res (t : rtarget) | T_cur (t : ctarget) | T_pow (t : ptarget) | T_diode (t : dtarget).
Definition tgt_step (m : pymath) (t : target) (uV : Z) (pg : bool) : res f64 :=
  match t with
  | T_res t => res_step t uV pg
  | T_cur t => cur_step t uV pg
  | T_pow t => pow_step t uV pg
  | T_diode t => diode_step m t uV pg
  end.

(** ** Events: observer_features.py lines 98-119 *)
Record gevent := mkEv { ev_delay : f64; ev_period : f64; ev_count : Z }.
(** Lines 101-108: the constraints.  The check of the pin (lines 110-115) is left out. *)
Definition valid_event (e : gevent) : bool :=
  is_finite (ev_delay e) && flt (fz 0) (ev_delay e)
  && is_finite (ev_period e) && fle (fdec 1 5) (ev_period e)
  && in_rangeZ 1 4096 (ev_count e).

(** [np.arange(start, stop, step)] on floats (numpy/core/src/multiarray/ctors.c: [_calc_length],
    [PyArray_ArangeObj]; arraytypes.c.src: [DOUBLE_fill]): the length is the ceiling of the rounded quotient; the
    first two elements are [start] and [start + step]; all others use the rounded difference of these two.
    A length that is no machine integer raises. *)
Definition fceil (x : f64) : Z := Btrunc (Bnearbyint mode_UP x).
Definition arange_len (start stop step : f64) : res Z :=
  let d := fsub stop start in
  let* q := fdiv d step in
  if feq q (fz 0) && negb (feq d (fz 0)) then Ok (if Bsign q then 0 else 1)
  else if is_finite q then
    let n := fceil q in
    if (- 2 ^ 63 <=? n) && (n <? 2 ^ 63) then Ok n else Err ValueError
  else Err ValueError.
Definition arange_at (start step : f64) (k : Z) : f64 :=
  if k =? 0 then start
  else if k =? 1 then fadd start step
  else fadd start (fmul (fz k) (fsub (fadd start step) start)).
Definition arange (start stop step : f64) : res (list f64) :=
  let* n := arange_len start stop step in
  Ok (map (fun k => arange_at start step (Z.of_nat k)) (seq 0 (Z.to_nat n))).

(** Lines 117-119: [get_events]. *)
Definition get_events (e : gevent) : res (list f64) :=
  let stop := fadd (ev_delay e) (fmul (fz (ev_count e)) (ev_period e)) in
  arange (ev_delay e) stop (ev_period e).
