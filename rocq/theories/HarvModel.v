(** Model of shepherd_core/shepherd_core/vsource/virtual_harvester_model.py
    (class VirtualHarvesterModel), function by function.
    Samples are integers (uV, nA), as the Python signatures say. *)
From Verif Require Import PyBase.
From RecordUpdate Require Import RecordUpdate.
Open Scope Z_scope.

(** The registers read by the model.
    data_models/content/virtual_harvester.py:209-234 (class HarvesterPRUConfig); all fields are u32.
    [wait_cycles_n] is not read by the model and left out. *)
Record hcfg := mkHcfg {
  h_algorithm : Z;
  h_mode : Z;            (* hrv_mode *)
  h_window : Z;          (* window_size *)
  h_voltage : Z;         (* voltage_uV *)
  h_vmin : Z;            (* voltage_min_uV *)
  h_vmax : Z;            (* voltage_max_uV *)
  h_vstep : Z;           (* voltage_step_uV *)
  h_ilimit : Z;          (* current_limit_nA *)
  h_setpoint_n8 : Z;
  h_interval : Z;        (* interval_n *)
  h_duration : Z         (* duration_n *)
}.

(** A sample handed to [ivcurve_sample]: (voltage_uV, current_nA). *)
Definition sample : Type := (Z * Z)%type.

(** virtual_harvester_model.py:28-32 *)
Definition HRV_IVCURVE : Z := 2 ^ 4.
Definition HRV_CV : Z := 2 ^ 8.
Definition HRV_MPPT_VOC : Z := 2 ^ 12.
Definition HRV_MPPT_PO : Z := 2 ^ 13.
Definition HRV_MPPT_OPT : Z := 2 ^ 14.

(** The attributes of the object, virtual_harvester_model.py:34-95.
    [compare_last] starts as the integer 0 in Python, which compares like [False]. *)
Record hst := mkHst {
  voltage_set : Z;
  interval_step : Z;
  is_rising : bool;
  volt_step : Z;
  voltage_hold : Z;
  current_hold : Z;
  step_x4 : Z;            (* voltage_step_x4_uV *)
  age_max : Z;
  voltage_last : Z;
  current_last : Z;
  compare_last : bool;
  lin_extrapolation : bool;
  current_delta : Z;
  voltage_delta : Z;
  age_now : Z;
  voc_now : Z;
  age_nxt : Z;
  voc_nxt : Z;
  voc_min : Z;
  power_last : Z;
  power_now : Z;
  voltage_now : Z;
  current_now : Z;
  power_nxt : Z;
  voltage_nxt : Z;
  current_nxt : Z
}.
#[export] Instance eta_hst : Settable _ := settable! mkHst
  <voltage_set; interval_step; is_rising; volt_step; voltage_hold; current_hold; step_x4;
   age_max; voltage_last; current_last; compare_last; lin_extrapolation; current_delta;
   voltage_delta; age_now; voc_now; age_nxt; voc_nxt; voc_min; power_last; power_now;
   voltage_now; current_now; power_nxt; voltage_nxt; current_nxt>.

(** __init__, virtual_harvester_model.py:34-95.  [is_emu] only selects a log message. *)
Definition h_init (c : hcfg) : hst := {|
  voltage_set := h_voltage c + 1;
  interval_step :=
    if h_interval c >? 2 * h_window c then h_interval c - 2 * h_window c else 2 ^ 30;
  is_rising := Z.testbit (h_mode c) 1;
  volt_step := h_vstep c;
  voltage_hold := 0;
  current_hold := 0;
  step_x4 := 4 * h_vstep c;
  age_max := 2 * h_window c;
  voltage_last := 0;
  current_last := 0;
  compare_last := false;
  lin_extrapolation := Z.testbit (h_mode c) 2;
  current_delta := 0;
  voltage_delta := 0;
  age_now := 0;
  voc_now := h_vmax c;
  age_nxt := 0;
  voc_nxt := h_vmax c;
  voc_min := Z.max 1000 (h_vmin c);
  power_last := 0;
  power_now := 0;
  voltage_now := 0;
  current_now := 0;
  power_nxt := 0;
  voltage_nxt := 0;
  current_nxt := 0
|}.

(** ivcurve_2_cv, virtual_harvester_model.py:111-147 *)
Definition ivcurve_2_cv (s : hst) (x : sample) : hst * sample :=
  let (v, i) := x in
  let compare_now := v <? voltage_set s in
  let step_size_now := Z.abs (v - voltage_last s) in
  let distance_now := Z.abs (v - voltage_set s) in
  let distance_last := Z.abs (voltage_last s - voltage_set s) in
  let s1 :=
    if negb (Bool.eqb compare_now (compare_last s)) && (step_size_now <? step_x4 s) then
      if (distance_now <? distance_last) && (distance_now <? step_x4 s) then
        s <| voltage_hold := v |> <| current_hold := i |>
          <| current_delta := i - current_last s |> <| voltage_delta := v - voltage_last s |>
      else if (distance_last <? distance_now) && (distance_last <? step_x4 s) then
        s <| voltage_hold := voltage_last s |> <| current_hold := current_last s |>
          <| current_delta := i - current_last s |> <| voltage_delta := v - voltage_last s |>
      else s
    else if lin_extrapolation s then
      if Bool.eqb (voltage_hold s <? voltage_set s) (voltage_delta s >? 0) then
        s <| voltage_hold := voltage_hold s + voltage_delta s |>
          <| current_hold := current_hold s + current_delta s |>
      else
        let vh := if voltage_hold s >? voltage_delta s
                  then voltage_hold s - voltage_delta s else 0 in
        let ih := if current_hold s >? current_delta s
                  then current_hold s - current_delta s else 0 in
        s <| voltage_hold := vh |> <| current_hold := ih |>
    else s in
  let s2 := s1 <| voltage_last := v |> <| current_last := i |> <| compare_last := compare_now |> in
  (s2, (voltage_hold s2, current_hold s2)).

(** The counter update shared by ivcurve_2_mppt_voc and ivcurve_2_mppt_po,
    virtual_harvester_model.py:150-152 and 180-182. *)
Definition tick_interval (c : hcfg) (s : hst) : hst :=
  let n := interval_step s + 1 in
  s <| interval_step := if n >=? h_interval c then 0 else n |>.

(** The estimate-tracking part of ivcurve_2_mppt_voc, virtual_harvester_model.py:150-169. *)
Definition voc_track (c : hcfg) (s0 : hst) (x : sample) : hst :=
  let (v, i) := x in
  let s1 := tick_interval c s0 in
  let s2 := s1 <| age_nxt := age_nxt s1 + 1 |> <| age_now := age_now s1 + 1 |> in
  let s3 :=
    if (i <? h_ilimit c) && (v <? voc_nxt s2) && (v >=? voc_min s2) && (v <=? h_vmax c)
    then s2 <| voc_nxt := v |> <| age_nxt := 0 |>
    else s2 in
  if (age_now s3 >? age_max s3) || (voc_nxt s3 <=? voc_now s3)
  then s3 <| age_now := age_nxt s3 |> <| voc_now := voc_nxt s3 |>
          <| age_nxt := 0 |> <| voc_nxt := h_vmax c |>
  else s3.

(** ivcurve_2_mppt_voc, virtual_harvester_model.py:149-177.
    [int(voc_now * setpoint_n8 / 256)] is a float division: the model uses exact truncation,
    which agrees as long as voc_now * setpoint_n8 < 2^53
    (from_vhrv delivers setpoint_n8 <= 255 and voltages below 2^23). *)
Definition ivcurve_2_mppt_voc (c : hcfg) (s0 : hst) (x : sample) : hst * sample :=
  let (s5, out) := ivcurve_2_cv (voc_track c s0 x) x in
  let s6 :=
    if interval_step s5 <? h_duration c then s5 <| voltage_set := voc_now s5 |>
    else if interval_step s5 =? h_duration c
      then s5 <| voltage_set := Z.quot (voc_now s5 * h_setpoint_n8 c) 256 |>
      else s5 in
  (s6, out).

(** The perturbation step of ivcurve_2_mppt_po, virtual_harvester_model.py:187-206. *)
Definition po_perturb (c : hcfg) (s : hst) (power : Z) : hst :=
  let s1 :=
    if power >? power_last s then
      s <| voltage_set := if is_rising s then voltage_set s + volt_step s
                          else voltage_set s - volt_step s |>
        <| volt_step := volt_step s * 2 |>
    else if (power <=? 0) && (voltage_set s >? 0) then
      s <| is_rising := true |> <| volt_step := h_vstep c |>
        <| voltage_set := voltage_set s - step_x4 s |>
    else
      s <| is_rising := negb (is_rising s) |> <| volt_step := h_vstep c |>
        <| voltage_set := if negb (is_rising s) then voltage_set s + h_vstep c
                          else voltage_set s - h_vstep c |> in
  s1 <| power_last := power |>.

(** The limits applied to the setpoint, virtual_harvester_model.py:208-219. *)
Definition po_limit (c : hcfg) (s : hst) : hst :=
  let s1 := if voltage_set s >=? h_vmax c
            then s <| voltage_set := h_vmax c |> <| is_rising := false |> <| volt_step := h_vstep c |>
            else s in
  let s2 := if voltage_set s1 <=? h_vmin c
            then s1 <| voltage_set := h_vmin c |> <| is_rising := true |> <| volt_step := h_vstep c |>
            else s1 in
  if voltage_set s2 <=? h_vstep c
  then s2 <| voltage_set := h_vstep c |> <| is_rising := true |> <| volt_step := h_vstep c |>
  else s2.

(** ivcurve_2_mppt_po, virtual_harvester_model.py:179-221 *)
Definition ivcurve_2_mppt_po (c : hcfg) (s0 : hst) (x : sample) : hst * sample :=
  let s1 := tick_interval c s0 in
  let (s2, out) := ivcurve_2_cv s1 x in
  let s3 := if interval_step s2 =? 0
            then po_limit c (po_perturb c s2 (fst out * snd out))
            else s2 in
  (s3, out).

(** ivcurve_2_mppt_opt, virtual_harvester_model.py:223-248 *)
Definition ivcurve_2_mppt_opt (c : hcfg) (s0 : hst) (x : sample) : hst * sample :=
  let (v, i) := x in
  let s1 := s0 <| age_now := age_now s0 + 1 |> <| age_nxt := age_nxt s0 + 1 |> in
  let power := v * i in
  let s2 :=
    if (power >=? power_nxt s1) && (v >=? h_vmin c) && (v <=? h_vmax c)
    then s1 <| age_nxt := 0 |> <| power_nxt := power |> <| voltage_nxt := v |> <| current_nxt := i |>
    else s1 in
  let s3 :=
    if (age_now s2 >? age_max s2) || (power_nxt s2 >=? power_now s2)
    then s2 <| age_now := age_nxt s2 |> <| power_now := power_nxt s2 |>
            <| voltage_now := voltage_nxt s2 |> <| current_now := current_nxt s2 |>
            <| age_nxt := 0 |> <| power_nxt := 0 |> <| voltage_nxt := 0 |> <| current_nxt := 0 |>
    else s2 in
  (s3, (voltage_now s3, current_now s3)).

(** ivcurve_sample, virtual_harvester_model.py:97-109 *)
Definition ivcurve_sample (c : hcfg) (s : hst) (x : sample) : hst * sample :=
  if h_window c <=? 1 then (s, x)
  else if h_algorithm c >=? HRV_MPPT_OPT then ivcurve_2_mppt_opt c s x
  else if h_algorithm c >=? HRV_MPPT_PO then ivcurve_2_mppt_po c s x
  else if h_algorithm c >=? HRV_MPPT_VOC then ivcurve_2_mppt_voc c s x
  else if h_algorithm c >=? HRV_CV then ivcurve_2_cv s x
  else (s, x).

(** Feeding a stream, one call of ivcurve_sample per element
    (the inner loop of virtual_harvester_simulation.py:52-58). *)
Fixpoint h_run (c : hcfg) (s : hst) (xs : list sample) : hst * list sample :=
  match xs with
  | [] => (s, [])
  | x :: r =>
      let (s1, y) := ivcurve_sample c s x in
      let (s2, ys) := h_run c s1 r in
      (s2, y :: ys)
  end.

(** State and outputs after feeding a stream to a fresh object. *)
Definition h_state (c : hcfg) (xs : list sample) : hst := fst (h_run c (h_init c) xs).
Definition h_outputs (c : hcfg) (xs : list sample) : list sample := snd (h_run c (h_init c) xs).
