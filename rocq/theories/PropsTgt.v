(** Properties of events and virtual targets: C53, C54, C77. *)
From Coq Require Import ZArith Bool Reals Lia Lra List.
From Flocq Require Import Core IEEE754.BinarySingleNaN.
From Verif Require Import PyBase F64 F64x CalSpec CfgModel CfgHrvProofs TgtModel TgtSpec TgtProofs TgtDiodeProofs TgtEventProofs TgtMathProofs TgtSolveProofs TgtConvProofs.
Import ListNotations.
Open Scope Z_scope.

(** ** C53: events *)

(** Delays and periods that are binary fractions: exactly [count] events at the exact times. *)
Theorem C53_exact e : valid_event e = true -> binary_times e ->
  exists l, get_events e = Ok l /\ Z.of_nat (List.length l) = ev_count e
    /\ forall k, (k < List.length l)%nat -> fin (nth k l (fz 0)) = true /\ fR (nth k l (fz 0)) = event_time e (Z.of_nat k).
Proof. exact (events_exact e). Qed.
Print Assumptions C53_exact.

(** All others: at most one event too many; every event is near to its time. *)
Theorem C53_close e : valid_event e = true ->
  (fR (ev_period e) <= bpow radix2 900)%R -> (fR (ev_delay e) <= bpow radix2 40 * fR (ev_period e))%R ->
  exists l, get_events e = Ok l
    /\ (Z.of_nat (List.length l) = ev_count e \/ Z.of_nat (List.length l) = ev_count e + 1)
    /\ forall k, (k < List.length l)%nat -> fin (nth k l (fz 0)) = true
         /\ (Rabs (fR (nth k l (fz 0)) - event_time e (Z.of_nat k))
               <= (IZR (Z.of_nat k) + 1) * (fR (ev_delay e) + fR (ev_period e)) * bpow radix2 (-50))%R.
Proof. exact (events_close e). Qed.
Print Assumptions C53_close.

(** Number of events of a configuration, for the examples. *)
Definition event_count (e : gevent) : option Z :=
  match get_events e with Ok l => Some (Z.of_nat (List.length l)) | Err _ => None end.

(** Three events after 0.1 s with a period of 0.1 s are four; a long delay leaves none. *)
Theorem C53_exact_refuted : exists e e', valid_event e = true /\ valid_event e' = true
  /\ ev_count e = 3 /\ event_count e = Some 4 /\ ev_count e' = 3 /\ event_count e' = Some 0.
Proof. exists (mkEv (fdec 1 1) (fdec 1 1) 3), (mkEv (fz (2 ^ 60)) (fz 1) 3). repeat split; vm_compute; reflexivity. Qed.
Print Assumptions C53_exact_refuted.

Example C53_ex_default : valid_event (mkEv (fz 1) (fz 1) 1) = true /\ event_count (mkEv (fz 1) (fz 1) 1) = Some 1.
Proof. split; vm_compute; reflexivity. Qed.
Example C53_ex_binary : binary_times (mkEv (fz 10) (fdec 25 2) 1000).
Proof.
  exists 40, 1, 2. cbn [ev_delay ev_period ev_count]. change (bpow radix2 (- (2))) with (/ 4)%R.
  destruct (fz_ok 10) as [_ ->]; [lia|]. destruct (cst (fdec 25 2) 4503599627370496 (-54)) as [_ ->]; [vm_compute; reflexivity|].
  change (bpow radix2 (-54)) with (/ 18014398509481984)%R. repeat split; lra || lia.
Qed.
Example C53_ex_times : match get_events (mkEv (fz 10) (fdec 25 2) 20) with
  | Ok l => (List.length l, feq (nth 19 l (fz 0)) (fdec 1475 2)) = (20%nat, true) | Err _ => False end.
Proof. vm_compute. reflexivity. Qed.

(** ** C54: targets draw a proper current *)

(** The resistor follows Ohm's law. *)
Theorem C54_resistor R c t uV pg : fin R = true -> (fR R <= bpow radix2 900)%R -> res_init R c = Ok t -> 0 <= uV <= 2 ^ 53 ->
  exists i, res_step t uV pg = Ok i /\ proper i
    /\ (pg = true \/ c = false ->
          (Rabs (fR i - IZR uV / (fR R / 1000)) <= IZR uV / (fR R / 1000) * bpow radix2 (-49) + bpow radix2 (-1074))%R)
    /\ (pg = false -> c = true -> fR i = 0%R).
Proof. exact (resistor R c t uV pg). Qed.
Print Assumptions C54_resistor.

(** The constant current in nA. *)
Theorem C54_current a s t uV pg : fin a = true -> fin s = true -> (fR a <= bpow radix2 900)%R -> (fR s <= bpow radix2 900)%R ->
  cur_init a s = Ok t ->
  exists i, cur_step t uV pg = Ok i /\ proper i /\ fR i = rnd (1000000000 * (if pg then fR a else fR s)).
Proof. exact (current a s t uV pg). Qed.
Print Assumptions C54_current.

(** Constant power: the current for it, at any voltage but zero. *)
Theorem C54_power a s t uV pg : fin a = true -> fin s = true -> (fR a <= bpow radix2 900)%R -> (fR s <= bpow radix2 900)%R ->
  pow_init a s = Ok t -> 0 <= uV <= 2 ^ 53 ->
  (1 <= uV -> exists i, pow_step t uV pg = Ok i /\ proper i
     /\ fR i = rnd (rnd (1000000000000000 * (if pg then fR a else fR s)) / IZR uV))
  /\ (uV = 0 -> pow_step t uV pg = Err ZeroDivisionError).
Proof. exact (power a s t uV pg). Qed.
Print Assumptions C54_power.

(** The diode never draws a negative or undefined current, whatever the mathematical functions return. *)
Theorem C54_diode_sign m t uV pg i : diode_step m t uV pg = Ok i -> not_negative i.
Proof. exact (diode_sign m t uV pg i). Qed.
Print Assumptions C54_diode_sign.

(** The exception of the logarithm (low voltages) is handled inside: no step ends with it. *)
Theorem C54_diode_exception m t uV pg : (forall x, m_expm1 m x <> Err ValueError) -> diode_step m t uV pg <> Err ValueError.
Proof. exact (diode_exc m t uV pg). Qed.
Print Assumptions C54_diode_exception.

(** With accurate functions all diodes of usual size are accepted, and a step draws a finite current of at most
    three times what the resistor and the scale current allow. *)
Theorem C54_diode m Vf If R c uV pg : log_ok m -> expm1_ok m -> usual_diode Vf If R ->
  fle R (fdec 1 3) = false -> fle Vf (fdec 2 1) = false -> 0 <= uV < 2 ^ 32 ->
  exists t i, diode_init m Vf If R c = Ok t /\ dt_R t = R /\ diode_step m t uV pg = Ok i /\ proper i
    /\ (fR i <= 3000000000 * (IZR uV / 1000000 / fR R + fR (dt_IS t)))%R
    /\ (pg = false -> c = true -> fR i = 0%R).
Proof.
  intros ML ME U G1 G2 HU. destruct (diode_built m Vf If R c ME U G1 G2) as (t & E & T & ER & EC).
  destruct (diode_bounded m t uV pg ML ME T HU) as (i & H1 & H2 & H3 & H4). rewrite ER in H3. rewrite EC in H4.
  exists t, i. auto 10.
Qed.
Print Assumptions C54_diode.

(** A diode accepted by the constructor is of this kind. *)
Theorem C54_diode_accepted m Vf If R c t : diode_init m Vf If R c = Ok t ->
  fle R (fdec 1 3) = false /\ fle Vf (fdec 2 1) = false /\ fle If (fz 0) = false.
Proof.
  unfold diode_init. destruct (fle R (fdec 1 3)); [intros H; discriminate H|]. destruct (fle Vf (fdec 2 1)); [intros H; discriminate H|].
  destruct (fle If (fz 0)); [intros H; discriminate H|]. auto.
Qed.
Print Assumptions C54_diode_accepted.

(** The assumptions about the mathematical functions can be met: by correctly rounded ones. *)
Theorem C54_accurate_functions_exist : exists m, log_ok m /\ expm1_ok m.
Proof. exists real_math. split; [exact real_log|exact real_expm1]. Qed.
Print Assumptions C54_accurate_functions_exist.

(** Every target of constant power fails as soon as its supply is off. *)
Theorem C54_refuted : exists t pg, pow_init (fdec 2 3) (fz 0) = Ok t /\ pow_step t 0 pg = Err ZeroDivisionError.
Proof. eexists. exists true. split; [reflexivity|]. vm_compute. reflexivity. Qed.
Print Assumptions C54_refuted.

(** The constructors accept undefined parameters, and so the resistor draws an undefined current. *)
Theorem C54_nan_refuted : exists t, res_init B754_nan false = Ok t
  /\ match res_step t 1000000 true with Ok i => isnan i = true | Err _ => False end.
Proof. eexists. split; [reflexivity|]. vm_compute. reflexivity. Qed.
Print Assumptions C54_nan_refuted.

(** Results for the examples, without fraction. *)
Definition whole (r : res f64) : option Z := match r with Ok i => Some (Btrunc i) | Err _ => None end.
Example C54_ex_resistor : match res_init (fz 1000) true with
  | Ok t => whole (res_step t 3000000 true) = Some 3000000 /\ whole (res_step t 3000000 false) = Some 0 | Err _ => False end.
Proof. vm_compute. split; reflexivity. Qed.
Example C54_ex_current : match cur_init (fdec 1 3) (fdec 1 6) with
  | Ok t => whole (cur_step t 0 true) = Some 1000000 /\ whole (cur_step t 0 false) = Some 1000 | Err _ => False end.
Proof. vm_compute. split; reflexivity. Qed.
Example C54_ex_power : match pow_init (fdec 2 3) (fdec 1 6) with
  | Ok t => whole (pow_step t 2000000 true) = Some 1000000 /\ whole (pow_step t 2000000 false) = Some 500 | Err _ => False end.
Proof. vm_compute. split; reflexivity. Qed.
Example C54_ex_rejected : res_init (fz 0) true = Err ValueError /\ cur_init (fz 0) (fz 1) = Err ValueError /\ pow_init (fz 1) (fz (-1)) = Err ValueError.
Proof. repeat split; vm_compute; reflexivity. Qed.

(** ** C77: diode and resistor draw the current of the circuit *)

(** The red LED of the documentation: 20 mA at 2 V, with 100 Ohm. *)
Definition led_V : f64 := fz 2.
Definition led_I : f64 := fdec 2 2.
Definition led_R : f64 := fz 100.

(** Voltages high enough that 65 mV fall across the resistor: the current of the circuit, within about 0.1 percent
    of the current that the resistor alone would draw. *)
Theorem C77_solves m Vf If R c t uV pg I : log_ok m -> expm1_ok m -> usual_diode Vf If R -> diode_init m Vf If R c = Ok t ->
  0 <= uV <= 40 * 10 ^ 6 -> (fR R * scale_current (fR Vf) (fR If) <= 40)%R -> pg = true \/ c = false ->
  circuit (fR Vf) (fR If) (fR R) (IZR uV / 1000000) I -> (65 / 1000 <= fR R * I)%R ->
  exists i, diode_step m t uV pg = Ok i /\ proper i
    /\ (Rabs (fR i * / 1000000000 - I) <= (IZR uV / 1000000 / 1500 + fR R * scale_current (fR Vf) (fR If) / 5000 + / 100000) / fR R)%R.
Proof. exact (diode_solves m Vf If R c t uV pg I). Qed.
Print Assumptions C77_solves.

(** The circuit has a current for every voltage. *)
Theorem C77_circuit_exists Vf If R V : (0 < scale_current Vf If)%R -> (0 < R)%R -> (0 < V)%R -> exists I, circuit Vf If R V I.
Proof. exact (circuit_exists Vf If R V). Qed.
Print Assumptions C77_circuit_exists.

(** Lower voltages: at half a volt the LED draws more than 2 uA instead of less than 0.1 nA. *)
Theorem C77_solves_refuted m pg : log_ok m -> expm1_ok m -> exists t i, diode_init m led_V led_I led_R false = Ok t
  /\ diode_step m t 500000 pg = Ok i /\ (2000 <= fR i)%R
  /\ forall I, circuit (fR led_V) (fR led_I) (fR led_R) (/ 2) I -> (I * 1000000000 <= / 10)%R.
Proof. exact (diode_wrong m pg). Qed.
Print Assumptions C77_solves_refuted.

(** The LED at 3 V: [C77_solves] applies. *)
Example C77_ex_led I : circuit (fR led_V) (fR led_I) (fR led_R) 3 I -> (65 / 1000 <= fR led_R * I)%R
  /\ (fR led_R * scale_current (fR led_V) (fR led_I) <= 40)%R.
Proof.
  unfold led_V, led_I, led_R, circuit. destruct (fz_ok 2) as [_ ->]; [lia|]. destruct (fz_ok 100) as [_ ->]; [lia|].
  destruct (cst (fdec 2 2) 5764607523034235 (-58)) as [_ RI]; [vm_compute; reflexivity|]. change (bpow radix2 (-58)) with (/ 288230376151711744)%R in RI.
  destruct thermal_c1 as [_ TB].
  assert (L : (4398046511104 <= exp (2 / thermal))%R).
  { change 4398046511104%R with (bpow radix2 42). eapply Rle_trans; [apply exp_31|]. apply exp_mono.
    apply Rmult_le_reg_r with thermal; [lra|]. replace (2 / thermal * thermal)%R with 2%R by (field; lra). lra. }
  unfold scale_current. rewrite RI.
  set (S := (5764607523034235 * / 288230376151711744 / (exp (2 / thermal) - 1))%R).
  assert (IP : (0 < / (exp (2 / thermal) - 1))%R) by (apply Rinv_0_lt_compat; lra).
  assert (SE : (S * (exp (2 / thermal) - 1) = 5764607523034235 * / 288230376151711744)%R) by (unfold S; field; lra).
  assert (SP : (0 < S)%R) by (unfold S, Rdiv; apply Rmult_lt_0_compat; lra).
  intros [HI HC]. split; [|unfold S in *; nra].
  destruct (Rle_lt_dec (65 / 1000) (100 * I)) as [C|C]; [exact C|exfalso].
  assert (X : (I / S <= exp (2 / thermal) - 1)%R).
  { apply Rmult_le_reg_r with S; [exact SP|]. replace (I / S * S)%R with I by (field; lra). lra. }
  assert (Y : (0 <= I / S)%R) by (apply Rmult_le_pos; [lra|left; now apply Rinv_0_lt_compat]).
  assert (Z0 : (ln (1 + I / S) <= 2 / thermal)%R) by (rewrite <- (ln_exp (2 / thermal)); apply ln_mono; lra).
  assert (Z1 : (thermal * ln (1 + I / S) <= 2)%R).
  { apply Rle_trans with (thermal * (2 / thermal))%R; [apply Rmult_le_compat_l; lra|]. right. field. lra. }
  lra.
Qed.
