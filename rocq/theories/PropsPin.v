(** Properties C115 and C116: pins and the features of an observer. *)
From Coq Require Import String Ascii QArith.
From Verif Require Import PyBase FixModel FixSpec PinModel PinSpec PinProofs.
From Coq Require Import Lia.
Open Scope Z_scope.
Open Scope list_scope.

(** * C115 *)

(** A pin is accepted just if every field is in order and it is connected to the PRU or to the system. *)
Theorem C115_pin :
  forall d, (forall g, gpio_of d = Ok g <-> describes d g /\ connected g) /\
            (forall e, gpio_of d = Err e -> e = ValueError).
Proof. exact (fun d => conj (gpio_spec d) (gpio_err d)). Qed.
Print Assumptions C115_pin.

(** An event is accepted just if its times are in range and its pin is one of a target that can be driven. *)
Theorem C115_event :
  forall e, (forall e', event_of e = Ok e' <->
               e' = e /\ (0 < e_delay e)%Q /\ (1 # 100000 <= e_period e)%Q /\ 1 <= e_count e <= 4096 /\
               target_pin (e_gpio e) /\ drivable (e_gpio e)) /\
            (forall x, event_of e = Err x -> x = ValueError).
Proof. exact (fun e => conj (event_spec e) (event_err e)). Qed.
Print Assumptions C115_event.

Theorem C115_actuation :
  forall es es', actuation_of es = Ok es' <-> es' = es /\ (1 <= List.length es <= 1024)%nat.
Proof. exact actuation_spec. Qed.
Print Assumptions C115_actuation.

(** On cape v2.4, the pins that can be driven by name are GPIO0 to GPIO3 and GPIO8 ... *)
Theorem C115_by_name :
  forall n x s dl lv pd ct, insert_all [] cape24 = Ok x ->
  (exists g e, gpio_make (S n) x [("name", VStr s)]%string = Ok g /\ event_of (mkEvent dl g lv pd ct) = Ok e) <->
  (0 < dl)%Q /\ (1 # 100000 <= pd)%Q /\ 1 <= ct <= 4096 /\
  exists t, In t ["GPIO0"; "GPIO1"; "GPIO2"; "GPIO3"; "GPIO8"]%string /\ same_text t s.
Proof. exact cape_event_name. Qed.
Print Assumptions C115_by_name.

(** ... and the same by id. *)
Theorem C115_by_id :
  forall n x z dl lv pd ct, insert_all [] cape24 = Ok x ->
  (exists g e, gpio_make (S n) x [("id", VInt z)]%string = Ok g /\ event_of (mkEvent dl g lv pd ct) = Ok e) <->
  (0 < dl)%Q /\ (1 # 100000 <= pd)%Q /\ 1 <= ct <= 4096 /\ In z [1000; 1001; 1002; 1003; 1008].
Proof. exact cape_event_id. Qed.
Print Assumptions C115_by_id.

(** A pin asked for by name or id is the pin of the cape. *)
Theorem C115_cape :
  forall n x k v g, insert_all [] cape24 = Ok x -> (k = "name" \/ k = "id")%string ->
  gpio_make (S n) x [(k, v)] = Ok g ->
  exists w, In w cape24 /\ describes (w_params w) g /\
    (k = "name"%string -> exists s, v = VStr s /\ named "GPIO" s w) /\
    (k = "id"%string -> with_id "GPIO" v w).
Proof. exact cape_pin. Qed.
Print Assumptions C115_cape.

(** Each pin of the cape can be had by its name and its id; a pin that switches a direction exists, and is an output. *)
Theorem C115_complete :
  forall w, In w cape24 -> exists x s z g, insert_all [] cape24 = Ok x /\
  entry "name" (w_params w) = Some (VStr s) /\ entry "id" (w_params w) = Some (VInt z) /\
  gpio_make 1 x [("name", VStr s)]%string = Ok g /\ gpio_make 1 x [("id", VInt z)]%string = Ok g /\
  forall t, g_switch g = Some t -> exists s' h, codes s' = t /\
    gpio_make 1 x [("name", VStr s')]%string = Ok h /\ g_direction h = DOut.
Proof.
  intros w H. exists cape. unfold cape24 in H.
  repeat (destruct H as [H|H]; [subst w; eexists; eexists; eexists; split; [exact cape_filled|];
    split; [reflexivity|]; split; [reflexivity|]; split; [vm_compute; reflexivity|];
    split; [vm_compute; reflexivity|]; cbn [g_switch]; intros t Ht;
    first [discriminate Ht
          |injection Ht as <-;
           first [exists "DIR1"%string; eexists; split; [vm_compute; reflexivity|split; vm_compute; reflexivity]
                 |exists "DIR2"%string; eexists; split; [vm_compute; reflexivity|split; vm_compute; reflexivity]
                 |exists "PDIR1"%string; eexists; split; [vm_compute; reflexivity|split; vm_compute; reflexivity]
                 |exists "PDIR2"%string; eexists; split; [vm_compute; reflexivity|split; vm_compute; reflexivity]]]|]).
  contradiction.
Qed.
Print Assumptions C115_complete.

(** The pins of an actuation: those of its events, each once ... *)
Theorem C115_gpios :
  forall es, NoDup (get_gpios es) /\ forall g, In g (get_gpios es) <-> exists e, In e es /\ e_gpio e = g.
Proof. exact gpios_spec. Qed.
Print Assumptions C115_gpios.

(** ... but the same pin counts twice if its comment differs. *)
Theorem C115_gpios_refuted :
  exists x g h es, insert_all [] cape24 = Ok x /\
  gpio_make 1 x [("name", VStr "GPIO0")]%string = Ok g /\
  gpio_make 1 x [("name", VStr "GPIO0"); ("comment", VStr "led")]%string = Ok h /\
  Forall (fun e => event_of e = Ok e /\ place (e_gpio e) = place g) es /\ actuation_of es = Ok es /\
  get_gpios es = [g; h] /\ g <> h.
Proof.
  exists cape. eexists. eexists.
  exists [mkEvent 1 (mkGpio 1000 (codes "GPIO0") None None DIO (Some (codes "DIR1")) (Some (codes "r31_00"))
                       (Some (codes "P8_45")) (Some 26) (Some (codes "P8_14"))) LHigh 1 1;
          mkEvent 2 (mkGpio 1000 (codes "GPIO0") None (Some (codes "led")) DIO (Some (codes "DIR1")) (Some (codes "r31_00"))
                       (Some (codes "P8_45")) (Some 26) (Some (codes "P8_14"))) LLow 1 1].
  split; [exact cape_filled|]. split; [vm_compute; reflexivity|]. split; [vm_compute; reflexivity|].
  split; [repeat constructor; vm_compute; reflexivity|]. split; [vm_compute; reflexivity|].
  split; [vm_compute; reflexivity|discriminate].
Qed.
Print Assumptions C115_gpios_refuted.

(** With a second field, an input of the cape is driven ... *)
Theorem C115_input_refuted :
  exists x w values g h e, insert_all [] cape24 = Ok x /\ In w cape24 /\
  gpio_make 1 x values = Ok g /\ event_of (mkEvent 1 g LHigh 1 1) = Ok e /\
  gpio_of (w_params w) = Ok h /\ place g = place h /\ g_name g = g_name h /\ ~ drivable h.
Proof.
  exists cape, (nth 4 cape24 (mkWrap "" [])), [("name", VStr "GPIO4"); ("direction", VStr "OUT")]%string.
  do 3 eexists. split; [exact cape_filled|]. split; [apply nth_In; cbn; lia|].
  split; [vm_compute; reflexivity|]. split; [vm_compute; reflexivity|]. split; [vm_compute; reflexivity|].
  split; [vm_compute; reflexivity|]. split; [vm_compute; reflexivity|]. intros [C|C]; discriminate C.
Qed.
Print Assumptions C115_input_refuted.

(** ... and with another name, a pin that is not for users. *)
Theorem C115_renamed_refuted :
  exists x w values g h e, insert_all [] cape24 = Ok x /\ In w cape24 /\
  gpio_make 1 x values = Ok g /\ event_of (mkEvent 1 g LHigh 1 1) = Ok e /\
  gpio_of (w_params w) = Ok h /\ place g = place h /\ g_id g = g_id h /\ ~ target_pin h.
Proof.
  exists cape, (nth 9 cape24 (mkWrap "" [])), [("id", VInt 1009); ("name", VStr "gpio_x")]%string.
  do 3 eexists. split; [exact cape_filled|]. split; [apply nth_In; cbn; lia|].
  split; [vm_compute; reflexivity|]. split; [vm_compute; reflexivity|]. split; [vm_compute; reflexivity|].
  split; [vm_compute; reflexivity|]. split; [vm_compute; reflexivity|].
  intros C. pose proof (proj2 (controllable_spec _) (conj C (or_introl eq_refl))) as X. vm_compute in X. discriminate X.
Qed.
Print Assumptions C115_renamed_refuted.

Example C115_ex_pin :
  gpio_of [("id", VInt 7); ("name", VStr " my pin "); ("reg_sys", VInt 0); ("pin_sys", VStr "P9_11")]%string
    = Ok (mkGpio 7 (codes "my pin") None None DIn None None None (Some 0) (Some (codes "P9_11"))) /\
  gpio_of [("id", VInt 7); ("name", VStr "my pin"); ("reg_sys", VInt 0); ("pin_pru", VStr "P9_11")]%string = Err ValueError /\
  gpio_of [("id", VInt 7); ("name", VStr "pin/x"); ("reg_sys", VInt 0); ("pin_sys", VStr "P9_11")]%string = Err ValueError.
Proof. repeat split; vm_compute; reflexivity. Qed.

Example C115_ex_name :
  gpio_make 1 cape [("name", VStr "gpIO8")]%string =
    Ok (mkGpio 1008 (codes "GPIO8") (Some (codes "alias UART_TX")) None DIO (Some (codes "DIR2"))
          (Some (codes "r31_08")) (Some (codes "P8_27")) (Some 15) (Some (codes "P9_24"))) /\
  gpio_make 1 cape [("name", VStr "GPIO9")]%string = Err ValueError /\
  gpio_make 1 cape [("name", VInt 1008)]%string = Err ValueError.
Proof. repeat split; vm_compute; reflexivity. Qed.

(** * C116 *)

(** Tracing of pins: accepted just if some pin is in the mask and everything is in range. *)
Theorem C116_gpio :
  forall t, (forall t', tracing_of t = Ok t' <->
               t' = t /\ 0 < t_mask t < 1024 /\ 2400 <= t_baud t <= 921600 /\ 0 <= t_delay t /\
               (forall d, t_duration t = Some d -> 0 <= d) /\
               (forall l, t_gpios t = Some l -> (1 <= List.length l <= 10)%nat)) /\
            (forall e, tracing_of t = Err e -> e = ValueError).
Proof. exact (fun t => conj (tracing_spec t) (tracing_err t)). Qed.
Print Assumptions C116_gpio.

(** The mask traces some pin. *)
Theorem C116_some_pin :
  forall t t', tracing_of t = Ok t' -> exists k, 0 <= k <= 9 /\ Z.testbit (t_mask t') k = true.
Proof. exact mask_bit. Qed.
Print Assumptions C116_some_pin.

(** The listed pins need not be in the mask, and pins in the mask need not be listed. *)
Theorem C116_mask_refuted :
  exists t g, tracing_of t = Ok t /\ t_gpios t = Some [g] /\ gpio_make 1 cape [("name", VStr "GPIO3")]%string = Ok g /\
  Z.testbit (t_mask t) 3 = false /\ Z.testbit (t_mask t) 5 = true.
Proof.
  eexists (mkTracing 32 (Some [_]) 0 None false _ 115200). eexists.
  split; [reflexivity|]. split; [reflexivity|]. split; [vm_compute; reflexivity|]. split; reflexivity.
  Unshelve. exact (mkGpio 1008 (codes "GPIO8") None None DIO None (Some (codes "r31_08")) (Some (codes "P8_27")) None None).
Qed.
Print Assumptions C116_mask_refuted.

(** The decoded pin need not be in the mask. *)
Theorem C116_uart_refuted :
  exists t, tracing_of t = Ok t /\ t_decode t = true /\
  gpio_make 1 cape [("name", VStr "GPIO8")]%string = Ok (t_uart t) /\ Z.testbit (t_mask t) 8 = false.
Proof.
  eexists (mkTracing 255 None 0 None true _ 115200).
  split; [reflexivity|]. split; [reflexivity|]. split; [vm_compute; reflexivity|reflexivity].
Qed.
Print Assumptions C116_uart_refuted.

(** Tracing of power: accepted just if everything is in range, something is kept, and no power is asked for. *)
Theorem C116_power :
  forall p p', power_of p = Ok p' <->
  p' = p /\ 10 <= p_rate p <= 100000 /\ 0 <= p_delay p /\ (forall d, p_duration p = Some d -> 0 <= d) /\
  p_calculate p = false /\ ~ (p_discard_current p = true /\ p_discard_voltage p = true).
Proof. exact power_spec. Qed.
Print Assumptions C116_power.

(** What is refused is refused by a ValueError, unless power is asked for ... *)
Theorem C116_refused :
  forall p e, power_of p = Err e -> e = ValueError \/ (e = NotImplementedError /\ p_calculate p = true).
Proof. exact power_err. Qed.
Print Assumptions C116_refused.

(** ... which is an offered field, but never works. *)
Theorem C116_power_refuted :
  forall p, p_calculate p = true -> 10 <= p_rate p <= 100000 -> 0 <= p_delay p ->
  (forall d, p_duration p = Some d -> 0 <= d) -> power_of p = Err NotImplementedError.
Proof. exact power_calculate. Qed.
Print Assumptions C116_power_refuted.

Example C116_ex_power :
  power_of (mkPower false 5000000 (Some 0) false 1000 true false) = Ok (mkPower false 5000000 (Some 0) false 1000 true false) /\
  power_of (mkPower false 0 (Some (-1)) false 1000 true false) = Err ValueError /\
  power_of (mkPower false 0 None false 1000 true true) = Err ValueError /\
  power_of (mkPower false 0 None true 1000 true true) = Err NotImplementedError /\
  power_of (mkPower false 0 None true 9 true true) = Err ValueError.
Proof. repeat split. Qed.

(** Where the pins of the cape are: register and contact, for the real-time unit and for the system. *)
Example C115_contacts :
  map (fun w => (entry "pin_pru" (w_params w), entry "reg_sys" (w_params w), entry "pin_sys" (w_params w))) (firstn 5 cape24) =
  [(Some (VStr "P8_45"), Some (VInt 26), Some (VStr "P8_14")); (Some (VStr "P8_46"), Some (VInt 27), Some (VStr "P8_17"));
   (Some (VStr "P8_43"), Some (VInt 46), Some (VStr "P8_16")); (Some (VStr "P8_44"), Some (VInt 47), Some (VStr "P8_15"));
   (Some (VStr "P8_41"), Some (VInt 61), Some (VStr "P8_26"))] /\
  flat_map (fun w => match entry "reg_sys" (w_params w) with Some (VInt z) => [z] | _ => [] end) (skipn 5 cape24) =
  [80; 81; 14; 15; 5; 4; 8; 9; 78; 79; 10; 11].
Proof. split; reflexivity. Qed.
(** No two pins of the cape share a contact or a register. *)
Theorem C115_contacts_once : forall k, In k ["reg_pru"; "pin_pru"; "reg_sys"; "pin_sys"]%string ->
  NoDup (flat_map (fun w => match entry k (w_params w) with Some v => [v] | None => [] end) cape24).
Proof.
  intros k H. cbn [In] in H. repeat (destruct H as [<- | H]; [vm_compute; repeat (constructor; [cbn; intuition discriminate|]); constructor|]).
  destruct H.
Qed.
Print Assumptions C115_contacts_once.
