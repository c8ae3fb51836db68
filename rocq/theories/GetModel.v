(** Setters and flags of the converter: shepherd_core/shepherd_core/vsource/virtual_converter_model.py,
    lines 257-264 and 278-288.  The other getters are in ConvModel. *)
From Coq Require Import ZArith Bool List.
From RecordUpdate Require Import RecordSet.
From Verif Require Import PyBase F64 CalModel ConvModel.
Import RecordSetNotations ListNotations.
Open Scope Z_scope.

(** Lines 257-264; the value is a float (an integer below 2^53 is the float of the same value). *)
Definition set_P_input_fW (v : f64) (s : conv) : conv := s <| P_inp := v |>.
Definition set_P_output_fW (v : f64) (s : conv) : conv := s <| P_out := v |>.
Definition set_V_intermediate_uV (v : f64) (s : conv) : conv := s <| V_mid := v |>.
(** Lines 278-279, 284-285, 287-288. *)
Definition get_power_good (s : conv) : bool := power_good s.
Definition get_state_log_intermediate (c : ccfg) (s : conv) : bool := enable_log_mid c.
Definition get_state_log_gpio (s : conv) : bool := skip_gpio s.
