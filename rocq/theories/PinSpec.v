(** Vocabulary for pins. *)
From Coq Require Import String Ascii QArith.
From Verif Require Import PyBase FixModel FixSpec PinModel.
From Verif Require NameSpec.
Open Scope Z_scope.
Open Scope list_scope.

(** What an optional text field becomes: nothing, or the given text without the white space at its
    ends, of 1 to [hi] characters of the class [P]. *)
Inductive text_field (hi : nat) (P : Z -> Prop) : option value -> option text -> Prop :=
| tf_absent : text_field hi P None None
| tf_none : text_field hi P (Some (VOther "None")) None
| tf_given s t : NameSpec.cleaned (codes s) t -> (1 <= List.length t <= hi)%nat -> Forall P t ->
    text_field hi P (Some (VStr s)) (Some t).

Definition printable (c : Z) : Prop := 32 <= c <= 126.
Definition fit_for_names (c : Z) : Prop := ~ In c [60; 62; 58; 59; 44; 63; 34; 42; 124; 47; 92].

Inductive number_field : option value -> option Z -> Prop :=
| nf_absent : number_field None None
| nf_none : number_field (Some (VOther "None")) None
| nf_given z : 0 <= z -> number_field (Some (VInt z)) (Some z).

Inductive direction_field : option value -> direction -> Prop :=
| df_absent : direction_field None DIn
| df_in : direction_field (Some (VStr "IN")) DIn
| df_out : direction_field (Some (VStr "OUT")) DOut
| df_io : direction_field (Some (VStr "IO")) DIO.

(** [g] is the pin described by [d]. *)
Record describes (d : dict) (g : gpio) : Prop := mkDescribes {
  d_known : forall k v, In (k, v) d ->
    In k ["id"; "name"; "description"; "comment"; "direction"; "dir_switch"; "reg_pru"; "pin_pru";
          "reg_sys"; "pin_sys"]%string;
  d_id : entry "id" d = Some (VInt (g_id g)) /\ 0 <= g_id g < 2 ^ 128;
  d_name : text_field 32 fit_for_names (entry "name" d) (Some (g_name g));
  d_description : text_field 512 printable (entry "description" d) (g_description g);
  d_comment : text_field 512 printable (entry "comment" d) (g_comment g);
  d_direction : direction_field (entry "direction" d) (g_direction g);
  d_switch : text_field 32 (fun _ => True) (entry "dir_switch" d) (g_switch g);
  d_reg_pru : text_field 10 (fun _ => True) (entry "reg_pru" d) (g_reg_pru g);
  d_pin_pru : text_field 10 (fun _ => True) (entry "pin_pru" d) (g_pin_pru g);
  d_reg_sys : number_field (entry "reg_sys" d) (g_reg_sys g);
  d_pin_sys : text_field 10 (fun _ => True) (entry "pin_sys" d) (g_pin_sys g) }.

(** The pin is reachable by the PRU or by the system. *)
Definition connected (g : gpio) : Prop :=
  (exists r p, g_reg_pru g = Some r /\ g_pin_pru g = Some p) \/
  (exists r p, g_reg_sys g = Some r /\ g_pin_sys g = Some p).

(** A pin of a target: "gpio" in its name, in small or capital letters; it can be driven. *)
Definition target_pin (g : gpio) : Prop :=
  exists a b w x y z, g_name g = a ++ [w; x; y; z] ++ b /\
    In w [71; 103] /\ In x [80; 112] /\ In y [73; 105] /\ In z [79; 111].
Definition drivable (g : gpio) : Prop := g_direction g = DOut \/ g_direction g = DIO.

(** The physical pin. *)
Definition place (g : gpio) : option text * option text * option Z * option text :=
  (g_reg_pru g, g_pin_pru g, g_reg_sys g, g_pin_sys g).
