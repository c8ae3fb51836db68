(** Vocabulary for log levels. *)
From Coq Require Import String.
From Verif Require Import PyBase VerbModel.
Open Scope Z_scope.
Open Scope list_scope.

(** Debug-level was asked for somewhere. *)
Definition raised (ops : list op) : Prop := exists v, In (Increase v) ops /\ 3 <= v.

(** The setting of the logger [n] is left to the package. *)
Definition untouched (n : lname) (ops : list op) : Prop := forall v, ~ In (SetVerbose n v) ops.

(** Verbosity as documented: 0 errors, 1 warnings, 2 infos, 3 and more everything. *)
Inductive documented : Z -> Z -> Prop :=
| doc_error : documented 0 40
| doc_warning : documented 1 30
| doc_info : documented 2 20
| doc_debug v : 3 <= v -> documented v 10.
