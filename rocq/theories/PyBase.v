(** Common vocabulary for all models: Python exceptions as values. *)
From Coq Require Export List ZArith Bool Lia.
Export ListNotations.

(** The Python exception classes that occur in the modelled code. *)
Inductive exn : Set :=
| ValueError | TypeError | KeyError | IndexError | ZeroDivisionError
| AttributeError | NotImplementedError | OverflowError | RuntimeError
| RecursionError | FileNotFoundError | OSError | UnicodeError | StructError.

(** Result of a call: a value or a raised exception. *)
Inductive res (A : Type) : Type :=
| Ok (a : A)
| Err (e : exn).
Arguments Ok {A} a.
Arguments Err {A} e.

Definition bind {A B} (r : res A) (f : A -> res B) : res B :=
  match r with Ok a => f a | Err e => Err e end.

Definition is_ok {A} (r : res A) : bool := match r with Ok _ => true | Err _ => false end.

Declare Scope res_scope.
Notation "'let*' x ':=' r 'in' k" := (bind r (fun x => k))
  (at level 200, x pattern, r at level 100, k at level 200) : res_scope.
Notation "'guard' c 'or' e ';;' k" := (if c then k else Err e)
  (at level 200, c at level 100, e at level 0, k at level 200) : res_scope.
Open Scope res_scope.

(** Two error values are different exceptions. *)
Definition exn_eqb (a b : exn) : bool :=
  match a, b with
  | ValueError, ValueError | TypeError, TypeError | KeyError, KeyError
  | IndexError, IndexError | ZeroDivisionError, ZeroDivisionError
  | AttributeError, AttributeError | NotImplementedError, NotImplementedError
  | OverflowError, OverflowError | RuntimeError, RuntimeError
  | RecursionError, RecursionError | FileNotFoundError, FileNotFoundError
  | OSError, OSError | UnicodeError, UnicodeError | StructError, StructError => true
  | _, _ => false
  end.

(** Keep integer arithmetic folded in goals. *)
#[global] Arguments Z.mul : simpl never.
#[global] Arguments Z.add : simpl never.
#[global] Arguments Z.sub : simpl never.
#[global] Arguments Z.opp : simpl never.
#[global] Arguments Z.pow : simpl never.
#[global] Arguments Z.of_nat : simpl never.
#[global] Arguments Z.quot : simpl never.
#[global] Arguments Z.div : simpl never.
#[global] Arguments Z.modulo : simpl never.
#[global] Arguments Z.max : simpl never.
#[global] Arguments Z.min : simpl never.
#[global] Arguments Z.abs : simpl never.
#[global] Arguments Z.leb : simpl never.
#[global] Arguments Z.ltb : simpl never.
#[global] Arguments Z.geb : simpl never.
#[global] Arguments Z.gtb : simpl never.
#[global] Arguments Z.eqb : simpl never.
