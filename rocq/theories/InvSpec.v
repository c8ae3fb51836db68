(** What an inventory of a machine should show. *)
From Coq Require Import String Ascii QArith.
From Verif Require Import PyBase InvModel.
Open Scope Z_scope.
Open Scope list_scope.

(** Lines put together as a program writes them. *)
Fixpoint join (sep : text) (l : list text) : text :=
  match l with
  | [] => []
  | [t] => t
  | t :: l' => t ++ sep ++ join sep l'
  end.

(** Printable characters, without apostrophe and backslash. *)
Definition plain (t : text) : Prop :=
  forall c, In c t -> (32 <= nat_of_ascii c <= 126)%nat /\ nat_of_ascii c <> 39%nat /\ nat_of_ascii c <> 92%nat.
(** No spaces at the ends. *)
Definition trimmed (t : text) : Prop := hd "x"%char t <> " "%char /\ last t "x"%char <> " "%char.
(** Not longer than the fields of a model. *)
Definition short (t : text) : Prop := (List.length t <= 512)%nat.

(** How lines are shown: Python's notation of bytes remains at both ends. *)
Definition at_first (f : text -> text) (l : list text) : list text := match l with [] => [] | t :: l' => f t :: l' end.
Fixpoint at_last (f : text -> text) (l : list text) : list text :=
  match l with [] => [] | [t] => [f t] | t :: l' => t :: at_last f l' end.
Definition shown (l : list text) : list text := at_first (fun t => tx "b'" ++ t) (at_last (fun t => t ++ tx "'") l).

(** A text from a field: the same without spaces at the ends. *)
Definition same_text (given told : text) : Prop :=
  exists a b, given = repeat " "%char a ++ told ++ repeat " "%char b /\ trimmed told /\ short told.
Definition same_field (g t : string * text) : Prop := fst g = fst t /\ same_text (snd g) (snd t).

(** The seconds since the start of the machine. *)
Definition seconds (u : Q) (n : Z) : Prop := (inject_Z n - (1 # 2) <= u)%Q /\ (u <= inject_Z n + (1 # 2))%Q.

(** Modules that are installed, with their versions. *)
Definition installed (m : machine) (l : list (string * text)) : Prop :=
  (forall n t, In (n, t) l <-> In n ["h5py"; "numpy"; "pydantic"; "shepherd_core"; "shepherd_sheep"; "yaml"; "zstandard"]%string /\
     exists v, m_import m n = Version v /\ same_text v t).

(** What a program writes is shown line by line. *)
Definition shows (p : option (res (text * text))) (told : list text) : Prop :=
  match p with
  | None => told = []
  | Some r => exists out err, r = Ok (out, err) /\
      forall ls, ls <> [] -> Forall plain ls -> out = join [newline] ls -> Forall2 same_text (shown ls) told
  end.

(** Programs that write a few ordinary lines, or are missing. *)
Definition ordinary (p : option (res (text * text))) : Prop :=
  match p with
  | None => True
  | Some r => exists ls err, r = Ok (join [newline] ls, err) /\ ls <> [] /\ Forall plain ls /\ Forall (fun t => List.length t <= 509)%nat ls
  end.
Definition ordinary_ptp (p : option (res (text * text))) : Prop :=
  match p with
  | None => True
  | Some r => exists out err, r = Ok (out, err) /\ plain out /\ plain err /\ (List.length out + List.length err <= 504)%nat
  end.
