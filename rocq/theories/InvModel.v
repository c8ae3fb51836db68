(** Collecting an inventory: shepherd_core/shepherd_core/inventory/system.py (SY), python.py (PY), target.py and
    __init__.py:40-53 (IN).

    Texts are lists of characters, the output of a program is a list of bytes.  The machine is a parameter: what
    psutil, platform, the three programs and the imports give.  An exception of subprocess.run is a result [Err].
    The second validation in IN:53 sees the values of the first ones, which it accepts unchanged; fields that are
    left out there (None, no interfaces) have these values as default. *)
From Coq Require Import String Ascii QArith Qround.
From Verif Require Import PyBase.
Open Scope Z_scope.
Open Scope list_scope.

Definition text := list ascii.
Definition tx (s : string) : text := list_ascii_of_string s.
Definition backslash : ascii := "\"%char.
Definition apostrophe : ascii := "'"%char.
Definition quotes : ascii := """"%char.
Definition newline : ascii := ascii_of_nat 10.

(** str() of bytes: the quotes around it, one byte, all. *)
Definition quote (o : text) : ascii :=
  if existsb (Ascii.eqb apostrophe) o && negb (existsb (Ascii.eqb quotes) o) then quotes else apostrophe.
Definition digit (n : nat) : ascii := ascii_of_nat (if Nat.ltb n 10 then 48 + n else 87 + n).
Definition repr_byte (q b : ascii) : text :=
  let n := nat_of_ascii b in
  if Ascii.eqb b q || Ascii.eqb b backslash then [backslash; b]
  else if Nat.eqb n 9 then [backslash; "t"%char]
  else if Nat.eqb n 10 then [backslash; "n"%char]
  else if Nat.eqb n 13 then [backslash; "r"%char]
  else if Nat.ltb n 32 || Nat.leb 127 n then [backslash; "x"%char; digit (n / 16); digit (n mod 16)]
  else [b].
Definition str_bytes (o : text) : text :=
  let q := quote o in "b"%char :: q :: flat_map (repr_byte q) o ++ [q].

(** str.split with the two characters backslash and n (SY:75, 83). *)
Fixpoint split_from (acc l : text) : list text :=
  match l with
  | [] => [rev acc]
  | c :: l' =>
      match l' with
      | d :: l'' => if Ascii.eqb c backslash && Ascii.eqb d "n" then rev acc :: split_from [] l'' else split_from (c :: acc) l'
      | [] => [rev (c :: acc)]
      end
  end.
Definition split_nl (l : text) : list text := split_from [] l.

(** Texts of a ShpModel (base/shepherd.py:66-73, SY:48): stripped, at most 512 characters, and may be empty.
    Of the white space only the blank is modelled. *)
Fixpoint lstrip (t : text) : text :=
  match t with c :: t' => if Ascii.eqb c " " then lstrip t' else t | [] => [] end.
Definition strip (t : text) : text := rev (lstrip (rev (lstrip t))).
Definition text_field (t : text) : res text :=
  guard (List.length (strip t) <=? 512)%nat or ValueError;; Ok (strip t).
Fixpoint text_fields (l : list text) : res (list text) :=
  match l with
  | [] => Ok []
  | t :: l' => let* t := text_field t in let* r := text_fields l' in Ok (t :: r)
  end.

(** An interface with its addresses (SY:64-66): those with one address are left out. *)
Inductive family := Inet | Inet6 | Link.
Definition interfaces (l : list (text * list (family * text))) : list (text * (text * text)) :=
  flat_map (fun i => match snd i with a0 :: a1 :: _ => [(fst i, (snd a1, snd a0))] | _ => [] end) l.

(** Outcome of importing a module: it is missing (ImportError), it raises something else, it has no __version__,
    or a version, which should be a text. *)
Inductive import := Missing | Raises (e : exn) | Unversioned | Version (v : text) | OtherVersion.

Record machine := mkMachine {
  m_now : Z;
  m_psutil : option (Q * list (text * list (family * text)));
  m_platform : list (string * text);
  m_df : option (res (text * text));
  m_beagle : option (res (text * text));
  m_ptp : option (res (text * text));
  m_python : text;
  m_import : string -> import }.

(** Python's round: half to even. *)
Definition qround (q : Q) : Z :=
  let f := Qfloor q in
  match Qcompare (q - inject_Z f) (1 # 2) with
  | Lt => f | Gt => f + 1 | Eq => if Z.even f then f else f + 1
  end.

Record system := mkSystem {
  s_uptime : Z; s_timestamp : Z; s_platform : list (string * text);
  s_ptp : option text; s_interfaces : list (text * (text * text)); s_fs_root : list text; s_beagle : list text }.

Fixpoint platform_fields (l : list (string * text)) : res (list (string * text)) :=
  match l with
  | [] => Ok []
  | (n, t) :: l' => let* t := text_field t in let* r := platform_fields l' in Ok ((n, t) :: r)
  end.

(** SY:68-85: the lines that a program writes. *)
Definition lines (p : option (res (text * text))) : res (list text) :=
  match p with
  | None => Ok []
  | Some r => let* (out, _) := r in Ok (split_nl (str_bytes out))
  end.
(** SY:87-94. *)
Definition ptp_text (p : option (res (text * text))) : res (option text) :=
  match p with
  | None => Ok None
  | Some r => let* (out, err) := r in Ok (Some (str_bytes out ++ tx ", " ++ str_bytes err))
  end.

(** SY:50-113, SystemInventory.collect. *)
Definition collect_system (m : machine) : res system :=
  let ifs := match m_psutil m with None => [] | Some (_, l) => interfaces l end in
  let uptime := match m_psutil m with None => 0 | Some (u, _) => qround u end in
  let* fs := lines (m_df m) in
  let* beagle := lines (m_beagle m) in
  let* ptp := ptp_text (m_ptp m) in
  guard 0 <? uptime or ValueError;;
  let* platform := platform_fields (m_platform m) in
  let* ptp := match ptp with None => Ok None | Some t => let* t := text_field t in Ok (Some t) end in
  let* fs := text_fields fs in
  let* beagle := text_fields beagle in
  Ok (mkSystem uptime (m_now m) platform ptp ifs fs beagle).

(** PY:30-49, PythonInventory.collect. *)
Definition module_names : list string :=
  ["h5py"; "numpy"; "pydantic"; "shepherd_core"; "shepherd_sheep"; "yaml"; "zstandard"]%string.
Fixpoint imports (m : machine) (names : list string) : res (list (string * import)) :=
  match names with
  | [] => Ok []
  | n :: names' =>
      match m_import m n with
      | Missing => imports m names'
      | Raises e => Err e
      | Unversioned => Err AttributeError
      | v => let* r := imports m names' in Ok ((n, v) :: r)
      end
  end.
Fixpoint version_fields (l : list (string * import)) : res (list (string * text)) :=
  match l with
  | [] => Ok []
  | (n, Version t) :: l' => let* t := text_field t in let* r := version_fields l' in Ok ((n, t) :: r)
  | _ :: _ => Err ValueError
  end.
Definition collect_python (m : machine) : res (list (string * text)) :=
  let* l := imports m module_names in
  version_fields (("python"%string, Version (m_python m)) :: l).

(** IN:40-53, Inventory.collect (target.py adds nothing). *)
Record inventory := mkInventory { n_created : Z; n_system : system; n_versions : list (string * text) }.
Definition collect (m : machine) : res inventory :=
  let* s := collect_system m in
  let* v := collect_python m in
  Ok (mkInventory (s_timestamp s) s v).
