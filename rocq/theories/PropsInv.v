(** C130: a collected inventory shows the machine. *)
From Coq Require Import String Ascii QArith Lia.
From Verif Require Import PyBase InvModel InvSpec InvProofs.
Open Scope Z_scope.
Open Scope list_scope.

(** What is collected is what the machine tells: the present, the seconds it runs, its platform, the lines that
    programs write and the versions of the modules. *)
Theorem C130_collected : forall m i, collect m = Ok i ->
  n_created i = m_now m /\
  (exists u l, m_psutil m = Some (u, l) /\ seconds u (s_uptime (n_system i)) /\ 1 <= s_uptime (n_system i) /\
     s_interfaces (n_system i) = interfaces l) /\
  Forall2 same_field (m_platform m) (s_platform (n_system i)) /\
  shows (m_df m) (s_fs_root (n_system i)) /\ shows (m_beagle m) (s_beagle (n_system i)) /\
  exists v r, n_versions i = ("python"%string, v) :: r /\ same_text (m_python m) v /\ installed m r.
Proof. exact collected. Qed.
Print Assumptions C130_collected.

Theorem C130_collects : forall m u l, m_psutil m = Some (u, l) -> (1 # 2 < u)%Q -> Forall (fun g => short (snd g)) (m_platform m) ->
  ordinary (m_df m) -> ordinary (m_beagle m) -> ordinary_ptp (m_ptp m) -> short (m_python m) ->
  (forall n, m_import m n = Missing \/ exists v, m_import m n = Version v /\ short v) ->
  exists i, collect m = Ok i.
Proof. exact collects. Qed.
Print Assumptions C130_collects.

(** The addresses of an interface: the second and the first one. *)
Theorem C130_interfaces : forall l n p, In (n, p) (interfaces l) <-> exists a0 a1 r, In (n, a0 :: a1 :: r) l /\ p = (snd a1, snd a0).
Proof. exact interfaces_told. Qed.
Print Assumptions C130_interfaces.

(** Different outputs are shown differently. *)
Theorem C130_lossless : forall o1 e1 o2 e2 l, lines (Some (Ok (o1, e1))) = Ok l -> lines (Some (Ok (o2, e2))) = Ok l -> o1 = o2.
Proof. exact lines_inj. Qed.
Print Assumptions C130_lossless.

(** The lines are printable whatever bytes were written. *)
Theorem C130_printable : forall o c, In c (str_bytes o) -> (32 <= nat_of_ascii c <= 126)%nat.
Proof. exact str_printable. Qed.
Print Assumptions C130_printable.
Example C130_bytes : map str_bytes [tx "it's"; tx "it's ""x"""; tx "a\b"; [ascii_of_nat 0; ascii_of_nat 9; ascii_of_nat 13; ascii_of_nat 31; ascii_of_nat 171; ascii_of_nat 127]] =
  [tx "b""it's"""; tx "b'it\'s ""x""'"; tx "b'a\\b'"; tx "b'\x00\t\r\x1f\xab\x7f'"].
Proof. reflexivity. Qed.

Definition modules (n : string) : import := if (n =? "numpy")%string then Version (tx "2.1.0") else Missing.
Definition addresses : list (text * list (family * text)) :=
  [(tx "lo", [(Inet, tx "127.0.0.1")]); (tx "eth0", [(Inet, tx "10.0.0.5"); (Link, tx "54:4a:16:bb:10:40")]);
   (tx "usb0", [(Inet, tx "10.0.0.6"); (Inet6, tx "fe80::5"); (Link, tx "54:4a:16:bb:10:41")])].
Definition df_out : text := join [newline] [tx "Filesystem  Use%"; tx "/dev/root   42%"; []].
Definition sheep (df ptp : text) (imp : string -> import) : machine :=
  mkMachine 1000 (Some (90061 # 10, addresses)) [("system", tx "Linux"); ("processor", [])]%string
    (Some (Ok (df, []))) None (Some (Ok (ptp, []))) (tx "3.12.4") imp.

(** REFUTED: without psutil, or in the first half second, there is a warning but nothing is collected. *)
Theorem C130_psutil_refuted : forall m, (m_psutil m = None \/ exists u l, m_psutil m = Some (u, l) /\ (u <= 1 # 2)%Q) ->
  forall i, collect m <> Ok i.
Proof. exact too_early. Qed.
Print Assumptions C130_psutil_refuted.

(** REFUTED: an interface should be told as (ip, mac); on Linux the families are in the order of the example. *)
Theorem C130_interface_refuted : interfaces addresses =
  [(tx "eth0", (tx "54:4a:16:bb:10:40", tx "10.0.0.5")); (tx "usb0", (tx "fe80::5", tx "10.0.0.6"))].
Proof. reflexivity. Qed.
Print Assumptions C130_interface_refuted.

(** REFUTED: the lines are not those that the program wrote; a backslash makes two lines of one. *)
Theorem C130_notation_refuted : exists i, collect (sheep df_out (tx "4.2") modules) = Ok i /\
  ~ In (tx "Filesystem  Use%") (s_fs_root (n_system i)).
Proof.
  eexists. split; [vm_compute; reflexivity|]. cbn [n_system s_fs_root]. intros H.
  repeat (destruct H as [H|H]; [discriminate H|]). destruct H.
Qed.
Print Assumptions C130_notation_refuted.
Theorem C130_backslash_refuted : lines (Some (Ok (tx "/mnt/a\new", []))) = Ok [tx "b'/mnt/a\"; tx "ew'"].
Proof. reflexivity. Qed.
Print Assumptions C130_backslash_refuted.

(** REFUTED: a long answer of one program, or a module without version, and nothing is collected. *)
Theorem C130_long_refuted : collect (sheep df_out (repeat "4"%char 505) modules) = Err ValueError /\
  exists i, collect (sheep df_out (repeat "4"%char 504) modules) = Ok i.
Proof. split; [vm_compute; reflexivity|]. eexists. vm_compute. reflexivity. Qed.
Print Assumptions C130_long_refuted.
Theorem C130_module_refuted :
  collect (sheep df_out [] (fun n => if (n =? "shepherd_sheep")%string then Unversioned else Missing)) = Err AttributeError.
Proof. vm_compute. reflexivity. Qed.
Print Assumptions C130_module_refuted.

(** A module whose version is not a text spoils the list as well. *)
Theorem C130_version_refuted : forall m n, (forall k, m_import m k <> Unversioned /\ forall e, m_import m k <> Raises e) ->
  In n module_names -> m_import m n = OtherVersion -> collect_python m = Err ValueError.
Proof. exact other_version. Qed.
Print Assumptions C130_version_refuted.
Example C130_version_ex :
  collect (sheep df_out [] (fun n => if (n =? "shepherd_sheep")%string then OtherVersion else modules n)) = Err ValueError.
Proof. vm_compute. reflexivity. Qed.

Example C130_example : exists i, collect (sheep df_out (tx "4.2") modules) = Ok i /\
  s_uptime (n_system i) = 9006 /\
  s_fs_root (n_system i) = [tx "b'Filesystem  Use%"; tx "/dev/root   42%"; tx "'"] /\
  s_ptp (n_system i) = Some (tx "b'4.2', b''") /\ s_beagle (n_system i) = [] /\
  n_versions i = [("python", tx "3.12.4"); ("numpy", tx "2.1.0")]%string.
Proof. eexists. split; [vm_compute; reflexivity|]. repeat split. Qed.
Example C130_example_ordinary : ordinary (m_df (sheep df_out [] modules)).
Proof.
  exists [tx "Filesystem  Use%"; tx "/dev/root   42%"; []], []. split; [reflexivity|]. split; [discriminate|]. split.
  - assert (P : forall t, forallb (fun c => (32 <=? nat_of_ascii c)%nat && (nat_of_ascii c <=? 126)%nat && negb (nat_of_ascii c =? 39)%nat &&
        negb (nat_of_ascii c =? 92)%nat) t = true -> plain t).
    { intros t H c I. rewrite forallb_forall in H. specialize (H c I).
      rewrite !Bool.andb_true_iff, !Bool.negb_true_iff, !PeanoNat.Nat.leb_le, !PeanoNat.Nat.eqb_neq in H. tauto. }
    constructor; [apply P; reflexivity|]. constructor; [apply P; reflexivity|]. constructor; [apply P; reflexivity|]. constructor.
  - constructor; [cbn; lia|]. constructor; [cbn; lia|]. constructor; [cbn; lia|]. constructor.
Qed.
