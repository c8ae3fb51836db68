(** Property C117: log levels. *)
From Coq Require Import String.
From Verif Require Import PyBase VerbModel VerbSpec VerbProofs.
From Coq Require Import Lia.
Open Scope Z_scope.
Open Scope list_scope.

(** Whatever a program does, the level is 3 if someone asked for it, or else 2 ... *)
Theorem C117_level : forall ops,
  (raised ops -> l_verbose (run ops) = 3) /\ (~ raised ops -> l_verbose (run ops) = 2).
Proof. exact level_run. Qed.
Print Assumptions C117_level.

(** ... and it never gets lower. *)
Theorem C117_never_lower : forall ops more, l_verbose (run ops) <= l_verbose (run (ops ++ more)).
Proof. exact level_never_lower. Qed.
Print Assumptions C117_never_lower.

(** The logger of the package follows, unless it was set by hand. *)
Theorem C117_core : forall ops root, untouched core ops ->
  (raised ops -> effective root core (run ops) = 10) /\ (~ raised ops -> effective root core (run ops) = 20).
Proof. exact core_run. Qed.
Print Assumptions C117_core.

(** The setter does what is documented, for this logger only ... *)
Theorem C117_setter : forall n v l s root, n <> [] -> documented v l ->
  effective root n (set_log_verbose_level n v s) = l /\
  forall m, m <> n -> own_level m (set_log_verbose_level n v s) = own_level m s.
Proof.
  intros n v l s root Hn H. split.
  - destruct n as [|a n]; [contradiction|]. cbn [effective]. rewrite (set_verbose_level_same _ _ _ _ H). reflexivity.
  - intros m Hm. apply set_verbose_level_other. congruence.
Qed.
Print Assumptions C117_setter.

(** ... but a negative verbosity leaves the level as it is. *)
Theorem C117_negative_refuted : exists s, forall root v, v < 0 ->
  effective root core (set_log_verbose_level core v s) = 10.
Proof.
  exists (run [Increase 3]). intros root v H. cbn [effective core]. fold core.
  rewrite set_verbose_level_neg by exact H. reflexivity.
Qed.
Print Assumptions C117_negative_refuted.

(** The cli shows its own debug-messages if asked to ... *)
Theorem C117_cli : forall ops v k root, effective root data_cli (run (ops ++ [Cli v k])) = if v then 10 else 20.
Proof. exact cli_own. Qed.
Print Assumptions C117_cli.

(** ... but those of its readers depend on earlier calls only, --verbose has no influence. *)
Theorem C117_cli_refuted : forall ops v k root, (0 < k)%nat ->
  (raised ops -> effective root core_reader (run (ops ++ [Cli v k])) = 10) /\
  (~ raised ops -> effective root core_reader (run (ops ++ [Cli v k])) = 20).
Proof. exact cli_readers. Qed.
Print Assumptions C117_cli_refuted.

(** A reader shows what was asked for until another one is opened, even if the level is raised ... *)
Theorem C117_reader : forall ops b more root,
  Forall (fun o => (forall v, o <> SetVerbose core_reader v) /\ (forall b, o <> OpenReader (Some b)) /\
                   (forall b k, o <> Cli b (S k))) more ->
  effective root core_reader (run (ops ++ OpenReader (Some b) :: more)) = if b then 10 else 20.
Proof. exact reader_kept. Qed.
Print Assumptions C117_reader.

(** ... the next reader decides for all of them. *)
Theorem C117_shared_refuted : forall ops b root,
  effective root core_reader (run (ops ++ [OpenReader (Some b); OpenReader (Some (negb b))])) = if b then 20 else 10.
Proof.
  intros ops b root. replace (ops ++ _) with ((ops ++ [OpenReader (Some b)]) ++ [OpenReader (Some (negb b))])
    by (rewrite <- app_assoc; reflexivity).
  rewrite reader_last. destruct b; reflexivity.
Qed.
Print Assumptions C117_shared_refuted.

(** Debug-level does not bring back where messages come from. *)
Theorem C117_source_refuted : forall ops, l_source (run ops) = false.
Proof. exact source_lost. Qed.
Print Assumptions C117_source_refuted.

(** The same for threads and processes. *)
Theorem C117_details_refuted : forall ops, l_threads (run ops) = false /\ l_processes (run ops) = false.
Proof. intros ops. pose proof (details_lost ops) as H. injection H as _ H1 H2. auto. Qed.
Print Assumptions C117_details_refuted.

(** A reader of IVonne shows infos if asked to, and warnings otherwise. *)
Theorem C117_ivonne : forall ops b root, effective root data_ivonne (run (ops ++ [OpenIvonne b])) = if b then 20 else 30.
Proof. exact ivonne_last. Qed.
Print Assumptions C117_ivonne.

(** The loggers can be reached under these names (written from the last part to the first): SHPCore.Reader,
    SHPCore.Writer, SHPData.cli, SHPData.IVonne.Reader. *)
Theorem C117_names : forall ops b k root,
  effective root ["Reader"; "SHPCore"]%string (run (ops ++ [OpenReader (Some b)])) = (if b then 10 else 20) /\
  effective root ["Writer"; "SHPCore"]%string (run (ops ++ [OpenWriter (Some b)])) = (if b then 10 else 20) /\
  effective root ["cli"; "SHPData"]%string (run (ops ++ [Cli b k])) = (if b then 10 else 20) /\
  effective root ["Reader"; "IVonne"; "SHPData"]%string (run (ops ++ [OpenIvonne b])) = (if b then 20 else 30).
Proof.
  intros ops b k root. split; [apply reader_last|]. split; [apply writer_last|]. split; [apply cli_own|apply ivonne_last].
Qed.
Print Assumptions C117_names.

Example C117_ex : raised [OpenReader None; Increase 7; Increase 1] /\
  l_verbose (run [OpenReader None; Increase 7; Increase 1]) = 3 /\
  effective 30 core_reader (run [OpenReader None; Increase 7; Increase 1]) = 10 /\
  effective 30 core_writer (run [Increase 1; OpenWriter (Some false); Increase 3]) = 20 /\
  effective 30 data_ivonne (run [OpenIvonne false; Cli true 2]) = 30 /\
  effective 30 core_reader (run [Cli true 2]) = 20 /\ effective 30 ["x"]%string (run []) = 30 /\
  shown 30 core_reader DEBUG (run [Cli true 2]) = false /\ shown 30 data_cli DEBUG (run [Cli true 2]) = true.
Proof. split; [exists 7; cbn; split; [auto|lia]|]. repeat split; vm_compute; reflexivity. Qed.
Example C117_ex_low : ~ raised [Increase 1; Increase 2] /\ l_verbose (run [Increase 1; Increase 2]) = 2.
Proof. split; [|reflexivity]. intros [v [I H]]. destruct I as [I|[I|[]]]; injection I as <-; lia. Qed.
