(** Generated ids (C134) and the directory of the cache (C135).
    Vocabulary: AuxSpec.v; code: AuxModel.v. *)
From Coq Require Import String Ascii ZArith Bool List Lia.
From Verif Require Import PyBase AuxModel AuxSpec AuxProofs.
Import ListNotations.
Open Scope Z_scope.
Open Scope list_scope.

(** * C134 *)

(** Every generated id is one that the models accept. *)
Theorem C134_range : forall sha3 show now, digest (sha3 (show (now / 1000))) ->
  exists z, id_default sha3 show now = Ok z /\ 0 <= z < 2 ^ 128.
Proof. exact id_range. Qed.
Print Assumptions C134_range.

(** Two ids are equal exactly if the last 32 digits of the hashes are. *)
Theorem C134_same : forall sha3 show t u, digest (sha3 (show (t / 1000))) -> digest (sha3 (show (u / 1000))) ->
  id_default sha3 show t = id_default sha3 show u <-> same_end (sha3 (show (t / 1000))) (sha3 (show (u / 1000))).
Proof. exact id_same. Qed.
Print Assumptions C134_same.

(** With any other kind of hash: if its last 32 characters (or all, if it is shorter) are empty or hold a letter beyond f,
    then no number is made up.  (An x, an underscore and blanks are left out of the statement: int(…, 16) takes some of them.) *)
Theorem C134_refused : forall sha3 show now a e, sha3 (show (now / 1000)) = (a ++ e)%string ->
  String.length e = 32%nat \/ a = ""%string /\ (String.length e <= 32)%nat ->
  e = ""%string \/ (exists c, In c (list_ascii_of_string e) /\ In c (list_ascii_of_string "ghijklmnopqrstuvwyzGHIJKLMNOPQRSTUVWYZ")) ->
  id_default sha3 show now = Err ValueError.
Proof. exact id_refused. Qed.
Print Assumptions C134_refused.
Example C134_refused_ex :
  id_default (fun _ => ""%string) (fun _ => "noon"%string) 5000 = Err ValueError /\ id_default (fun s => s) (fun _ => "noon"%string) 5000 = Err ValueError /\
  id_default (fun s => s) (fun _ => "feed"%string) 5000 = Ok 65261.
Proof. vm_compute. repeat split. Qed.

(** They are not unique: whoever asks in the same microsecond gets the same id. *)
Theorem C134_unique_refuted : forall sha3 show t u, t / 1000 = u / 1000 -> id_default sha3 show t = id_default sha3 show u.
Proof. intros sha3 show t u H. unfold id_default. now rewrite H. Qed.
Print Assumptions C134_unique_refuted.

Definition ex_sha (s : string) : string := "00112233445566778899aabbccddeeff00112233445566778899aa" ++ (if String.eqb s "noon" then "0a" else "f0").
Definition ex_show (z : Z) : string := if z =? 5 then "noon" else "later".
Example C134_ex :
  digest (ex_sha "noon") /\ digest (ex_sha "later") /\
  id_default ex_sha ex_show 5000 = Ok 272314856162546858458350634239734163978 /\
  id_default ex_sha ex_show 5999 = id_default ex_sha ex_show 5000 /\
  id_default ex_sha ex_show 6000 = Ok 272314856162546858458350634239734164208.
Proof.
  split; [|split; [|vm_compute; repeat split]];
    (split; [reflexivity|]; intros c H; vm_compute in H; repeat (destruct H as [<-|H]; [vm_compute; tauto|]); destruct H).
Qed.

(** * C135 *)

(** Without a setting the cache is in the home of the user. *)
Theorem C135_default : forall home v, v = None \/ v = Some ""%string ->
  cache_user_path v home = mkPath (p_root home) (p_parts home ++ [".cache"; "shepherd_datalib"]%string).
Proof. intros home v [-> | ->]; unfold cache_user_path, get_xdg_path, child; cbn; rewrite <- app_assoc; reflexivity. Qed.
Print Assumptions C135_default.

(** A setting is followed, part by part, ... *)
Theorem C135_set : forall ws home, ws <> [] -> Forall free ws -> String.concat "/" ws <> ""%string ->
  p_parts (cache_user_path (Some (String.concat "/" ws)) home) = filter counts ws ++ ["shepherd_datalib"%string].
Proof. exact cache_parts. Qed.
Print Assumptions C135_set.

(** ... and leads to the root exactly if it begins with a slash. *)
Theorem C135_root : forall v home, v <> ""%string ->
  p_root (cache_user_path (Some v) home) = "/"%string \/ p_root (cache_user_path (Some v) home) = "//"%string <-> exists s, v = ("/" ++ s)%string.
Proof. exact cache_root. Qed.
Print Assumptions C135_root.

(** The XDG specification says that relative settings are invalid and to be ignored; here they are followed, and the
    cache depends on the directory the program was started in. *)
Theorem C135_relative_refuted : forall w home cwd, free w -> counts w = true ->
  absolute cwd (cache_user_path (Some w) home) = mkPath (p_root cwd) (p_parts cwd ++ [w; "shepherd_datalib"%string]).
Proof. exact cache_relative. Qed.
Print Assumptions C135_relative_refuted.

Example C135_ex :
  cache_user_path None (path_of "/home/kai") = mkPath "/" ["home"; "kai"; ".cache"; "shepherd_datalib"]%string /\
  cache_user_path (Some "/var//tmp/./c/"%string) (path_of "/home/kai") = mkPath "/" ["var"; "tmp"; "c"; "shepherd_datalib"]%string /\
  cache_user_path (Some "//srv"%string) (path_of "/home/kai") = mkPath "//" ["srv"; "shepherd_datalib"]%string /\
  absolute (path_of "/mnt") (cache_user_path (Some "cache"%string) (path_of "/home/kai")) = mkPath "/" ["mnt"; "cache"; "shepherd_datalib"]%string.
Proof. vm_compute. repeat split. Qed.
