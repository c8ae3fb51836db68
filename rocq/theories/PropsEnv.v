(** Properties of what depends on the machine: C100 to C103.
    Vocabulary: EnvSpec.v; code: EnvModel.v, FixModel.v. *)
From Coq Require Import String Ascii.
From Verif Require Import PyBase FixModel EnvModel EnvSpec EnvProofs.
Open Scope Z_scope.

(** ** C100: local time *)

(** The instant is right in every zone, the clock on the wall exactly where no daylight saving
    time is defined, in summer, and where both offsets agree. *)
Theorem C100_instant z now : instant (local_now z now) = now.
Proof. reflexivity. Qed.
Print Assumptions C100_instant.

Theorem C100_wall_partial z now : proper_zone z ->
  (wall (local_now z now) = wall_clock z now <->
   (z_daylight z = true -> z_summer z now = false -> z_std z = z_dst z)).
Proof. exact (wall_right z now). Qed.
Print Assumptions C100_wall_partial.

(** Which file is too old does not depend on the zone. *)
Theorem C100_age z now mtime delta :
  file_older_than z now mtime delta = true <-> mtime + delta < now.
Proof. exact (older z now mtime delta). Qed.
Print Assumptions C100_age.

(** Order and distances of what is shown are those of the instants. *)
Theorem C100_distance z a b : wall (local_now z b) - wall (local_now z a) = b - a.
Proof. unfold wall, local_now. cbn [instant offset]. lia. Qed.
Print Assumptions C100_distance.

(** Berlin; the summer of 2024 starts on March 31 and ends on October 27, 01:00 UTC. *)
Definition berlin : zone :=
  mkZone 3600 7200 true (fun t => (1711846800000000 <=? t) && (t <? 1729990800000000)).

(** In the last hour of a winter's day the date is that of the next day. *)
Theorem C100_winter_refuted : exists z now, proper_zone z /\
  wall (local_now z now) = wall_clock z now + 3600000000 /\
  local_iso_date z now = wall_clock z now / 86400000000 + 1.
Proof.
  exists berlin, 1705358400000000. split; [discriminate|]. split; vm_compute; reflexivity.
Qed.
Print Assumptions C100_winter_refuted.

Example C100_example_summer :
  wall (local_now berlin 1720000000000000) = wall_clock berlin 1720000000000000 /\
  wall (local_now berlin 1720000000000000) = 1720007200000000.
Proof. split; reflexivity. Qed.
Example C100_example_utc :
  let z := mkZone 0 0 false (fun _ => false) in wall (local_now z 42) = wall_clock z 42.
Proof. reflexivity. Qed.

(** ** C101: fixtures come from the files *)

(** Without a usable cache all entries of all files are inserted in order. *)
Theorem C101_files_partial m now p reset l : m_sheep m = true \/ ~ recent m now \/ reset = true ->
  documents (m_files m (path_of p)) = Some l -> Forall readable l ->
  snd (fixtures_init m now p reset) = insert_all [] (flat_map entries_of l).
Proof. exact (read_files m now p reset l). Qed.
Print Assumptions C101_files_partial.

(** On sheep, and on machines without cache at the beginning, that is so for all constructions. *)
Theorem C101_always m l : m_sheep m = true \/ m_cache m = None ->
  snd (constructions m l) = map (fun c => reading m (path_of (snd (fst c)))) l.
Proof. exact (always_read m l). Qed.
Print Assumptions C101_always.

(** A cache with the contents of the files changes nothing. *)
Theorem C101_cache_same m now p reset t x : m_sheep m = false -> m_cache m = Some (t, x) ->
  reading m (path_of p) = Ok x -> snd (fixtures_init m now p reset) = reading m (path_of p).
Proof. exact (cached_same m now p reset t x). Qed.
Print Assumptions C101_cache_same.

(** Only sheep write the cache, and nothing else is changed. *)
Theorem C101_untouched m now p reset : m_sheep m = false -> fst (fixtures_init m now p reset) = m.
Proof. exact (kept_off_sheep m now p reset). Qed.
Print Assumptions C101_untouched.

Theorem C101_written m now p reset x : m_sheep m = true ->
  snd (fixtures_init m now p reset) = Ok x -> x <> [] ->
  fst (fixtures_init m now p reset) = mkMachine true (m_files m) (Some (now, x)) (m_zone m).
Proof. exact (cached_on_sheep m now p reset x). Qed.
Print Assumptions C101_written.

Definition mcu : wrapper :=
  mkWrap "MCU" [("id", VInt 1001); ("name", VStr "nRF52"); ("platform", VStr "nRF52")]%string.
Definition one_file (p : string) : node :=
  if (p =? "data_models")%string then Dir [Sequence [Skipped; Entry (Ok mcu)]; Iterable]
  else if (p =? "empty.yaml")%string then File Scalar
  else Nothing.

(** Even a path that does not exist is fine as long as there is a cache. *)
Theorem C101_path_refuted : exists m now p x, snd (fixtures_init m now (Some p) false) = Ok x /\
  documents (m_files m p) = None.
Proof.
  exists (mkMachine false one_file (Some (0, [])) berlin), 86400000000, "my_fixtures"%string.
  eexists. split; reflexivity.
Qed.
Print Assumptions C101_path_refuted.

(** An empty file ends with a TypeError. *)
Theorem C101_empty_refuted : exists m now p,
  m_files m p = File Scalar /\ snd (fixtures_init m now (Some p) true) = Err TypeError.
Proof. exists (mkMachine false one_file None berlin), 0, "empty.yaml"%string. split; reflexivity. Qed.
Print Assumptions C101_empty_refuted.

Example C101_example_sheep :
  let m := mkMachine true one_file None berlin in
  exists x, insert_all [] [mcu] = Ok x /\ x <> [] /\
    fixtures_init m 5 None false = (mkMachine true one_file (Some (5, x)) berlin, Ok x).
Proof. eexists. split; [reflexivity|]. split; [discriminate|reflexivity]. Qed.
Example C101_example_old :
  let m := mkMachine false one_file (Some (0, [])) berlin in
  snd (fixtures_init m 86400000001 None false) = insert_all [] [mcu] /\
  snd (fixtures_init m 86400000000 None false) = Ok [] /\
  snd (fixtures_init m 86400000000 None true) = insert_all [] [mcu].
Proof. repeat split. Qed.
Example C101_example_twice :
  snd (constructions (mkMachine true one_file None berlin) [(5, None, false); (6, Some "nowhere"%string, false)])
  = [insert_all [] [mcu]; Err ValueError].
Proof. reflexivity. Qed.

(** ** C102: inventories *)

(** Versions that differ are named, with the devices that have each of them; provided the entries
    can be counted, and there are no other things to warn about. *)
Theorem C102_warn_partial l : l <> [] -> in_order l -> NoDup (map i_host l) ->
  (forall i, In i l -> Forall (fun f => hashable (snd f) = true) (kept i)) ->
  (forall k, In k version_names -> exists i v, In i l /\ has i k v) ->
  exists w, warn l = Ok w /\
    (forall k, (exists g, get String.eqb k w = Some g) <->
       In k version_names /\ exists i j v1 v2, In i l /\ In j l /\ has i k v1 /\ has j k v2 /\ v1 <> v2) /\
    (forall k g v hs h, get String.eqb k w = Some g -> In (v, hs) g ->
       (In h hs <-> exists i, In i l /\ i_host i = h /\ has i k v)).
Proof. exact (warned l). Qed.
Print Assumptions C102_warn_partial.

(** Inventories that were collected cannot be counted: the entries of the disk are lists. *)
Theorem C102_collected_refuted l : Forall collected l -> exists e, warn l = Err e.
Proof. exact (warn_raises l). Qed.
Print Assumptions C102_collected_refuted.

(** Without psutil, nothing is collected. *)
Theorem C102_psutil_refuted host now others ptp fs_root beagle versions :
  collect host now None others ptp fs_root beagle versions = Err ValueError.
Proof. reflexivity. Qed.
Print Assumptions C102_psutil_refuted.

(** The table: a line for the names and one for each device, and these have as many columns as the
    line of names exactly if no value has a comma. *)
Theorem C102_csv i l : to_csv (i :: l) =
  (header i ++ crlf ++ String.concat "" (map (fun i => row i ++ crlf) (i :: l)))%string.
Proof. exact (csv_lines i l). Qed.
Print Assumptions C102_csv.

Theorem C102_columns_partial i : i_fields i <> [] ->
  Forall (fun f => commas (fst (fst f)) = 0%nat) (i_fields i) ->
  (commas (row i) = commas (header i) <->
   Forall (fun f => commas (shown (snd (fst f))) = 0%nat) (i_fields i)).
Proof. exact (columns i). Qed.
Print Assumptions C102_columns_partial.

Definition device (host : string) (created uptime : Z) (numpy : string) : inventory :=
  mkInv host created uptime
    ([("hostname", IText host, true); ("ptp", INone, false)]%string ++
     map (fun n => (n, IText (if (n =? "numpy")%string then numpy else "1.0"), true)) version_names).

Example C102_example_warn :
  warn [device "sheep0" 0 60 "2.1"; device "sheep1" 9000000 70 "2.0"; device "sheep2" 5 80 "2.1"]
  = Ok [("numpy", [(IText "2.1", ["sheep0"; "sheep2"]); (IText "2.0", ["sheep1"])])]%string.
Proof. reflexivity. Qed.
Example C102_example_equal : warn [device "sheep0" 0 60 "2.1"; device "sheep1" 0 60 "2.1"] = Ok [].
Proof. reflexivity. Qed.
(** What should be a warning is an exception. *)
Theorem C102_time_refuted :
  warn [device "sheep0" 0 60 "2.1"; device "sheep1" 10000001 60 "2.1"] = Err AttributeError /\
  warn [device "sheep0" 0 108001 "2.1"] = Err AttributeError.
Proof. split; reflexivity. Qed.
Print Assumptions C102_time_refuted.
(** A version nobody has. *)
Theorem C102_missing_refuted : exists i, warn [i] = Err KeyError /\ has i "numpy" (IText "2.1").
Proof.
  exists (mkInv "laptop" 0 60 [("numpy", IText "2.1", true)]%string). split; [reflexivity|]. left. reflexivity.
Qed.
Print Assumptions C102_missing_refuted.
(** Two devices with one name are one. *)
Theorem C102_names_refuted :
  warn [device "beaglebone" 0 60 "2.1"; device "beaglebone" 0 60 "2.0"] = Ok [].
Proof. reflexivity. Qed.
Print Assumptions C102_names_refuted.
(** A table in a directory is called like a YAML file. *)
Theorem C102_path_refuted : csv_path true "out" = "out/inventory.yaml"%string.
Proof. reflexivity. Qed.
Print Assumptions C102_path_refuted.

Definition a_device : res inventory :=
  collect "sheep0" 0 (Some (60, Some "{'eth0': ('::1', '127.0.0.1')}"%string))
    [("system", "Linux"); ("release", "5.10")]%string None "['b''Filesystem', '']" "[]" [("numpy", "2.1")]%string.
Example C102_example_columns :
  exists i, a_device = Ok i /\ commas (header i) = 16%nat /\ commas (row i) = 18%nat.
Proof. eexists. split; [reflexivity|]. split; vm_compute; reflexivity. Qed.
Example C102_example_collected : exists i, a_device = Ok i /\ warn [i] = Err TypeError.
Proof. eexists. split; reflexivity. Qed.

(** ** C103: client for the web *)

(** A client that could be created is connected; key and user are the answers of the server. *)
Theorem C103_connected key_of user_of server t w : snd (connect key_of user_of server t) = Ok w ->
  w_connected w = true /\
  w_server w = match server with Some s => lower s | None => server_default end /\
  w_token w = match t with TokenFile (Some s) => s | _ => "basic_public_access"%string end /\
  ((w_server w = ""%string /\ w_user w = None /\ w_key w = None) \/
   exists k u, w_user w = Some u /\ w_key w = Some k /\
     key_of (w_server w ++ "/session_key")%string = Ok k /\
     user_of (w_server w ++ "/user?token=" ++ w_token w)%string = Ok u).
Proof. exact (connected key_of user_of server t w). Qed.
Print Assumptions C103_connected.

(** Nobody else is asked. *)
Theorem C103_asked key_of user_of server t a : In a (fst (connect key_of user_of server t)) ->
  exists rest, a = (match server with Some s => lower s | None => server_default end ++ rest)%string.
Proof. exact (asked key_of user_of server t a). Qed.
Print Assumptions C103_asked.

(** Owner and group are filled in where missing, and nothing else is changed. *)
Theorem C103_fill w u d : w_user w = Some u -> exists d', web_fill w d = Ok d' /\
  (forall k, k <> "owner"%string -> k <> "group"%string -> dget k d' = dget k d) /\
  (absent "owner" d -> dget "owner" d' = Some (VStr (fst u))) /\
  (~ absent "owner" d -> dget "owner" d' = dget "owner" d) /\
  (absent "group" d -> dget "group" d' = Some (VStr (snd u))) /\
  (~ absent "group" d -> dget "group" d' = dget "group" d).
Proof. exact (filled w u d). Qed.
Print Assumptions C103_fill.

(** Without a server everything belongs to "unknown". *)
Theorem C103_fill_offline d :
  let d' := fill_in_user_data d in
  (forall k, k <> "owner"%string -> k <> "group"%string -> dget k d' = dget k d) /\
  (absent "owner" d -> dget "owner" d' = Some (VStr "unknown")) /\
  (~ absent "owner" d -> dget "owner" d' = dget "owner" d) /\
  (absent "group" d -> dget "group" d' = Some (VStr "unknown")) /\
  (~ absent "group" d -> dget "group" d' = dget "group" d).
Proof.
  intros d'. destruct (filled _ _ d (eq_refl (w_user (mkWeb "" "" (Some ("unknown", "unknown")%string) None false))))
    as [d2 [E H]]. rewrite offline_fill in E. injection E as <-. exact H.
Qed.
Print Assumptions C103_fill_offline.

(** A token given as text is never used. *)
Theorem C103_token_refuted key_of user_of server s :
  connect key_of user_of server (TokenText s) = connect key_of user_of server NoToken.
Proof. exact (text_ignored key_of user_of server s). Qed.
Print Assumptions C103_token_refuted.

(** Data models go on using the fixtures. *)
Theorem C103_used_refuted c m b : m <> "client_abc_fix"%string ->
  get String.eqb m (new_client c b) = get String.eqb m b.
Proof. exact (bindings c m b). Qed.
Print Assumptions C103_used_refuted.

(** A path with capital letters is not asked. *)
Theorem C103_path_refuted : exists server, forall key_of user_of t a,
  In a (fst (connect key_of user_of (Some server) t)) -> prefix server a = false.
Proof.
  exists "http://host/API"%string. intros key_of user_of t a H. apply asked in H. destruct H as [rest ->].
  reflexivity.
Qed.
Print Assumptions C103_path_refuted.

(** Connected to nobody: data of a user cannot be filled in. *)
Theorem C103_nobody_refuted : exists w, forall key_of user_of t,
  match t with TokenFile _ => False | _ => True end ->
  connect key_of user_of (Some ""%string) t = ([], Ok w) /\ w_connected w = true /\
  web_fill w [] = Err AttributeError.
Proof. eexists. intros key_of user_of [|s|s] H; try contradiction; repeat split. Qed.
Print Assumptions C103_nobody_refuted.

Example C103_example_connect :
  connect (fun _ => Ok "key"%string)
    (fun a => if (a =? "http://me/user?token=secret")%string then Ok ("jane", "lab")%string else Err OSError)
    (Some "http://Me"%string) (TokenFile (Some "secret"%string))
  = (["http://me/session_key"; "http://me/user?token=secret"]%string,
     Ok (mkWeb "secret" "http://me" (Some ("jane", "lab")%string) (Some "key"%string) true)).
Proof. reflexivity. Qed.
Example C103_example_fill :
  web_fill (mkWeb "secret" "http://me" (Some ("jane", "lab")%string) (Some "key"%string) true)
    [("owner", VStr "joe"); ("group", none_); ("id", VInt 3)]%string
  = Ok [("owner", VStr "joe"); ("group", VStr "lab"); ("id", VInt 3)]%string.
Proof. reflexivity. Qed.

(** Which entries of a collected inventory are kept when it is stored: those that were found. *)
Theorem C102_stored host now u ifs others ptp fs_root beagle versions i :
  collect host now (Some (u, ifs)) others ptp fs_root beagle versions = Ok i ->
  has i "hostname" (IText host) /\ has i "fs_root" (IList fs_root) /\ has i "beagle" (IList beagle) /\
  (forall o, In o others -> has i (fst o) (IText (snd o))) /\
  (forall s, ptp = Some s -> has i "ptp" (IText s)) /\ (forall s, ifs = Some s -> has i "interfaces" (IDict s)) /\
  (forall v, (~ In "cape"%string (map fst others) -> ~ has i "cape" v) /\ (~ In "targets"%string (map fst others) -> ~ has i "targets" v)).
Proof. exact (collect_kept host now u ifs others ptp fs_root beagle versions i). Qed.
Print Assumptions C102_stored.
