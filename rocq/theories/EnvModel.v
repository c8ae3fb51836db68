(** Model of what depends on the machine the library runs on:
    shepherd_core/shepherd_core/data_models/base/timezone.py (TZ),
    shepherd_core/shepherd_core/testbed_client/fixtures.py (FX: reading the files, cache),
    shepherd_core/shepherd_core/inventory/*.py (IN) and
    shepherd_core/shepherd_core/testbed_client/client_web.py (WC).

    External: the clock, the zone, the file system, PyYAML, psutil and the commands that are run,
    the server.  They appear as data. *)
From Coq Require Import String Ascii.
From Verif Require Import PyBase FixModel.
Open Scope Z_scope.

(* ------------------------------------------------------------------ time *)

(** What the module time says about the zone: offsets in seconds east of Greenwich
    (-time.timezone, -time.altzone), whether a daylight saving time is defined (time.daylight),
    and when it is in force, in microseconds since 1970. *)
Record zone := mkZone { z_std : Z; z_dst : Z; z_daylight : bool; z_summer : Z -> bool }.

(** An aware datetime: the instant in microseconds and the offset in seconds. *)
Record moment := mkMoment { instant : Z; offset : Z }.

(** What it shows: microseconds and days of the calendar since 1970. *)
Definition wall (m : moment) : Z := instant m + offset m * 1000000.
Definition day (m : moment) : Z := wall m / 86400000000.

(** TZ:9-13, local_tz; names of zones are left out. *)
Definition local_tz (z : zone) : Z := if z_daylight z then z_dst z else z_std z.
(** TZ:16-18, local_now, at instant [now]. *)
Definition local_now (z : zone) (now : Z) : moment := mkMoment now (local_tz z).
(** TZ:21-23, local_iso_date. *)
Definition local_iso_date (z : zone) (now : Z) : Z := day (local_now z now).

(** FX:166-170, file_older_than; comparing aware datetimes compares instants. *)
Definition file_older_than (z : zone) (now mtime delta : Z) : bool :=
  let cutoff := mkMoment (instant (local_now z now) - delta) (offset (local_now z now)) in
  let m := mkMoment mtime (local_tz z) in
  instant m <? instant cutoff.

(* ------------------------------------------------------------------ fixtures *)

(** What PyYAML makes of a file: a sequence, whose mappings become wrappers or fail to; other
    things one can iterate over (texts, mappings: their keys are no mappings); or anything else,
    like None for an empty file. *)
Inductive item := Skipped | Entry (w : res wrapper).
Inductive document := Sequence (l : list item) | Iterable | Scalar.

(** FX:221-228, insert_file. *)
Fixpoint insert_items (x : fixtures) (l : list item) : res fixtures :=
  match l with
  | [] => Ok x
  | Skipped :: l' => insert_items x l'
  | Entry w :: l' => let* w := w in let* x := insert_model x w in insert_items x l'
  end.
Definition insert_file (x : fixtures) (d : document) : res fixtures :=
  match d with
  | Sequence l => insert_items x l
  | Iterable => Ok x
  | Scalar => Err TypeError
  end.
Fixpoint insert_files (x : fixtures) (l : list document) : res fixtures :=
  match l with
  | [] => Ok x
  | d :: l' => let* x := insert_file x d in insert_files x l'
  end.

(** A path of the file system: a file, a directory with its *.yaml files, or nothing. *)
Inductive node := File (d : document) | Dir (l : list document) | Nothing.

(** The machine: is it a sheep (FX:186), its files, and the cache file with its time. *)
Record machine := mkMachine {
  m_sheep : bool; m_files : string -> node; m_cache : option (Z * fixtures); m_zone : zone }.

Definition hours24 : Z := 86400000000.

(** FX:177-219, the constructor at instant [now].  [data_models] is the default path.
    A damaged cache file is left out. *)
Definition data_models : string := "data_models".
Definition fixtures_init (m : machine) (now : Z) (file_path : option string) (reset : bool)
    : machine * res fixtures :=
  let path := match file_path with Some p => p | None => data_models end in
  match
    (if m_sheep m then None
     else match m_cache m with
          | Some (t, x) => if negb (file_older_than (m_zone m) now t hours24) && negb reset then Some x else None
          | None => None
          end)
  with
  | Some x => (m, Ok x)
  | None =>
      let files := match m_files m path with
                   | File d => Ok [d]
                   | Dir l => Ok l
                   | Nothing => Err ValueError
                   end in
      match (let* l := files in insert_files [] l) with
      | Err e => (m, Err e)
      | Ok [] => (m, Ok [])
      | Ok x => if m_sheep m
                then (mkMachine (m_sheep m) (m_files m) (Some (now, x)) (m_zone m), Ok x)
                else (m, Ok x)
      end
  end.

(* ------------------------------------------------------------------ inventory *)

(** Values of fields, with their str(). *)
Inductive ival := INone | IText (s : string) | IPlain (s : string) | IList (s : string) | IDict (s : string).
Definition hashable (v : ival) : bool := match v with IList _ | IDict _ => false | _ => true end.
Definition ival_eqb (a b : ival) : bool :=
  match a, b with
  | INone, INone => true
  | IText s, IText t | IPlain s, IPlain t | IList s, IList t | IDict s, IDict t => (s =? t)%string
  | _, _ => false
  end.
Definition show_ival (v : ival) : string :=
  match v with INone => ""%string | IText s | IPlain s | IList s | IDict s => s end.

(** An inventory: the fields used by the code, and all of them in their order, each with the
    information if model_dump(exclude_unset, exclude_defaults) keeps it. *)
Record inventory := mkInv {
  i_host : string; i_created : Z; i_uptime : Z; i_fields : list (string * ival * bool) }.
Definition kept (i : inventory) : list (string * ival) :=
  map fst (filter snd (i_fields i)).

(** IN/system.py:50-113 and IN/__init__.py:40-53, collect.  [psutil] is None if that is not
    installed; otherwise the uptime, rounded to seconds, and the interfaces as text (None for an
    empty dictionary).  Versions of the packages that can be imported; [others] are the remaining
    fields, texts and times.  An uptime of 0 is refused by the type of the field. *)
Definition version_names : list string :=
  ["h5py"; "numpy"; "pydantic"; "python"; "shepherd_core"; "shepherd_sheep"; "yaml"; "zstandard"]%string.
Definition collect (host : string) (now : Z) (psutil : option (Z * option string))
    (others : list (string * string)) (ptp : option string) (fs_root beagle : string)
    (versions : list (string * string)) : res inventory :=
  let uptime := match psutil with None => 0 | Some (u, _) => u end in
  let ifs := match psutil with Some (_, Some s) => Some s | _ => None end in
  guard 1 <=? uptime or ValueError;;
  Ok (mkInv host now uptime
       ([("cape", INone, false); ("targets", IList "[]", false)]%string
        ++ map (fun o => (fst o, IText (snd o), true)) others
        ++ [("ptp", match ptp with Some s => IText s | None => INone end,
             match ptp with Some _ => true | None => false end);
            ("hostname", IText host, true);
            ("interfaces", IDict (match ifs with Some s => s | None => "{}" end),
             match ifs with Some _ => true | None => false end);
            ("fs_root", IList fs_root, true); ("beagle", IList beagle, true)]%string
        ++ map (fun n => match get String.eqb n versions with
                         | Some v => (n, IText v, true)
                         | None => (n, INone, false)
                         end) version_names)).

(** IN/__init__.py:61-74, to_csv: the text of the file. *)
Definition crlf : string := String (ascii_of_nat 13) (String (ascii_of_nat 10) EmptyString).
Definition to_csv (l : list inventory) : string :=
  match l with
  | [] => EmptyString
  | i0 :: _ =>
      (String.concat ", " (map (fun f => fst (fst f)) (i_fields i0)) ++ crlf ++
       fold_right (fun i s => String.concat ", " (map (fun f => show_ival (snd (fst f))) (i_fields i)) ++ crlf ++ s)
         EmptyString l)%string
  end.
(** ... and its path. *)
Definition csv_path (is_dir : bool) (path : string) : string :=
  if is_dir then (path ++ "/inventory.yaml")%string else path.

(** Hosts by value, values by type. *)
Definition groups := list (ival * list string).
Fixpoint add_host (v : ival) (h : string) (g : groups) : groups :=
  match g with
  | [] => [(v, [h])]
  | (w, hs) :: g' => if ival_eqb w v then (w, hs ++ [h]) :: g' else (w, hs) :: add_host v h g'
  end.

(** IN/__init__.py:92-98, the inner loop over the fields of one host. *)
Fixpoint add_fields (h : string) (fs : list (string * ival)) (r : list (string * groups))
    : res (list (string * groups)) :=
  match fs with
  | [] => Ok r
  | (t, v) :: fs' =>
      guard hashable v or TypeError;;
      let g := match get String.eqb t r with Some g => g | None => [] end in
      add_fields h fs' (put String.eqb t (add_host v h g) r)
  end.
Fixpoint add_hosts (l : list (string * list (string * ival))) (r : list (string * groups))
    : res (list (string * groups)) :=
  match l with
  | [] => Ok r
  | (h, fs) :: l' => let* r := add_fields h fs r in add_hosts l' r
  end.

(** IN/__init__.py:99-113: types with more than one value. *)
Fixpoint mismatches (keys : list string) (r : list (string * groups)) : res (list (string * groups)) :=
  match keys with
  | [] => Ok []
  | k :: keys' =>
      match get String.eqb k r with
      | None => Err KeyError
      | Some g => let* w := mismatches keys' r in
                  Ok (if Nat.ltb 1 (List.length g) then (k, g) :: w else w)
      end
  end.

(** IN/__init__.py:76-113, warn.  The two first warnings name self.hostname, which does not exist.
    The list is not empty (IN/__init__.py:59). *)
Definition warn (l : list inventory) : res (list (string * groups)) :=
  match l with
  | [] => Err ValueError
  | i0 :: _ =>
      let earliest := fold_right (fun i t => Z.min (i_created i) t) (i_created i0) l in
      if existsb (fun i => (108000 <? i_uptime i) || (10000000 <? i_created i - earliest)) l
      then Err AttributeError
      else
        let inp := fold_left (fun d i => put String.eqb (i_host i) (kept i) d) l [] in
        let* r := add_hosts inp [] in
        mismatches version_names r
  end.

(* ------------------------------------------------------------------ web client *)

Inductive token := NoToken | TokenText (s : string) | TokenFile (content : option string).

(** WC:41-46, the attributes. *)
Record web := mkWeb { w_token : string; w_server : string; w_user : option (string * string);
                      w_key : option string; w_connected : bool }.

(** shepherd_core/commons.py:8. *)
Definition server_default : string := "http://127.0.0.1:8000/shepherd".
Definition web0 : web := mkWeb "basic_public_access" server_default None None false.

(** WC:88-107, the settings of _connect; a text as token is ignored. *)
Definition settings (server : option string) (t : token) (w : web) : res web :=
  let* tok := match t with
              | TokenFile None => Err FileNotFoundError
              | TokenFile (Some s) => Ok s
              | TokenText _ => Ok (w_token w)
              | NoToken => Ok (w_token w)
              end in
  let srv := match server with Some s => lower s | None => w_server w end in
  Ok (mkWeb tok srv (w_user w) (w_key w) (w_connected w)).

(** WC:109-127 and WC:31-49: the session key, then the data of the user (name, group).  The server
    is [key_of] and [user_of]: the answer to a request for an address, or an exception.  The result
    has the addresses that were asked for. *)
Definition connect (key_of : string -> res string) (user_of : string -> res (string * string))
    (server : option string) (t : token) : list string * res web :=
  match settings server t web0 with
  | Err e => ([], Err e)
  | Ok w =>
      if (w_server w =? "")%string
      then ([], Ok (mkWeb (w_token w) (w_server w) None None true))
      else
        let a1 := (w_server w ++ "/session_key")%string in
        match key_of a1 with
        | Err e => ([a1], Err e)
        | Ok k =>
            let a2 := (w_server w ++ "/user?token=" ++ w_token w)%string in
            match user_of a2 with
            | Err e => ([a1; a2], Err e)
            | Ok u => ([a1; a2], Ok (mkWeb (w_token w) (w_server w) (Some u) (Some k) true))
            end
        end
  end.

(** WC:77-82, fill_in_user_data. *)
Definition web_fill (w : web) (values : dict) : res dict :=
  let missing k d := match dget k d with None => true | Some v => value_eqb v none_ end in
  let* values := if missing "owner"%string values
                 then match w_user w with
                      | None => Err AttributeError
                      | Some u => Ok (dput "owner" (VStr (fst u)) values)
                      end
                 else Ok values in
  if missing "group"%string values
  then match w_user w with
       | None => Err AttributeError
       | Some u => Ok (dput "group" (VStr (snd u)) values)
       end
  else Ok values.

(** Which client is used: client_abc_fix.py:31-33 and 126 bind the name tb_client of that module;
    the modules with data models bind their own name when they are imported
    (e.g. data_models/content/firmware.py:20), which nobody changes. *)
Inductive client := FixturesClient | WebClient (w : web).
Definition binding := list (string * client).
Definition imported : list string -> binding := map (fun m => (m, FixturesClient)).
Definition new_client (c : client) (b : binding) : binding := put String.eqb "client_abc_fix"%string c b.
