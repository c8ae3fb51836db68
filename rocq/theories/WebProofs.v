(** Proofs about WebModel.v. *)
From Coq Require Import String Ascii.
From Verif Require Import PyBase FixModel FixSpec FixProofs PinSpec PinProofs WebModel WebSpec.
From Verif Require NameModel PinModel EnvModel.
From Coq Require Import Lia.
Open Scope Z_scope.
Open Scope list_scope.

Lemma token_entry fresh k d : k <> "token"%string -> dget k (with_token fresh d) = entry k d.
Proof.
  intros H. unfold with_token. destruct (empty_value _); rewrite dget_entry; [|reflexivity].
  unfold dput. rewrite entry_put. apply String.eqb_neq in H. rewrite H. reflexivity.
Qed.

Lemma user_spec ve fresh d u : user_of ve fresh d = Ok u <-> describes_user ve fresh d u.
Proof.
  unfold user_of, describes_user. cbn zeta. rewrite !token_entry by discriminate.
  assert (T : forall t, match dget "token" (with_token fresh d) with Some (VStr s) => Ok s | _ => Err ValueError end = Ok t <->
    (entry "token" d = Some (VStr t) \/
     ((entry "token" d = None \/ entry "token" d = Some (VOther "None")) /\ t = ("shepherd_token_" ++ fresh)%string))).
  { intros t. unfold with_token. rewrite (dget_entry "token" d). destruct (entry "token" d) as [[s|z|r]|] eqn:E; cbn [empty_value].
    - cbn [value_eqb none_]. rewrite dget_entry, E. split; [intros [= ->]; auto|]. intros [[= ->]|[[C|C] _]]; [reflexivity|discriminate..].
    - cbn [value_eqb none_]. rewrite dget_entry, E. split; [discriminate|]. intros [C|[[C|C] _]]; discriminate.
    - destruct (value_eqb (VOther r) none_) eqn:EN.
      + apply value_eqb_spec in EN. injection EN as ->. rewrite dget_entry. unfold dput. rewrite entry_put, String.eqb_refl.
        split; [intros [= <-]; right; auto|]. intros [C|[_ ->]]; [discriminate|reflexivity].
      + rewrite dget_entry, E. split; [discriminate|]. intros [C|[[C|C] _]]; try discriminate.
        injection C as ->. discriminate EN.
    - rewrite dget_entry. unfold dput. rewrite entry_put, String.eqb_refl.
      split; [intros [= <-]; right; auto|]. intros [C|[_ ->]]; [discriminate|reflexivity]. }
  split.
  - intros H. destruct (PinModel.need_name (entry "name" d)) as [n|] eqn:E1; [|discriminate H]. cbn [bind] in H.
    destruct (PinModel.need_name (entry "group" d)) as [g|] eqn:E2; [|discriminate H]. cbn [bind] in H.
    destruct (entry "email" d) as [[m|z|r]|] eqn:E3; try discriminate H. destruct (ve m) eqn:E4; [|discriminate H].
    destruct (match dget "token" _ with Some (VStr s) => Ok s | _ => _ end) as [t|] eqn:E5; [|discriminate H]. cbn [bind] in H.
    injection H as <-. cbn [u_name u_group u_token]. pose proof (proj1 (T t) eq_refl) as E6. apply name_spec in E1, E2.
    split; [exact E1|]. split; [exact E2|]. split; [exists m; auto|exact E6].
  - destruct u as [n g t]. cbn [u_name u_group u_token]. intros [H1 [H2 [[m [H3 H4]] H5]]].
    rewrite (proj2 (name_spec _ _) H1). cbn [bind]. rewrite (proj2 (name_spec _ _) H2). cbn [bind].
    rewrite H3, H4, (proj2 (T t) H5). reflexivity.
Qed.

Lemma lower_small s : Forall (fun c => ~ (65 <= nat_of_ascii c <= 90)%nat) (list_ascii_of_string (lower s)).
Proof.
  induction s as [|c s IH]; cbn; constructor; [|exact IH]. unfold lower_ascii.
  destruct ((65 <=? nat_of_ascii c)%nat && (nat_of_ascii c <=? 90)%nat) eqn:E.
  - apply andb_true_iff in E. destruct E as [E1 E2]. apply Nat.leb_le in E1, E2. rewrite nat_ascii_embedding by lia. lia.
  - intros [H1 H2]. apply Nat.leb_le in H1, H2. rewrite H1, H2 in E. discriminate E.
Qed.

Lemma small_lower t : Forall (fun c => ~ (65 <= nat_of_ascii c <= 90)%nat) (list_ascii_of_string t) -> lower t = t.
Proof.
  induction t as [|c t IH]; intros H; [reflexivity|]. cbn in H |- *. inversion H as [|? ? H1 H2]; subst. rewrite (IH H2).
  f_equal. unfold lower_ascii. destruct (Nat.leb_spec 65 (nat_of_ascii c)), (Nat.leb_spec (nat_of_ascii c) 90); cbn [andb]; try reflexivity. lia.
Qed.

Lemma address_spec server srv : address server srv <-> srv = match server with Some s => lower s | None => server_default end.
Proof.
  split.
  - intros [|s t H1 H2]; [reflexivity|]. apply same_iff in H1. rewrite H1. symmetry. apply small_lower, H2.
  - intros ->. destruct server as [s|]; [|constructor]. constructor; [apply same_iff; symmetry; apply lower_lower|apply lower_small].
Qed.

Section Net.
Variable net : string -> res dict.
Variable valid_email : string -> bool.
Variable fresh : string.
Notation create := (create net valid_email fresh).

(** What is sent and what comes out, in one equation. *)
Definition sent (t : token_arg) : string :=
  match t with TokenFile (Some s) => s | _ => "basic_public_access" end.

Definition outcome (srv tok : string) : list string * client * res bool :=
  if String.eqb srv "" then ([], mkClient tok srv None None true, Ok false)
  else match net (key_url srv) with
       | Err e => ([key_url srv], mkClient tok srv None None false, Err e)
       | Ok j =>
         match dget "value" j with
         | None => ([key_url srv], mkClient tok srv None None false, Err KeyError)
         | Some v =>
           match net (user_url srv tok) with
           | Err e => ([key_url srv; user_url srv tok], mkClient tok srv None (Some v) true, Err e)
           | Ok j' =>
             match user_of valid_email fresh j' with
             | Err e => ([key_url srv; user_url srv tok], mkClient tok srv None (Some v) true, Err e)
             | Ok u => ([key_url srv; user_url srv tok], mkClient tok srv (Some u) (Some v) true, Ok true)
             end
           end
         end
       end.

Lemma connect_outcome server t srv : address server srv -> t <> TokenFile None ->
  connect net valid_email fresh server t new_client = outcome srv (sent t).
Proof.
  intros A N. apply address_spec in A. unfold connect.
  assert (E : match t with TokenFile None => Err FileNotFoundError | TokenFile (Some s) => Ok s
              | TokenText _ => Ok (c_token new_client) | NoToken => Ok (c_token new_client) end = Ok (sent t)).
  { destruct t as [|s|[s|]]; try reflexivity. elim N. reflexivity. }
  rewrite E. cbn [c_server new_client c_user c_key c_connected]. rewrite <- A. unfold query_session_key, outcome.
  cbn [c_server c_token c_user c_key c_connected]. fold (key_url srv).
  destruct (String.eqb srv "") eqn:ES.
  - unfold query_user_data. cbn [c_server c_token c_user c_key c_connected]. rewrite ES. reflexivity.
  - destruct (net (key_url srv)) as [j|e]; [|reflexivity]. destruct (dget "value" j) as [v|]; [|reflexivity].
    unfold query_user_data. cbn [c_server c_token c_user c_key c_connected]. rewrite ES. fold (user_url srv (sent t)).
    destruct (net (user_url srv (sent t))) as [j'|e]; [|reflexivity].
    destruct (user_of valid_email fresh j'); reflexivity.
Qed.

Lemma create_outcome server t srv w : address server srv -> t <> TokenFile None ->
  create server t w =
  (fst (fst (outcome srv (sent t))), mkWorld (Web (snd (fst (outcome srv (sent t))))) (g_models w),
   match snd (outcome srv (sent t)) with Ok _ => Ok (snd (fst (outcome srv (sent t)))) | Err e => Err e end).
Proof.
  intros A N. unfold WebModel.create. rewrite (connect_outcome server t srv A N).
  destruct (outcome srv (sent t)) as [[urls c] r]. reflexivity.
Qed.

Lemma create_no_file server w : create server (TokenFile None) w = ([], mkWorld (Web new_client) (g_models w), Err FileNotFoundError).
Proof. reflexivity. Qed.

(** ** Requests *)
Lemma requests_spec server t srv w urls w' r :
  address server srv -> (forall s, t <> TokenText s) -> create server t w = (urls, w', r) ->
  (srv = ""%string -> urls = []) /\
  (srv <> ""%string -> exists rest, urls ++ rest = [key_url srv; user_url srv (users_token t)] /\
     (t <> TokenFile None -> urls <> []) /\ (forall c, r = Ok c -> rest = [])).
Proof.
  intros A NT H. assert (S : sent t = users_token t) by (destruct t as [|s|[s|]]; try reflexivity; elim (NT s eq_refl)).
  assert (D : t = TokenFile None \/ t <> TokenFile None) by (destruct t as [|s|[s|]]; auto; right; discriminate).
  destruct D as [->|N].
  - rewrite create_no_file in H. injection H as <- <- <-. split; [auto|]. intros _. exists [key_url srv; user_url srv (users_token (TokenFile None))].
    split; [reflexivity|]. split; [intros C; contradiction|discriminate].
  - rewrite (create_outcome _ _ _ _ A N), S in H. injection H as <- <- <-. unfold outcome.
    destruct (String.eqb_spec srv "") as [E|E]; [split; [auto|contradiction]|]. split; [contradiction|]. intros _.
    destruct (net (key_url srv)) as [j|e]; [|exists [user_url srv (users_token t)]; split; [reflexivity|split; [discriminate|cbn; discriminate]]].
    destruct (dget "value" j) as [v|]; [|exists [user_url srv (users_token t)]; split; [reflexivity|split; [discriminate|cbn; discriminate]]].
    exists []. destruct (net _) as [j'|e]; [destruct (user_of _ _ _)|]; (split; [reflexivity|split; [discriminate|reflexivity]]).
Qed.

Lemma text_ignored server s w : create server (TokenText s) w = create server NoToken w.
Proof. reflexivity. Qed.

(** ** Success *)
Lemma success_spec server t srv w : address server srv -> srv <> ""%string -> (forall s, t <> TokenText s) ->
  (forall c, snd (create server t w) = Ok c <->
     t <> TokenFile None /\ exists j v j' u, net (key_url srv) = Ok j /\ entry "value" j = Some v /\
       net (user_url srv (users_token t)) = Ok j' /\ describes_user valid_email fresh j' u /\
       c = mkClient (users_token t) srv (Some u) (Some v) true).
Proof.
  intros A NE NT c. assert (S : sent t = users_token t) by (destruct t as [|s|[s|]]; try reflexivity; elim (NT s eq_refl)).
  assert (D : t = TokenFile None \/ t <> TokenFile None) by (destruct t as [|s|[s|]]; auto; right; discriminate).
  destruct D as [->|N].
  - rewrite create_no_file. cbn. split; [discriminate|]. intros [C _]. contradiction.
  - rewrite (create_outcome _ _ _ _ A N), S. cbn [snd]. unfold outcome. apply String.eqb_neq in NE. rewrite NE.
    split.
    + intros H. split; [exact N|]. destruct (net (key_url srv)) as [j|e] eqn:E1; [|discriminate H].
      destruct (dget "value" j) as [v|] eqn:E2; [|discriminate H]. destruct (net (user_url srv _)) as [j'|e] eqn:E3; [|discriminate H].
      destruct (user_of valid_email fresh j') as [u|e] eqn:E4; [|discriminate H]. injection H as <-.
      rewrite dget_entry in E2. apply user_spec in E4. exists j, v, j', u. auto.
    + intros [_ [j [v [j' [u [E1 [E2 [E3 [E4 ->]]]]]]]]]. rewrite E1, dget_entry, E2, E3, (proj2 (user_spec _ _ _ _) E4). reflexivity.
Qed.

(** ** The world *)
Lemma module_last server t w : exists c, g_module (snd (fst (create server t w))) = Web c /\
  forall c', snd (create server t w) = Ok c' -> c' = c.
Proof.
  unfold WebModel.create. destruct (connect _ _ _ server t new_client) as [[urls c] r]. exists c. split; [reflexivity|].
  cbn. destruct r; [intros c' [= <-]; reflexivity|discriminate].
Qed.

Lemma models_stay args : forall w, g_models (create_all net valid_email fresh args w) = g_models w.
Proof.
  unfold create_all. induction args as [|a args IH]; intros w; [reflexivity|]. cbn [fold_left]. rewrite IH.
  unfold WebModel.create. destruct (connect _ _ _ (fst a) (snd a) new_client) as [[urls c] r]. reflexivity.
Qed.

Lemma failed_stays server t srv w e : address server srv -> srv <> ""%string -> t <> TokenFile None ->
  net (key_url srv) = Err e ->
  snd (create server t w) = Err e /\ exists c, g_module (snd (fst (create server t w))) = Web c /\ c_connected c = false.
Proof.
  intros A NE N E. rewrite (create_outcome _ _ _ _ A N). cbn [fst snd g_module]. unfold outcome.
  apply String.eqb_neq in NE. rewrite NE, E. cbn. split; [reflexivity|]. eexists. split; reflexivity.
Qed.

Lemma empty_server t w : t <> TokenFile None -> exists c, create (Some ""%string) t w = ([], mkWorld (Web c) (g_models w), Ok c) /\
  c_connected c = true /\ c_user c = None.
Proof.
  intros N. assert (A : address (Some ""%string) "") by (constructor; constructor).
  rewrite (create_outcome _ _ _ _ A N). cbn. eexists. split; [reflexivity|]. split; reflexivity.
Qed.
End Net.

(** * Data of the user *)

Lemma get_looked k (d : assoc string (option NameModel.text)) :
  get String.eqb k d = option_map snd (find (fun e => String.eqb (fst e) k) d).
Proof.
  induction d as [|[k' v] d IH]; [reflexivity|]. cbn [get find fst]. rewrite String.eqb_sym.
  destruct (String.eqb k' k); [reflexivity|exact IH].
Qed.
Lemma looked_get k d : looked_up k d = match get String.eqb k d with Some (Some t) => Some t | _ => None end.
Proof. rewrite get_looked. unfold looked_up. destruct (find _ d) as [[k' [t|]]|]; reflexivity. Qed.

Lemma get_put k k' v (d : assoc string (option NameModel.text)) :
  get String.eqb k (put String.eqb k' v d) = if String.eqb k k' then Some v else get String.eqb k d.
Proof.
  induction d as [|[a w] d IH]; cbn [put get].
  - destruct (String.eqb k k'); reflexivity.
  - destruct (String.eqb_spec k' a) as [->|N]; cbn [get].
    + destruct (String.eqb k a); reflexivity.
    + destruct (String.eqb_spec k a) as [->|N'].
      * apply not_eq_sym, String.eqb_neq in N. rewrite N. reflexivity.
      * exact IH.
Qed.

Lemma fill_in_spec key field c values : (looked_up key values = None -> c_user c <> None) ->
  exists v', fill_in key field c values = Ok v' /\
  (forall k, k <> key -> looked_up k v' = looked_up k values) /\
  (forall t, looked_up key values = Some t -> looked_up key v' = Some t) /\
  (forall u, looked_up key values = None -> c_user c = Some u -> looked_up key v' = Some (field u)).
Proof.
  intros H. unfold fill_in. rewrite !looked_get in *. destruct (get String.eqb key values) as [[t|]|] eqn:E.
  - exists values. split; [reflexivity|]. split; [auto|]. rewrite looked_get, E. split; [intros s Hs; exact Hs|discriminate].
  - specialize (H eq_refl). destruct (c_user c) as [u|]; [|contradiction].
    eexists. split; [reflexivity|]. split; [|split; [discriminate|]].
    + intros k N. rewrite !looked_get, get_put. apply String.eqb_neq in N. rewrite N. reflexivity.
    + intros u' _ [= <-]. rewrite looked_get, get_put, String.eqb_refl. reflexivity.
  - specialize (H eq_refl). destruct (c_user c) as [u|]; [|contradiction].
    eexists. split; [reflexivity|]. split; [|split; [discriminate|]].
    + intros k N. rewrite !looked_get, get_put. apply String.eqb_neq in N. rewrite N. reflexivity.
    + intros u' _ [= <-]. rewrite looked_get, get_put, String.eqb_refl. reflexivity.
Qed.

Lemma fill_spec c u values : c_user c = Some u -> exists v', fill_in_user_data c values = Ok v' /\
  (forall k, k <> "owner"%string -> k <> "group"%string -> looked_up k v' = looked_up k values) /\
  looked_up "owner" v' = Some (match looked_up "owner" values with Some t => t | None => u_name u end) /\
  looked_up "group" v' = Some (match looked_up "group" values with Some t => t | None => u_group u end).
Proof.
  intros U. unfold fill_in_user_data.
  destruct (fill_in_spec "owner"%string u_name c values) as [v1 [E1 [O1 [K1 N1]]]]; [rewrite U; discriminate|].
  destruct (fill_in_spec "group"%string u_group c v1) as [v2 [E2 [O2 [K2 N2]]]]; [rewrite U; discriminate|].
  rewrite E1. cbn [bind]. exists v2. split; [exact E2|]. split.
  - intros k H1 H2. rewrite (O2 k H2). apply O1, H1.
  - split.
    + rewrite (O2 "owner"%string) by discriminate. destruct (looked_up "owner" values) as [t|]; [apply K1; reflexivity|apply N1; [reflexivity|exact U]].
    + rewrite <- (O1 "group"%string) by discriminate. destruct (looked_up "group" v1) as [t|]; [apply K2; reflexivity|apply N2; [reflexivity|exact U]].
Qed.

Lemma fill_nobody c values : c_user c = None -> (looked_up "owner" values = None \/ looked_up "group" values = None) ->
  fill_in_user_data c values = Err AttributeError.
Proof.
  intros U H. unfold fill_in_user_data. unfold fill_in at 1. rewrite !looked_get, U in *.
  destruct (get String.eqb "owner"%string values) as [[t|]|] eqn:E; [|reflexivity|reflexivity]. cbn [bind]. unfold fill_in. rewrite U.
  destruct H as [H|H]; [discriminate H|]. destruct (get String.eqb "group"%string values) as [[x|]|]; [discriminate H|reflexivity|reflexivity].
Qed.

Lemma completing_fails c ty values : try_completing_model c ty values = Err NotImplementedError.
Proof.
  unfold try_completing_model, query_item, try_inheritance.
  destruct (match values with [(k, _)] => _ | _ => false end); reflexivity.
Qed.

Lemma password_spec f pw h : hash_password f pw = Ok h <->
  (20 <= List.length pw <= 100)%nat /\ h = f pw (PinModel.codes "testbed_salt_TODO").
Proof.
  unfold hash_password. destruct (Nat.leb_spec 20 (List.length pw)), (Nat.leb_spec (List.length pw) 100); cbn [andb];
    (split; [intros E; try discriminate E|intros [? ?]; try lia]).
  - injection E as <-. auto.
  - subst h. reflexivity.
Qed.

(** * The other model of the same code, EnvModel.v (property C103), gives the same. *)
Definition env_token (t : token_arg) : EnvModel.token :=
  match t with NoToken => EnvModel.NoToken | TokenText s => EnvModel.TokenText s | TokenFile c => EnvModel.TokenFile c end.
Definition env_key (net : string -> res dict) (show : value -> string) (a : string) : res string :=
  let* j := net a in match dget "value" j with None => Err KeyError | Some v => Ok (show v) end.
Definition env_user (net : string -> res dict) (ve : string -> bool) (fresh : string) (text : NameModel.text -> string) (a : string)
  : res (string * string) :=
  let* j := net a in let* u := user_of ve fresh j in Ok (text (u_name u), text (u_group u)).
Definition env_client (show : value -> string) (text : NameModel.text -> string) (c : client) : EnvModel.web :=
  EnvModel.mkWeb (c_token c) (c_server c) (option_map (fun u => (text (u_name u), text (u_group u))) (c_user c))
    (option_map show (c_key c)) (c_connected c).

Lemma same_as_env net ve fresh show text server t w :
  EnvModel.connect (env_key net show) (env_user net ve fresh text) server (env_token t) =
  (fst (fst (create net ve fresh server t w)),
   match snd (create net ve fresh server t w) with Ok c => Ok (env_client show text c) | Err e => Err e end).
Proof.
  assert (D : t = TokenFile None \/ t <> TokenFile None) by (destruct t as [|s|[s|]]; auto; right; discriminate).
  destruct D as [->|N]; [reflexivity|].
  pose (srv := match server with Some s => lower s | None => server_default end).
  assert (A : address server srv) by (apply address_spec; reflexivity).
  rewrite (create_outcome net ve fresh server t srv w A N). cbn [fst snd].
  unfold EnvModel.connect.
  assert (S : EnvModel.settings server (env_token t) EnvModel.web0 = Ok (EnvModel.mkWeb (sent t) srv None None false)).
  { destruct t as [|s|[s|]]; try reflexivity. elim N. reflexivity. }
  rewrite S. cbn [EnvModel.w_server EnvModel.w_token]. unfold outcome.
  destruct (String.eqb srv ""); [reflexivity|]. fold (key_url srv). fold (user_url srv (sent t)). unfold env_key, env_user.
  destruct (net (key_url srv)) as [j|e]; [|reflexivity]. cbn [bind]. destruct (dget "value" j) as [v|]; [|reflexivity].
  destruct (net (user_url srv (sent t))) as [j'|e]; [|reflexivity]. cbn [bind].
  destruct (user_of ve fresh j') as [u|e]; reflexivity.
Qed.
