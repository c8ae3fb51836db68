(** What it means that an instance fits its class, and that nothing of it is lost in a file. *)
From Coq Require Import String.
From Verif Require Import PyBase StoModel.
From Coq Require Import QArith.
Open Scope Z_scope.

(** An instance of the class at a time: values of the right types, fields as declared, values
    not given are the default, and the last validator is content. *)
Fixpoint has (now : Z) (t : ty) (p : pval) {struct t} : Prop :=
  match t, p with
  | TBool, PBool _ | TDate, PDate _ _ | TTime, PTime _ | TPath, PPath _ => True
  | TInt ok, PInt z => ok z = true
  | TFloat ok, PFloat q => ok q = true
  | TStr ok, PStr s => strip s = s /\ ok s = true
  | TUuid ok, PUuid s | TIp ok, PIp s => ok s = true
  | TOpt _, PNone => True
  | TOpt t', _ => has now t' p
  | TList ok t', PList l => ok (List.length l) = true /\ Forall (has now t') l
  | TObj _ _ fields post, PObj fs =>
      (fix all (fields : list (string * (ty * dflt))) (fs : list (string * (bool * pval))) : Prop :=
         match fields, fs with
         | [], [] => True
         | (n, (t', d)) :: fields', (n', (given, v)) :: fs' =>
             n = n' /\ has now t' v /\
             (given = false -> match d with Required => False | Const c => v = c | Factory => True end) /\
             all fields' fs'
         | _, _ => False
         end) fields fs /\ post now (values fs) = true
  | _, _ => False
  end.

(** All durations in it are whole seconds. *)
Fixpoint whole (p : pval) : Prop :=
  match p with
  | PTime us => (1000000 | us)
  | PList l => fold_right (fun v P => whole v /\ P) True l
  | PObj fs => fold_right (fun f P => match f with (_, (_, v)) => whole v end /\ P) True fs
  | _ => True
  end.

(** Everything that a factory would make anew is given explicitly. *)
Fixpoint known (t : ty) (p : pval) {struct t} : Prop :=
  match t, p with
  | TOpt _, PNone => True
  | TOpt t', _ => known t' p
  | TList _ t', PList l => Forall (known t') l
  | TObj _ _ fields _, PObj fs =>
      (fix all (fields : list (string * (ty * dflt))) (fs : list (string * (bool * pval))) : Prop :=
         match fields, fs with
         | (_, (t', d)) :: fields', (_, (given, v)) :: fs' =>
             known t' v /\ (d = Factory -> given = true) /\ all fields' fs'
         | _, _ => True
         end) fields fs
  | _, _ => True
  end.

(** No default is made by a factory. *)
Fixpoint lasting (t : ty) : Prop :=
  match t with
  | TOpt t' | TList _ t' => lasting t'
  | TObj _ _ fields _ =>
      fold_right (fun f P => match f with (_, (t', d)) => lasting t' /\ d <> Factory end /\ P) True fields
  | _ => True
  end.

(** The names of the fields of a class are different. *)
Fixpoint distinct (t : ty) : Prop :=
  match t with
  | TOpt t' | TList _ t' => distinct t'
  | TObj _ _ fields _ =>
      NoDup (map fst fields) /\
      fold_right (fun f P => match f with (_, (t', _)) => distinct t' end /\ P) True fields
  | _ => True
  end.

(** No validator before the fields are looked at changes anything. *)
Fixpoint unaltered (t : ty) : Prop :=
  match t with
  | TOpt t' | TList _ t' => unaltered t'
  | TObj _ pre fields _ =>
      (forall m, pre m = Ok m) /\
      fold_right (fun f P => match f with (_, (t', _)) => unaltered t' end /\ P) True fields
  | _ => True
  end.

(** The validators before leave this instance alone, in the form [doc] gives it. *)
Fixpoint calm (doc : pval -> yval) (t : ty) (p : pval) {struct t} : Prop :=
  match t, p with
  | TOpt _, PNone => True
  | TOpt t', _ => calm doc t' p
  | TList _ t', PList l => Forall (calm doc t') l
  | TObj _ pre fields _, PObj fs =>
      (forall m, doc p = YMap m -> pre m = Ok m) /\
      (fix all (fields : list (string * (ty * dflt))) (fs : list (string * (bool * pval))) : Prop :=
         match fields, fs with
         | (_, (t', _)) :: fields', (_, (_, v)) :: fs' => calm doc t' v /\ all fields' fs'
         | _, _ => True
         end) fields fs
  | _, _ => True
  end.

(** Two instances with the same values. *)
Definition same (p q : pval) : Prop := plain p = plain q.

(** Defaults fit their fields. *)
Fixpoint sound (fresh : string -> pval) (now : Z) (t : ty) : Prop :=
  match t with
  | TOpt t' | TList _ t' => sound fresh now t'
  | TObj _ _ fields _ =>
      fold_right (fun f P => match f with (n, (t', d)) =>
          sound fresh now t' /\
          match d with Required => True | Const c => has now t' c | Factory => has now t' (fresh n) end
        end /\ P) True fields
  | _ => True
  end.

(** Durations cut to whole seconds, towards 0. *)
Fixpoint cut (p : pval) : pval :=
  match p with
  | PTime us => PTime (Z.quot us 1000000 * 1000000)
  | PList l => PList (map cut l)
  | PObj fs => PObj (map (fun f => match f with (n, (given, v)) => (n, (given, cut v)) end) fs)
  | _ => p
  end.

(** A document of YAML: no objects of Python in it. *)
Fixpoint portable (y : yval) : Prop :=
  match y with
  | YTime _ | YPath _ | YUuid _ | YIp _ => False
  | YList l => fold_right (fun v P => portable v /\ P) True l
  | YMap m => fold_right (fun kv P => match kv with (_, v) => portable v end /\ P) True m
  | _ => True
  end.
