(** What it means to find the right variable for a role, and to open the right
    file. *)
From Coq Require Import String.
From Verif Require Import Common GridTypeModel SearchModel.
Open Scope list_scope.

(** [v] is the first element of [l] satisfying [P]. *)
Definition FirstOf {A} (P : A -> Prop) (l : list A) (v : A) : Prop :=
  exists pre post, l = pre ++ v :: post /\ P v /\ forall x, In x pre -> ~ P x.
Definition NoneOf {A} (P : A -> Prop) (l : list A) : Prop := forall x, In x l -> ~ P x.

(** The variable answering one long/standard-name query: a long name match comes
    before any standard name match; file order within each. *)
Definition LongAnswer (f : nfile) (q : string) (v : nvar) : Prop :=
  FirstOf (fun x => v_long x = Some q) (f_vars f) v \/
  (NoneOf (fun x => v_long x = Some q) (f_vars f) /\ FirstOf (fun x => v_std x = Some q) (f_vars f) v).
Definition NameAnswer (f : nfile) (q : string) (v : nvar) : Prop :=
  FirstOf (fun x => v_name x = q) (f_vars f) v.

(** The answer for a role: that of its first query that has one. *)
Definition RoleAnswer (ans : string -> nvar -> Prop) (qs : list string) (v : nvar) : Prop :=
  exists q, FirstOf (fun q => exists v, ans q v) qs q /\ ans q v.
Definition NoAnswer (ans : string -> nvar -> Prop) (qs : list string) : Prop :=
  forall q, In q qs -> forall v, ~ ans q v.

(** Names a table lists for a role; a role that is not in the table has none. *)
Definition Listed (t : roles) (k : string) (qs : list string) : Prop :=
  In (k, qs) t \/ ((~ exists l, In (k, l) t) /\ qs = []).
Definition IsRole (t : roles) (k : string) : Prop := exists l, In (k, l) t.

(** Four places in order of precedence. *)
Definition Best (ds dg : nfile) (cf def : list string) (r : option nvar) : Prop :=
  match r with
  | Some v =>
      RoleAnswer (LongAnswer ds) cf v \/
      (NoAnswer (LongAnswer ds) cf /\
        (RoleAnswer (NameAnswer ds) def v \/
         (NoAnswer (NameAnswer ds) def /\ f_id ds <> f_id dg /\
           (RoleAnswer (LongAnswer dg) cf v \/
            (NoAnswer (LongAnswer dg) cf /\ RoleAnswer (NameAnswer dg) def v)))))
  | None =>
      NoAnswer (LongAnswer ds) cf /\ NoAnswer (NameAnswer ds) def /\
      (f_id ds <> f_id dg -> NoAnswer (LongAnswer dg) cf /\ NoAnswer (NameAnswer dg) def)
  end.

(** [d] is the file that argument [f] names. *)
Definition Opens (f : fileref) (d : dsobj) : Prop :=
  match f with
  | FOpen o => d = Given o
  | FStr p | FPathLike p => exists n, d = Single p n
  | FList [p] => exists n, d = Single p n
  | FList ps => exists n, d = Multi ps n
  end.
