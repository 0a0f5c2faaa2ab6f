(** What the theorems about VectorVariable say, without the model's loops. *)
From Coq Require Import Ascii String.
From Verif Require Import Common TimeModel VariableModel VVarModel.
Open Scope nat_scope.

(** One column per component, each the component's own answer; otherwise the
    exception of the first component that fails. *)
Inductive Columns {D V} (compute : D -> request -> result V) (r : request) : list D -> result (list V) -> Prop :=
| ColumnsAll ds vs : Forall2 (fun d v => compute d r = Ok v) ds vs -> Columns compute r ds (Ok vs)
| ColumnsErr ds1 d ds2 vs e : Forall2 (fun d v => compute d r = Ok v) ds1 vs -> compute d r = Err e ->
    Columns compute r (ds1 ++ d :: ds2) (Err e).

(** Answers of a history against the data the components have throughout. *)
Definition AnswersFrom {D V} (compute : D -> request -> result V) (ds : list D)
  (o : vec_op D) (a : option (result (list V))) : Prop :=
  match o with
  | VAt _ r => exists v, a = Some v /\ Columns compute r ds v
  | VComp _ _ => a = None
  end.

(** [a] was answered earlier to a query with the same key. *)
Definition SeenBefore {D V} (ops : list (vec_op D)) (answers : list (option (result (list V)))) (r : request) (v : list V) : Prop :=
  exists i r', nth_error ops i = Some (VAt true r') /\ rq_key r' = rq_key r /\
               nth_error answers i = Some (Some (Ok v)).

(** The caller's view of a history of cached calls. *)
Definition SeesComputed (comp : nat -> result (list (Q * bool) * bool)) (o : hop)
  (a : option (result (list (Q * bool)))) : Prop :=
  match o with
  | HCall r => a = Some (match comp r with Ok p => Ok (fst p) | Err e => Err e end)
  | _ => True
  end.
Definition NumberWrites (o : hop) : Prop := match o with HMask _ _ => False | _ => True end.

(** The vector and all its components have the same time axis. *)
Definition SameTime (v : vvec) : Prop :=
  Forall (fun c => vs_time (cp_state c) = vv_time v) (vv_comps v).
Definition SameUnits (v : vvec) : Prop :=
  Forall (fun c => cp_units c = vv_units v) (vv_comps v).
(** A component whose data can have the axis [o]. *)
Definition Fits (o : time_obj) (c : vcomp) : Prop :=
  exists d r, vs_shape (cp_state c) = d :: r /\ (length (t_data o) = d \/ length (t_data o) <= 1).
Definition TwoDifferent {A} (l : list A) : Prop := exists x y, In x l /\ In y l /\ x <> y.
