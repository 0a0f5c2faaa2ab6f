(** What a vector in a file is, without the helpers of the model. *)
From Coq Require Import String.
From Verif Require Import Common GridTypeModel TFileModel LoadModel LoadSpec VLoadModel VLoadSpec FMeshModel FMeshSpec.
Open Scope string_scope.
Open Scope list_scope.
Open Scope nat_scope.

(** One column per component, in order; or the first failure. *)
Inductive ColumnsOf {K V} (ask : K -> result V) : list K -> result (list V) -> Prop :=
| AllColumns ks cs : Forall2 (fun k c => ask k = Ok c) ks cs -> ColumnsOf ask ks (Ok cs)
| FirstFailure ks1 k ks2 cs e : Forall2 (fun k c => ask k = Ok c) ks1 cs -> ask k = Err e -> ColumnsOf ask (ks1 ++ k :: ks2) (Err e).

(** A request for the components [ks], by their names or by those of the
    class: nothing else is given but perhaps a name and units. *)
Definition AsksFor (f : lfile) (comps : list (list string * list string)) (a : vargs) (ks : list string) : Prop :=
  Asked f comps a (map Some ks) /\ 2 <= length ks /\ length comps <= length ks /\
  vg_time a = None /\ vg_tz a = TzNone /\ vg_origin a = None /\ vg_disp a = None /\ vg_depth a = false /\ vg_vars a = None.
(** The components are variables of the dataset [vs] made from the file, on the
    same time axis, with as many dimensions, and none says it is at a place
    that is not known.  Without a time axis they have not got as many
    dimensions as with time and depth. *)
Definition Together (d : nat) (f : file) (vs : dict variable) (ks : list string) : Prop :=
  exists w0, (exists k r, ks = k :: r /\ In (k, w0) (fi_vars f)) /\
  (forall k, In k ks -> exists w, In (k, w) (fi_vars f) /\ In k (map fst vs) /\ Alike (as_load f) (to_load w0) (to_load w) /\
     (forall l, Attr w "location" l -> ValidLocation l)) /\
  ((forall n, ~ TimeAxisOf (as_load f) (to_load w0) n) -> length (fm_shape w0) <> d + 2).
(** [w] is on the time axis [n]. *)
Definition OnTime (f : file) (n : string) (w : mvar) : Prop := TimeAxisOf (as_load f) (to_load w) n /\ length (fm_dims w) = length (fm_shape w).
