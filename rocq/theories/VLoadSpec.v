(** Vocabulary of the theorems about loading vector variables. *)
From Coq Require Import String.
From Verif Require Import Common TimeModel GridTypeModel TFileModel LoadModel LoadSpec VLoadModel.
Open Scope string_scope.
Open Scope list_scope.
Open Scope nat_scope.

(** The names there are, in order. *)
Inductive Present : list (option string) -> list string -> Prop :=
| P_nil : Present [] []
| P_none r l : Present r l -> Present (None :: r) l
| P_some n r l : Present r l -> Present (Some n :: r) (n :: l).
(** The names asked for, or those found. *)
Definition Asked (f : lfile) (comps : list (list string * list string)) (a : vargs) (names : list (option string)) : Prop :=
  vg_names a = Some names \/ vg_names a = None /\ names = gen_varnames f comps /\ exists n, In (Some n) names.
(** Has the variable a dimension besides those of the grid and of time? *)
Definition Vertical (g : grid_api) (f : lfile) (v : lvar) : Prop :=
  ((exists n, TimeAxisOf f v n) /\ length (lv_shape v) = GridDimensions (ga_kind g) + 2) \/
  ((forall n, ~ TimeAxisOf f v n) /\ length (lv_shape v) = GridDimensions (ga_kind g) + 1).
(** Two variables on the same time axis with as many dimensions. *)
Definition Alike (f : lfile) (v w : lvar) : Prop :=
  (forall n, TimeAxisOf f v n <-> TimeAxisOf f w n) /\ length (lv_shape v) = length (lv_shape w) /\ lv_dims v <> [] /\ lv_dims w <> [].
