(** Questions at any depth: what is answered beyond the levels. *)
From Coq Require Import String.
From Verif Require Import Common VariableModel DepthModel DepthSpec WholeSpec.
Open Scope list_scope.
Open Scope Q_scope.

(** The point is beyond the levels on a side where answers are masked. *)
Definition BeyondLevels (ls : list Q) (sbc bbc : bcond) (z : Q) : Prop :=
  exists a b, First ls a /\ Last ls b /\
   ((Ascending ls /\ z < a /\ bmask sbc = true) \/ (Ascending ls /\ b <= z /\ bmask bbc = true) \/
    (Descending ls /\ a < z /\ bmask bbc = true) \/ (Descending ls /\ z <= b /\ bmask sbc = true)).
(** Every depth but those at or beyond the level listed last, on a side where
    answers are not masked. *)
Definition Answerable (levels : option (list Q)) (sbc bbc : bcond) (z : Q) : Prop :=
  forall ls, levels = Some ls -> BeyondLevels ls sbc bbc z \/ exists z', DepthAsked ls sbc bbc z z'.
(** Masked beyond the levels, else as [P] says of the depth answered. *)
Definition AtAnyDepth (levels : option (list Q)) (sbc bbc : bcond) (z : Q) (P : Q -> cell -> Prop) (c : cell) : Prop :=
  match levels with
  | Some ls => (BeyondLevels ls sbc bbc z -> c = CMasked) /\ forall z', DepthAsked ls sbc bbc z z' -> P z' c
  | None => P z c
  end.
(** From levels listed downwards: the first above it, masked at the last and below
    it. *)
Definition Downwards (levels : option (list Q)) : Prop := forall ls, levels = Some ls -> Ascending ls.
Definition InWater (levels : option (list Q)) (z : Q) (P : Q -> cell -> Prop) (c : cell) : Prop :=
  match levels with
  | Some ls => forall a b, First ls a -> Last ls b -> (z < a -> P a c) /\ (a <= z < b -> P z c) /\ (b <= z -> c = CMasked)
  | None => P z c
  end.
