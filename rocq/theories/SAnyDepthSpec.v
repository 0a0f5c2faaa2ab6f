(** Questions at any depth on staggered grids. *)
From Coq Require Import Reals String.
From Verif Require Import Common VariableModel DepthModel DepthSpec WholeSpec SWholeModel AnyDepthSpec SGridInterpModel.
Open Scope list_scope.
Open Scope Q_scope.

(** Masked beyond the levels, else as [P] says of the depth answered. *)
Definition RAnyDepth (ls : list Q) (sbc bbc : bcond) (z : Q) (P : Q -> rcell -> Prop) (c : rcell) : Prop :=
  (BeyondLevels ls sbc bbc z -> c = RMask) /\ forall z', DepthAsked ls sbc bbc z z' -> P z' c.
(** From levels listed downwards. *)
Definition RInWater (ls : list Q) (z : Q) (P : Q -> rcell -> Prop) (c : rcell) : Prop :=
  forall a b, First ls a -> Last ls b -> (z < a -> P a c) /\ (a <= z < b -> P z c) /\ (b <= z -> c = RMask).
