(** Levels listed upwards on staggered grids, asked below the last of them. *)
From Coq Require Import Reals String.
From Verif Require Import Common VariableModel DepthSpec SGridInterpModel.
Open Scope list_scope.
Open Scope Q_scope.

(** Masked below the first, which is the deepest, else as [P] says. *)
Definition RUnderWater (ls : list Q) (z : Q) (P : Q -> rcell -> Prop) (c : rcell) : Prop :=
  forall a, First ls a -> (a < z -> c = RMask) /\ (z <= a -> P z c).
