(** Levels listed upwards, asked below the last of them. *)
From Verif Require Import Common VariableModel DepthSpec.
Open Scope list_scope.
Open Scope Q_scope.

(** Masked below the first, which is the deepest, else as [P] says. *)
Definition UnderWater (levels : option (list Q)) (z : Q) (P : Q -> cell -> Prop) (c : cell) : Prop :=
  match levels with
  | Some ls => forall a, First ls a -> (a < z -> c = CMasked) /\ (z <= a -> P z c)
  | None => P z c
  end.
