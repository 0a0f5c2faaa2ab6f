(** Levels listed upwards, asked at or above the last. *)
From Verif Require Import Common DepthSpec.
Open Scope list_scope.
Open Scope Q_scope.

Definition Upwards (levels : option (list Q)) : Prop := exists ls, levels = Some ls /\ Descending ls.
(** The depth is that of the level listed last, or above it. *)
Definition AtTop (levels : option (list Q)) (z : Q) : Prop := exists ls b, levels = Some ls /\ Last ls b /\ z <= b.
