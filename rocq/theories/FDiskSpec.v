(** Which saves reach the disk, and where. *)
From Coq Require Import String.
From Verif Require Import Common FSaveSpec FDiskModel.
Open Scope string_scope.
Open Scope list_scope.

(** The file a save goes to, unless it is refused at once. *)
Definition GoesTo (o : op) (n : string) : Prop := SomeFormat (op_format o) /\ (op_target o = TName n \/ op_target o = TOpen n).
Definition Refused (o : op) : Prop := ~ SomeFormat (op_format o) \/ op_target o = TElse \/ exists n, op_target o = TPath n.
