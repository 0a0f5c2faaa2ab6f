(** Vocabulary of the theorems about loading a mesh by variable names. *)
From Coq Require Import QArith String.
From Verif Require Import Common GridTypeModel UGridModel UGridSpec NLoadModel.
Open Scope list_scope.
Open Scope nat_scope.

Definition entry (t : list (list Z)) (i j : nat) : Z := nth j (nth i t []) 0%Z.
(** [a] holds the table [t] of [w] columns: row by row, or with rows and columns
    exchanged (Fortran order). *)
Definition Exchanged (w : nat) (t a : list (list Z)) : Prop :=
  length a = w /\ Rect (length t) a /\ forall i j, i < length t -> j < w -> entry a j i = entry t i j.
Definition Holds (w : nat) (t a : list (list Z)) : Prop := a = t \/ Exchanged w t a.
(** Numbers counted from [base]. *)
Definition counted (base : Z) (t : list (list Z)) : list (list Z) := map (map (fun x => (x + base)%Z)) t.
(** A mesh of [n] nodes whose faces have [w] nodes each. *)
Definition IsMesh (n w : nat) (faces : list (list Z)) : Prop :=
  0 < w /\ Rect w faces /\ forall x, In x (concat faces) -> (0 <= x < Z.of_nat n)%Z.
Definition UsesFirst (faces : list (list Z)) : Prop := In 0%Z (concat faces).
(** The variable that a role is mapped to. *)
Definition Mapped {A} (vars : dict A) (mapping : dict string) (role : string) (v : A) : Prop :=
  exists name, dget mapping role = Some name /\ dget vars name = Some v.
