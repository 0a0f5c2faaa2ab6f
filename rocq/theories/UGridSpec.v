(** What the unstructured-grid topology properties mean, without the model's
    loops. *)
From Verif Require Import Common.
Open Scope Z_scope.

(** A 2-D index array: all rows have [nv] entries. *)
Definition Rect (nv : nat) (f : list (list Z)) : Prop := Forall (fun r => length r = nv) f.

(** Numbering of a face array over [n] nodes: one-based when the largest entry
    is [n] and none is below 1; zero-based (with -1 for "no node") otherwise. *)
Definition OneBased (n : nat) (f : list (list Z)) : Prop :=
  In (Z.of_nat n) (concat f) /\ forall x, In x (concat f) -> 1 <= x <= Z.of_nat n.
Definition ZeroBased (n : nat) (f : list (list Z)) : Prop :=
  concat f <> [] /\ forall x, In x (concat f) -> -1 <= x < Z.of_nat n.

(** Side [j] of face [i] joins nodes [a] and [b]. *)
Definition Side (faces : list (list Z)) (p : nat * nat) (a b : Z) : Prop :=
  exists row, nth_error faces (fst p) = Some row /\
    nth_error row (snd p) = Some a /\
    nth_error row (S (snd p) mod length row)%nat = Some b.

Definition SameEnds (a b c d : Z) : Prop := (a = c /\ b = d) \/ (a = d /\ b = c).

(** Two sides have the same two end nodes. *)
Definition Meets (faces : list (list Z)) (p q : nat * nat) : Prop :=
  exists a b c d, Side faces p a b /\ Side faces q c d /\ SameEnds a b c d.

(** No edge is used by more than two sides. *)
Definition Manifold (faces : list (list Z)) : Prop :=
  forall p q r, Meets faces p q -> Meets faces p r -> p = q \/ p = r \/ q = r.
(** No face runs along the same edge twice. *)
Definition ProperFaces (faces : list (list Z)) : Prop :=
  forall i j k, Meets faces (i, j) (i, k) -> j = k.

(** Position order of the sides: by face, then by side. *)
Definition before (p q : nat * nat) : Prop :=
  (fst p < fst q)%nat \/ (fst p = fst q /\ (snd p < snd q)%nat).

(** Entry of a table. *)
Definition Entry (t : list (list Z)) (p : nat * nat) (v : Z) : Prop :=
  exists row, nth_error t (fst p) = Some row /\ nth_error row (snd p) = Some v.
