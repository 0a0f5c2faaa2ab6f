(** Geometry vocabulary for the unstructured-grid properties. *)
From Coq Require Import Qabs.
From Verif Require Import Common VariableModel.
Open Scope Q_scope.

Notation point := (Q * Q)%type.
(** Twice the signed area: positive for counter-clockwise corners. *)
Definition Cross (a b c : point) : Q :=
  (fst b - fst a) * (snd c - snd a) - (fst c - fst a) * (snd b - snd a).
(** [p] is the combination u a + v b + w c with u + v + w = 1. *)
Definition Combination (a b c p : point) (u v w : Q) : Prop :=
  u + v + w == 1 /\
  fst p == u * fst a + v * fst b + w * fst c /\
  snd p == u * snd a + v * snd b + w * snd c.
Definition InTriangle (a b c p : point) : Prop :=
  exists u v w, Combination a b c p u v w /\ 0 <= u /\ 0 <= v /\ 0 <= w.
(** Within [e] of it: the coefficients' absolute values exceed 1 by at most [e]. *)
Definition NearTriangle (e : Q) (a b c p : point) : Prop :=
  exists u v w, Combination a b c p u v w /\ Qabs u + Qabs v + Qabs w <= 1 + e.

Definition total (l : list Q) : Q := fold_right Qplus 0 l.
(** [m] is the arithmetic mean of [l]. *)
Definition IsMean (l : list Q) (m : Q) : Prop := inject_Z (Z.of_nat (length l)) * m == total l.

(** [i] is the position of the first element of [l] with [P]; -1 if there is none. *)
Definition FirstIndex {A} (P : A -> Prop) (l : list A) (i : Z) : Prop :=
  (exists k x, i = Z.of_nat k /\ nth_error l k = Some x /\ P x /\
     forall j y, (j < k)%nat -> nth_error l j = Some y -> ~ P y) \/
  (i = (-1)%Z /\ forall x, In x l -> ~ P x).

Open Scope Z_scope.
(** Every face lists three existing nodes, not on one line. *)
Definition TriMesh (nodes : list point) (faces : list (list Z)) : Prop :=
  faces <> [] /\
  forall f, In f faces -> exists a b c A B C,
    f = [Z.of_nat a; Z.of_nat b; Z.of_nat c] /\
    nth_error nodes a = Some A /\ nth_error nodes b = Some B /\ nth_error nodes c = Some C /\
    ~ (Cross A B C == 0)%Q.
(** An index answer: -1 or an existing element. *)
Definition GoodIndex (n : nat) (i : Z) : Prop := i = -1 \/ 0 <= i < Z.of_nat n.
Definition Numbers (l : list cell) : Prop := Forall (fun c => exists q, c = CVal q) l.

(** What node data gives at one point. *)
Definition NodeValue (nodes : list point) (faces : list (list Z)) (data : list cell) (p : point) (i : Z) (q : Q) : Prop :=
  (i = -1 -> (q == 0)%Q) /\
  (forall k, i = Z.of_nat k -> exists a b c A B C va vb vc u v w,
     nth_error faces k = Some [Z.of_nat a; Z.of_nat b; Z.of_nat c] /\
     nth_error nodes a = Some A /\ nth_error nodes b = Some B /\ nth_error nodes c = Some C /\
     nth_error data a = Some (CVal va) /\ nth_error data b = Some (CVal vb) /\ nth_error data c = Some (CVal vc) /\
     Combination A B C p u v w /\ (q == u * va + v * vb + w * vc)%Q).

(** Like [TriMesh] with every face listed counter-clockwise. *)
Definition CcwMesh (nodes : list point) (faces : list (list Z)) : Prop :=
  faces <> [] /\
  forall f, In f faces -> exists a b c A B C,
    f = [Z.of_nat a; Z.of_nat b; Z.of_nat c] /\
    nth_error nodes a = Some A /\ nth_error nodes b = Some B /\ nth_error nodes c = Some C /\
    (0 < Cross A B C)%Q.
(** [p] is in the triangle listed by [f], within [e]. *)
Definition NearFace (e : Q) (nodes : list point) (p : point) (f : list Z) : Prop :=
  exists a b c A B C,
    f = [Z.of_nat a; Z.of_nat b; Z.of_nat c] /\
    nth_error nodes a = Some A /\ nth_error nodes b = Some B /\ nth_error nodes c = Some C /\
    NearTriangle e A B C p.
