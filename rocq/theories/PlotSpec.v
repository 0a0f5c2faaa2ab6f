(** Vocabulary of the theorems about drawing grids. *)
From Coq Require Import QArith.
From Verif Require Import Common MaskModel UGridModel UGridSpec SGridModel NLoadModel NLoadSpec PlotModel.
Open Scope nat_scope.

(** The place of a node on a map of longitudes up to 180. *)
Definition OnMap (p q : point) : Prop :=
  snd q = snd p /\ ((fst p <= 180 /\ fst q = fst p)%Q \/ (180 < fst p /\ fst q = fst p - 360)%Q).
Definition IsNode {A} (nodes : list A) (i : Z) (p : A) : Prop := (0 <= i)%Z /\ nth_error nodes (Z.to_nat i) = Some p.
(** The line [l] joins the places of the nodes of [e] on the map. *)
Definition Drawn (nodes : list point) (e : Z * Z) (l : point * point) : Prop :=
  exists p q, IsNode nodes (fst e) p /\ IsNode nodes (snd e) q /\ OnMap p (fst l) /\ OnMap q (snd l).
(** [a]-[b] is a side of some face. *)
Definition IsSide (faces : list (list Z)) (a b : Z) : Prop := exists p, Side faces p a b \/ Side faces p b a.
(** Consecutive entries of a list. *)
Definition Next {A} (l : list A) (x y : A) : Prop := exists k, nth_error l k = Some x /\ nth_error l (S k) = Some y.
(** Nodes next to each other in a row or column. *)
Definition Neighbours (r c : nat) (n m : nat * nat) : Prop :=
  fst m < r /\ snd m < c /\
  ((fst m = fst n /\ snd m = S (snd n)) \/ (snd m = snd n /\ fst m = S (fst n))).

(** [p] lies in the triangle of the corners [a], [b], [c] (its border included). *)
Definition InTriangle (p a b c : point) : Prop :=
  exists u v w, (0 <= u /\ 0 <= v /\ 0 <= w /\ u + v + w == 1 /\
    fst p == u * fst a + v * fst b + w * fst c /\
    snd p == u * snd a + v * snd b + w * snd c)%Q.
(** Face [i] has the corners [a], [b], [c]. *)
Definition Corners (nodes : list point) (faces : list (list Z)) (i : nat) (a b c : point) : Prop :=
  exists x y z, nth_error faces i = Some [x; y; z] /\ IsNode nodes x a /\ IsNode nodes y b /\ IsNode nodes z c.
Definition InFace (nodes : list point) (faces : list (list Z)) (p : point) (i : nat) : Prop :=
  exists a b c, Corners nodes faces i a b c /\ InTriangle p a b c.
(** On the map. *)
Definition InDrawn (nodes : list point) (faces : list (list Z)) (p : point) (i : nat) : Prop :=
  exists a b c a' b' c', Corners nodes faces i a b c /\ OnMap a a' /\ OnMap b b' /\ OnMap c c' /\ InTriangle p a' b' c'.
(** What is assumed of the cell tree: it finds a face that contains the point, if any. *)
Definition Locates (nodes : list point) (faces : list (list Z)) (locate : point -> option nat) : Prop :=
  forall p, match locate p with
            | Some i => InFace nodes faces p i
            | None => forall i, ~ InFace nodes faces p i
            end.
(** No corner is on the other side of the 180th meridian. *)
Definition OneSide (nodes : list point) (faces : list (list Z)) (i : nat) : Prop :=
  forall a b c, Corners nodes faces i a b c ->
    ((fst a <= 180 /\ fst b <= 180 /\ fst c <= 180) \/ (180 < fst a /\ 180 < fst b /\ 180 < fst c))%Q.
(** Longitudes from 0 up to 360, or from -180 to 180. *)
Definition Convention (nodes : list point) : Prop :=
  (forall p, In p nodes -> 0 <= fst p < 360)%Q \/ (forall p, In p nodes -> -180 <= fst p <= 180)%Q.
