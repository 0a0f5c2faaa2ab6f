(** Data with missing values over terrain-following levels on a mesh of triangles:
    which levels an answer is made of, and what it shows. *)
From Coq Require Import String.
From Verif Require Import Common TimeSpec VariableModel UGridGeomSpec WholeSpec TerrSpec WMaskSpec.
Open Scope string_scope.
Open Scope list_scope.
Open Scope nat_scope.

(** The levels that an answer at depth [d] is made of, in a column of [n] levels at
    [z] with data on [n'] levels: the two about the point; above the first level,
    that one and the last one with data. *)
Definition LevelUsed (n n' : nat) (z : nat -> Q) (d : Q) (k : nat) : Prop :=
  ((d < z 0%nat)%Q /\ (k = 0 \/ k = n' - 1)) \/ exists j, S j < n /\ (z j <= d < z (S j))%Q /\ (k = j \/ k = S j).
(** The answer when the values [u] of the levels with [m] are missing. *)
Definition MaskedColumn (n n' : nat) (z u : nat -> Q) (m : nat -> Prop) (d : Q) (c : cell) : Prop :=
  let missing := exists k, LevelUsed n n' z d k /\ m k in
  ((d < z 0%nat)%Q -> Sees missing (u 0) c) /\ ((z (n - 1)%nat <= d)%Q -> c = CMasked) /\
  ((z 0%nat <= d < z (n - 1)%nat)%Q -> exists x, Interpolated (column n z) (column n u) d x /\ Sees missing x c).
Definition MaskedLayer (n : nat) (z u : nat -> Q) (m : nat -> Prop) (d : Q) (c : cell) : Prop :=
  ((d < z 0%nat \/ z (n - 1)%nat <= d)%Q -> c = CMasked) /\ forall k, S k < n -> (z k <= d < z (S k))%Q -> Sees (m k) (u k) c.
(** Off the mesh, where the column has no depth. *)
Definition MaskedOutside (n' : nat) (m : nat -> Prop) (d : Q) (c : cell) : Prop :=
  ((d < 0)%Q -> Sees (m 0 \/ m (n' - 1)) 0%Q c) /\ ((0 <= d)%Q -> c = CMasked).

(** Data of [n] levels or layers at [ts], samples of [F], and where it is missing
    for a place: at the three nodes of the triangle looked up (the last one, off the
    mesh), whose values are missing together or are 0 when missing; or at the face
    looked up. *)
Inductive MaskedField (nodes : list point) (faces : list (list Z)) (find : point -> Z) (ts : list Z) (n : nat) (part : list nat -> list cell) (places : list point) :
  string -> (Z -> nat -> point -> Q) -> (Z -> nat -> point -> Prop) -> Prop :=
| MissingNodes F (m : Z -> nat -> nat -> bool) :
    (forall i t k, nth_error ts i = Some t -> k < n ->
       LinearOverFaces nodes faces (F t k) /\ MaskedSamples (length nodes) (m t k) (FieldAt nodes (F t k)) (part [i; k]) /\
       forall p j a b c, In p places -> FaceAsked (length faces) (find p) j -> nth_error faces j = Some [Z.of_nat a; Z.of_nat b; Z.of_nat c] ->
         (m t k b = m t k a /\ m t k c = m t k a) \/ forall x, In x [a; b; c] -> m t k x = true -> (FieldAt nodes (F t k) x == 0)%Q) ->
    MaskedField nodes faces find ts n part places "node" F
      (fun t k p => exists j a b c, FaceAsked (length faces) (find p) j /\ nth_error faces j = Some [Z.of_nat a; Z.of_nat b; Z.of_nat c] /\
         m t k a = true /\ m t k b = true /\ m t k c = true)
| MissingFaces F (G : Z -> nat -> nat -> Q) (m : Z -> nat -> nat -> bool) :
    (forall i t k, nth_error ts i = Some t -> k < n -> MaskedSamples (length faces) (m t k) (G t k) (part [i; k])) ->
    (forall t k p j, find p = Z.of_nat j -> (F t k p == G t k j)%Q) ->
    MaskedField nodes faces find ts n part places "face" F (fun t k p => exists j, FaceAsked (length faces) (find p) j /\ m t k j = true).
(** Missing at a level [k]: at a time in use. *)
Definition MissingOver (ts : list Z) (ex : bool) (q : Z) (m : Z -> nat -> point -> Prop) (p : point) (k : nat) : Prop :=
  exists t, TimeUsed ts ex q t /\ m t k p.
