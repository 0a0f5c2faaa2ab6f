(** What the structured-grid interpolation properties mean: plain geometry of
    quadrilaterals over the real numbers. *)
From Coq Require Import Reals String.
From Verif Require Import Common MaskModel SGridModel SGridSpec SGridInterpModel.
Open Scope R_scope.

(** The four corner values of a cell by (row, column), and their bilinear
    mixture at column fraction [l], row fraction [m]. *)
Definition bilin (v00 v01 v10 v11 l m : R) : R :=
  (1 - m) * ((1 - l) * v00 + l * v01) + m * ((1 - l) * v10 + l * v11).
Record quad := mkQuad { q00 : R * R; q01 : R * R; q10 : R * R; q11 : R * R }.
Definition place (q : quad) (l m : R) : R * R :=
  (bilin (fst (q00 q)) (fst (q01 q)) (fst (q10 q)) (fst (q11 q)) l m,
   bilin (snd (q00 q)) (snd (q01 q)) (snd (q10 q)) (snd (q11 q)) l m).
Definition Unit (l m : R) : Prop := 0 <= l <= 1 /\ 0 <= m <= 1.

(** Turn at [o] from the direction of [p] to the direction of [q]. *)
Definition turn (o p q : R * R) : R :=
  (fst p - fst o) * (snd q - snd o) - (snd p - snd o) * (fst q - fst o).
(** Going around q00, q01, q11, q10 every turn has the same strict sense. *)
Definition ConvexCCW (q : quad) : Prop :=
  0 < turn (q00 q) (q01 q) (q10 q) /\ 0 < turn (q01 q) (q11 q) (q00 q) /\
  0 < turn (q11 q) (q10 q) (q01 q) /\ 0 < turn (q10 q) (q00 q) (q11 q).
Definition ConvexCW (q : quad) : Prop :=
  turn (q00 q) (q01 q) (q10 q) < 0 /\ turn (q01 q) (q11 q) (q00 q) < 0 /\
  turn (q11 q) (q10 q) (q01 q) < 0 /\ turn (q10 q) (q00 q) (q11 q) < 0.
Definition Convex (q : quad) : Prop := ConvexCCW q \/ ConvexCW q.
(** Longitude changes along the columns on both sides of the cell, in the same
    sense. *)
Definition EastAlongColumns (q : quad) : Prop :=
  (fst (q00 q) < fst (q01 q) /\ fst (q10 q) < fst (q11 q)) \/
  (fst (q01 q) < fst (q00 q) /\ fst (q11 q) < fst (q10 q)).

(** The coefficients the code keeps for the cell. *)
Definition quad_lon (q : quad) : list R := map fst [q00 q; q10 q; q11 q; q01 q].
Definition quad_lat (q : quad) : list R := map snd [q00 q; q10 q; q11 q; q01 q].

(** ** Grids *)
Definition cell_quad (g : sg) (r c : nat) : quad :=
  let at_ i j := (a_at (g_lon g) i j, a_at (g_lat g) i j) in
  mkQuad (at_ r c) (at_ r (S c)) (at_ (S r) c) (at_ (S r) (S c)).
Definition SameShape (g : sg) : Prop := a_r (g_lat g) = a_r (g_lon g) /\ a_c (g_lat g) = a_c (g_lon g).

(** A point with the place where it lies: row, column and fractions, or outside. *)
Definition located := ((R * R) * option (nat * nat * (R * R)))%type.
Definition where_ (x : located) : option (Z * Z) :=
  match snd x with None => None | Some (r, c, _) => Some (Z.of_nat r, Z.of_nat c) end.
Definition WellPlaced (g : sg) (x : located) : Prop :=
  match snd x with
  | None => True
  | Some (r, c, (l, m)) =>
      IsCell (a_r (g_lon g)) (a_c (g_lon g)) r c /\ Unit l m /\
      place (cell_quad g r c) l m = fst x /\
      Convex (cell_quad g r c) /\ EastAlongColumns (cell_quad g r c)
  end.

(** ** Expected values *)
Definition or0 (d : rd) : R := if d_mask d then 0 else d_val d.
Definition node_expected (var : arr rd) (x : located) : rcell :=
  match snd x with
  | None => RMask
  | Some (r, c, (l, m)) =>
      let v i j := a_at var i j in
      if d_mask (v r c) && d_mask (v r (S c)) && d_mask (v (S r) c) && d_mask (v (S r) (S c)) then RMask
      else RVal (bilin (or0 (v r c)) (or0 (v r (S c))) (or0 (v (S r) c)) (or0 (v (S r) (S c))) l m)
  end.
(** Land (masked) or water, for an entry of the padded center mask. *)
Definition land (g : sg) (i j : nat) : bool :=
  match g_cmask g with None => false | Some (k, m) => convert_entry k (a_at m i j) end.
(** The value on an edge counts unless it is masked, or separates land from
    water. *)
Definition edge_val (d : rd) (here there : bool) : R :=
  if d_mask d then 0 else if xorb here there then 0 else d_val d.
(** The previous / next index along a dimension of [n] entries, staying inside. *)
Definition next_in (n k : nat) : nat := Nat.min (k + 1) (n - 1).
Definition cm_shape (g : sg) : nat * nat :=
  match g_cmask g with None => (1, 1)%nat | Some (_, m) => (a_r m, a_c m) end.
Definition edge1_expected (g : sg) (var : arr rd) (p cp : pad * pad) (x : located) : rcell :=
  match snd x with
  | None => RMask
  | Some (r, c, (l, m)) =>
      let i := (low_extra (fst p) + r)%nat in let j := (low_extra (snd p) + c)%nat in
      let ci := (low_extra (fst cp) + r)%nat in let cj := (low_extra (snd cp) + c)%nat in
      RVal ((1 - l) * edge_val (a_at var i j) (land g ci cj) (land g ci (cj - 1)) +
            l * edge_val (a_at var i (S j)) (land g ci cj) (land g ci (next_in (snd (cm_shape g)) cj)))
  end.
Definition edge2_expected (g : sg) (var : arr rd) (p cp : pad * pad) (x : located) : rcell :=
  match snd x with
  | None => RMask
  | Some (r, c, (l, m)) =>
      let i := (low_extra (fst p) + r)%nat in let j := (low_extra (snd p) + c)%nat in
      let ci := (low_extra (fst cp) + r)%nat in let cj := (low_extra (snd cp) + c)%nat in
      RVal ((1 - m) * edge_val (a_at var i j) (land g ci cj) (land g (ci - 1) cj) +
            m * edge_val (a_at var (S i) j) (land g ci cj) (land g (next_in (fst (cm_shape g)) ci) cj))
  end.
Definition center_expected (var : arr rd) (p : pad * pad) (x : located) : rcell :=
  match snd x with
  | None => RMask
  | Some (r, c, _) =>
      let d := a_at var (low_extra (fst p) + r) (low_extra (snd p) + c) in
      if d_mask d then RMask else RVal (d_val d)
  end.
Definition known2 (p : pad * pad) : Prop := known (fst p) /\ known (snd p).
(** A variable with two dimensions. *)
Definition flat2 (var : arr rd) : nvar := mkNvar [] (fun _ => var).
(** The center mask, when there is one, covers the cells with padding [cp]. *)
Definition MaskCovers (g : sg) (cp : pad * pad) : Prop :=
  match g_cmask g with
  | None => True
  | Some (_, m) => (a_r m >= low_extra (fst cp) + (a_r (g_lon g) - 1))%nat /\
                   (a_c m >= low_extra (snd cp) + (a_c (g_lon g) - 1))%nat
  end.

(** ** compute_interpolant: one row of two values with its weights. *)
Definition wsum (v1 v2 w1 w2 : R) : R := v1 * w1 + v2 * w2.
(** The negative of the partner, where the pair has one masked value. *)
Definition mirrored (d other : rd) : R := if d_mask d then - d_val other else d_val d.
