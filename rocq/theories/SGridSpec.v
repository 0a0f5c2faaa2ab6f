(** What the structured-grid index properties mean. *)
From Coq Require Import String.
From Verif Require Import Common VariableModel MaskModel SGridModel.
Open Scope Z_scope.

(** A cell of a grid of [ny] by [nx] nodes. *)
Definition IsCell (ny nx r c : nat) : Prop := (S r < ny)%nat /\ (S c < nx)%nat.

(** ** Padding: extra entries at the low / high end of a dimension. *)
Definition low_extra (p : pad) : nat := match p with PadLow | PadBoth => 1 | _ => 0 end.
Definition high_extra (p : pad) : nat := match p with PadHigh | PadBoth => 1 | _ => 0 end.
Definition known (p : pad) : Prop := p <> PadOther.
(** [n] elements padded as [p] occupy [padded p n] entries. *)
Definition padded (p : pad) (n : nat) : nat := (low_extra p + n + high_extra p)%nat.

(** ** Corners of a cell, in order around the cell. *)
Definition node_xy {C} (g : sgrid C) (r c : nat) : C * C := (sg_lon g r c, sg_lat g r c).
Definition corners {C} (g : sgrid C) (r c : nat) : list (C * C) :=
  [node_xy g r c; node_xy g r (S c); node_xy g (S r) (S c); node_xy g (S r) c].

(** Face [k] of the tree has corner coordinates [l]. *)
Definition FaceAt {C} (t : tree C) (k : nat) (l : list (C * C)) : Prop :=
  exists ns, nth_error (tr_faces t) k = Some ns /\
    Forall2 (fun n xy => 0 <= n /\ nth_error (tr_nodes t) (Z.to_nat n) = Some xy) ns l.

(** A tree that searches exactly the cells [In_ r c] of the grid, each face
    with its own corners and answering its own (row, column). *)
Record Searches {C} (g : sgrid C) (t : tree C) (In_ : nat -> nat -> Prop) : Prop := {
  s_sound : forall k, (k < length (tr_faces t))%nat ->
    exists r c, IsCell (sg_ny g) (sg_nx g) r c /\ In_ r c /\ FaceAt t k (corners g r c) /\
                face_to_cell (sg_nx g) t (Z.of_nat k) = Ok (Z.of_nat r, Z.of_nat c);
  s_complete : forall r c, IsCell (sg_ny g) (sg_nx g) r c -> In_ r c ->
    exists k, (k < length (tr_faces t))%nat /\ face_to_cell (sg_nx g) t (Z.of_nat k) = Ok (Z.of_nat r, Z.of_nat c);
  s_inj : forall k k' ij, (k < length (tr_faces t))%nat -> (k' < length (tr_faces t))%nat ->
    face_to_cell (sg_nx g) t (Z.of_nat k) = Ok ij -> face_to_cell (sg_nx g) t (Z.of_nat k') = Ok ij -> k = k';
  s_miss : face_to_cell (sg_nx g) t (-1) = Ok (-1, -1) }.

(** The mask of cell (r, c): the entry of the padded center mask that belongs
    to it. *)
Definition CellMasked {C} (g : sgrid C) (k : mask_kind) (m : arr mentry) (r c : nat) : Prop :=
  convert_entry k (a_at m (low_extra (fst (sg_center_pad g)) + r)%nat
                          (low_extra (snd (sg_center_pad g)) + c)%nat) = true.
(** The center mask has the right shape for the declared padding. *)
Definition MaskFits {C} (g : sgrid C) (m : arr mentry) : Prop :=
  known (fst (sg_center_pad g)) /\ known (snd (sg_center_pad g)) /\
  a_r m = padded (fst (sg_center_pad g)) (sg_ny g - 1) /\ a_c m = padded (snd (sg_center_pad g)) (sg_nx g - 1).
(** Some unmasked entry of the mask variable is non-zero. *)
Definition SomeNonzero (m : arr mentry) : Prop :=
  exists r c, (r < a_r m)%nat /\ (c < a_c m)%nat /\ m_masked (a_at m r c) = false /\ m_val (a_at m r c) <> 0.

(** ** Search histories: a call that depends on nothing but its own arguments. *)
Section Pure.
  Context {P : Type} (cells : bool -> list P -> list (Z * Z)).
  Definition pure_answer (q : lq (P := P)) : result answer :=
    if lq_one q then match cells (lq_mask q) (lq_pts q) with i :: _ => Ok (One i) | [] => Err IndexError end
    else Ok (Many (map mask_cell (cells (lq_mask q) (lq_pts q)))).
End Pure.
