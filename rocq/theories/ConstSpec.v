(** Vocabulary of the theorems about the constant variable. *)
From Coq Require Import Reals String.
From Verif Require Import Common SGridInterpModel.
Open Scope R_scope.

(** Strictly inside the box of the grid. *)
Definition Inside (p : R * R) : Prop := -360 < fst p < 360 /\ -89.95 < snd p < 89.95.
(** The four cells of the grid. *)
Definition InCell (r c : nat) (p : R * R) : Prop :=
  (r < 2)%nat /\ (c < 2)%nat /\ -360 + 360 * INR c <= fst p <= 360 * INR c /\ -89.95 + 89.95 * INR r <= snd p <= 89.95 * INR r.
(** A cell search: an answered cell contains the point, and every point inside
    the box is found (on its border it may be found or not). *)
Definition Locates (locate : list (R * R) -> list (option (Z * Z))) : Prop :=
  forall pts, Forall2 (fun p o => match o with
                                  | Some ij => exists r c, ij = (Z.of_nat r, Z.of_nat c) /\ InCell r c p
                                  | None => ~ Inside p
                                  end) pts (locate pts).
Definition InsideRow (row : list R) : Prop := Inside (nth 0 row 0, nth 1 row 0).
