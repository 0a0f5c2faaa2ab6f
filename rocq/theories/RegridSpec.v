(** What carrying a variable over to another grid should do. *)
From Coq Require Import String.
From Verif Require Import Common RegridModel.
Open Scope string_scope.
Open Scope list_scope.
Open Scope nat_scope.

(** An array of points has all its entries, and some. *)
Definition Full (p : points2) : Prop := length (p_pts p) = p_r p * p_c p /\ 0 < p_r p * p_c p.
(** The point in row [j], column [k]. *)
Definition point (p : points2) (j k : nat) : pt2 := nth (j * p_c p + k) (p_pts p) (0, 0)%Q.
(** Where the values go: to the nodes, or to centers arranged like the nodes. *)
Inductive Target : dgrid -> string -> points2 -> Prop :=
| T_node n c : Full n -> Target (DS n c) "node" n
| T_center n c : Full c -> p_r c = p_r n -> p_c c = p_c n -> Target (DS n (Some c)) "center" c.
(** The source answers for each point by itself. *)
Definition Reads (at_ : list pt3 -> option Z -> result (list cell)) (t : option Z) (f : pt3 -> cell) : Prop :=
  forall pts, at_ pts t = Ok (map f pts).
(** A level is read by the horizontal position alone. *)
Definition ReadsLevel (level_at : list cell -> list pt3 -> result (list cell)) (g : list cell -> pt2 -> cell) : Prop :=
  forall col pts, level_at col pts = Ok (map (fun p => g col (fst p)) pts).
(** The cell search answers something for each point. *)
Definition Answers (locate : list pt2 -> list Z) : Prop := forall pts, length (locate pts) = 2 * length pts.
(** No destination point lies in the source grid. *)
Definition Outside (locate : list pt2 -> list Z) (pts : list pt2) : Prop := Forall (fun z => z = (-1)%Z) (locate pts).
