(** What the inspector window should show and record. *)
From Coq Require Import QArith String.
From Verif Require Import Common MaskModel UGridModel UGridSpec SGridModel NLoadModel NLoadSpec PlotModel PlotSpec InspModel.
Open Scope list_scope.
Open Scope nat_scope.

(** Triangles over the nodes. *)
Definition Triangles (nodes : list point) (f : list (list Z)) : Prop :=
  f <> [] /\ Rect 3 f /\ forall x, In x (concat f) -> (0 <= x < Z.of_nat (length nodes))%Z.

(** A selection: face, its nodes, their places on the map, the place clicked, and
    whether it could be written to the log. *)
Record pick := mkPick { p_face : nat; p_nodes : list Z; p_corners : list point; p_click : point; p_saved : bool }.
Section Clicks.
  Context (locate : point -> option nat) (nodes : list point) (f : list (list Z)).
  (** The point asked of the grid for a click at longitude [x]. *)
  Definition Asked (x y : Q) (p : point) : Prop :=
    ((forall n, In n nodes -> 0 <= fst n)%Q /\ (x < 0)%Q /\ p = (x + 360, y)%Q) \/
    (((exists n, In n nodes /\ fst n < 0)%Q \/ (0 <= x)%Q) /\ p = (x, y)).
  (** A click selects a face if it is made with the first button, inside the axes,
      on a face. *)
  Inductive Clicks (e : event) : option pick -> Prop :=
  | OtherButton : ev_button e <> 1 -> Clicks e None
  | OffAxes : ev_x e = None \/ ev_y e = None -> Clicks e None
  | OffGrid x y p : ev_button e = 1 -> ev_x e = Some x -> ev_y e = Some y -> Asked x y p -> locate p = None -> Clicks e None
  | OnFace x y p i row cs : ev_button e = 1 -> ev_x e = Some x -> ev_y e = Some y -> Asked x y p -> locate p = Some i ->
      nth_error f i = Some row -> Forall2 (fun k q => exists n, IsNode nodes k n /\ OnMap n q) row cs ->
      Clicks e (Some (mkPick i row cs (x, y) (ev_disk e))).
End Clicks.
Fixpoint chosen (l : list (option pick)) : list pick :=
  match l with [] => [] | Some p :: r => p :: chosen r | None :: r => chosen r end.

(** Mean of the corners. *)
Definition Middle (cs : list point) (c : point) : Prop :=
  exists p1 p2 p3, cs = [p1; p2; p3] /\ (3 * fst c == fst p1 + fst p2 + fst p3)%Q /\ (3 * snd c == snd p1 + snd p2 + snd p3)%Q.
(** The value of a row under a heading. *)
Fixpoint under (name : string) (hs : list string) (r : list field) : option field :=
  match hs, r with
  | h :: hs', x :: r' => if String.eqb h name then Some x else under name hs' r'
  | _, _ => None
  end.
(** Row of a selection. *)
Definition Records (p : pick) (l : line) : Prop :=
  exists r, l = Row r /\ length r = 12 /\
  under "nele" headers r = Some (EInt (Z.of_nat (p_face p))) /\
  (exists c, Middle (p_corners p) c /\ under "nele_lat" headers r = Some (ENum (snd c)) /\ under "nele_lon" headers r = Some (ENum (fst c))) /\
  forall k h hlat hlon n q, nth_error [("node1", "node1_lat", "node1_lon"); ("node2", "node2_lat", "node2_lon"); ("node3", "node3_lat", "node3_lon")]%string k = Some (h, hlat, hlon) ->
    nth_error (p_nodes p) k = Some n -> nth_error (p_corners p) k = Some q ->
    under h headers r = Some (EInt n) /\ under hlat headers r = Some (ENum (snd q)) /\ under hlon headers r = Some (ENum (fst q)).
(** What stays of a selection when the next is made, and what shows while it lasts. *)
Definition marked (p : pick) (a : artist) : Prop := exists c, a = Mark c /\ Middle (p_corners p) c.
Definition highlighted (p : pick) (l : list artist) : Prop :=
  if p_saved p then
    exists m, marked p m /\
    l = Patch (p_corners p) :: Dots (p_corners p) :: map (fun x => Badge (fst x) (snd x)) (combine (p_nodes p) (p_corners p)) ++ [Callout (p_face p) (p_nodes p) (p_click p); m]
  else l = [Patch (p_corners p); Dots (p_corners p)].
(** The axes: wireframe and spill, the marks of earlier selections, the highlights
    of the last. *)
Definition Shows (base : list artist) (sel : list pick) (l : list artist) : Prop :=
  match rev sel with
  | [] => l = base
  | p :: earlier => exists ms hs, Forall2 marked (filter p_saved (rev earlier)) ms /\ highlighted p hs /\ l = base ++ ms ++ hs
  end.
