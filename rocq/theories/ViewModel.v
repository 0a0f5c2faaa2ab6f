(** Model of gridded/pyugrid/ugrid_wx.py:88-133 [DrawFrame.Draw_UGRID]: what is put
    on the canvas, in order.  Colours, sizes, menus and dialogs are not modelled;
    the preferences are, as a switch for the labels. *)
From Coq Require Import String QArith.
From Verif Require Import Common DepthModel PlotModel InfoModel.
Open Scope string_scope.
Open Scope list_scope.
Open Scope nat_scope.

Inductive drawn :=
| Polygon (ps : list point)
| Line (ps : list point)
| Text (t : string) (p : point) (centered : bool)
| PointSet (ps : list point).

(** [nodes[f]] for a row of node numbers. *)
Definition corners_of (nodes : list point) (row : list Z) : result (list point) := mapM (py_index nodes) row.
(** [a.mean(axis=0)]; of no rows it is nan, which is not modelled: rows are not
    empty. *)
Definition qsum (l : list Q) : Q := fold_right Qplus 0%Q l.
Definition middle (ps : list point) : point :=
  let n := inject_Z (Z.of_nat (length ps)) in ((qsum (map fst ps) / n)%Q, (qsum (map snd ps) / n)%Q).
Definition numbered {A} (l : list A) : list (nat * A) := combine (seq 0 (length l)) l.
(** 97-103, 107-123 *)
Definition draw_row (labels polygon : bool) (nodes : list point) (ix : nat * list Z) : result (list drawn) :=
  do ps <- corners_of nodes (snd ix);
  Ok ((if polygon then Polygon ps else Line ps) :: if labels then [Text (decimal (fst ix)) (middle ps) true] else []).
Definition draw_rows (labels polygon : bool) (nodes : list point) (rows : option (list (list Z))) : result (list drawn) :=
  match rows with
  | None => Ok []
  | Some l => do ds <- mapM (draw_row labels polygon nodes) (numbered l); Ok (concat ds)
  end.
(** 126-131 *)
Definition draw_nodes (labels : bool) (nodes : list point) : list drawn :=
  (if labels then map (fun ip => Text (decimal (fst ip)) (snd ip) false) (numbered nodes) else []) ++ [PointSet nodes].
(** The canvas is cleared first, so only this is on it. *)
Definition draw_ugrid (labels : bool) (nodes : list point) (faces edges : option (list (list Z))) : result (list drawn) :=
  do f <- draw_rows labels true nodes faces;
  do e <- draw_rows labels false nodes edges;
  Ok (f ++ e ++ draw_nodes labels nodes).
