(** What the viewer should show. *)
From Coq Require Import String QArith.
From Verif Require Import Common PlotModel InfoModel ViewModel.
Open Scope string_scope.
Open Scope list_scope.
Open Scope nat_scope.

(** [ps] are the places of the nodes numbered by [row]. *)
Definition AtNodes (nodes : list point) (row : list Z) (ps : list point) : Prop :=
  Forall2 (fun i p => exists k, i = Z.of_nat k /\ nth_error nodes k = Some p) row ps.
(** The centre of gravity: the displacements from it cancel. *)
Definition Balanced (ps : list point) (m : point) : Prop :=
  (qsum (map (fun p => fst p - fst m) ps) == 0)%Q /\ (qsum (map (fun p => snd p - snd m) ps) == 0)%Q.
(** What one row of number [i] adds: its outline, and its number in the middle. *)
Definition RowDrawn (labels polygon : bool) (nodes : list point) (i : nat) (row : list Z) (ds : list drawn) : Prop :=
  exists ps m, AtNodes nodes row ps /\ Balanced ps m /\
    ds = (if polygon then Polygon ps else Line ps) :: if labels then [Text (decimal i) m true] else [].
Definition RowsDrawn (labels polygon : bool) (nodes : list point) (rows : option (list (list Z))) (ds : list drawn) : Prop :=
  match rows with
  | None => ds = []
  | Some l => exists parts, ds = concat parts /\ length parts = length l /\
      forall i row, nth_error l i = Some row -> exists d, nth_error parts i = Some d /\ RowDrawn labels polygon nodes i row d
  end.
Definition RowsFit (n : nat) (rows : option (list (list Z))) : Prop :=
  forall l row, rows = Some l -> In row l -> row <> [] /\ forall i, In i row -> (0 <= i < Z.of_nat n)%Z.
