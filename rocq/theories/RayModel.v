(** Model of points_in_polys, gridded/pysgrid/utils.py:215-251.
    Exact rationals in place of binary64; masked arrays are used through their
    data (224-229), so masks do not occur. *)
From Verif Require Import Common UGridGeomModel.
Open Scope Q_scope.

(** utils.py:243-250, one side from vertex [v1] to [v2] and one point.  The
    division is only evaluated where the first test holds (245-247), so the divisor
    is not 0. *)
Definition crosses (p v1 v2 : pt) : bool :=
  let test1 := xorb (Qlt_bool (snd p) (snd v2)) (Qlt_bool (snd p) (snd v1)) in
  if test1
  then Qlt_bool (fst p) ((fst v1 - fst v2) * (snd p - snd v2) / (snd v1 - snd v2) + fst v2)
  else false.
(** utils.py:232-250: side [i] runs from vertex [i - 1] (the last one for i = 0) to
    vertex [i]; the answer is flipped at each crossing. *)
Fixpoint sides_from (p : pt) (prev : pt) (poly : list pt) (result : bool) : bool :=
  match poly with
  | [] => result
  | v :: r => sides_from p v r (xorb result (crosses p prev v))
  end.
Definition in_poly (p : pt) (poly : list pt) : bool :=
  match poly with
  | [] => false
  | v :: _ => sides_from p (last poly v) poly false
  end.
(** utils.py:215-251 for N points and N polygons of the same number of vertices
    (the rows of an array); other numbers of rows are not modelled. *)
Definition points_in_polys (points : list pt) (polys : list (list pt)) : result (list bool) :=
  if (length points =? length polys)%nat then Ok (map (fun pq => in_poly (fst pq) (snd pq)) (combine points polys))
  else Err NotImplementedError.
(** The form with separate x and y arrays, utils.py:234-238. *)
Definition points_in_polys_xy (points : list pt) (xs ys : list (list Q)) : result (list bool) :=
  points_in_polys points (map (fun xy => combine (fst xy) (snd xy)) (combine xs ys)).
