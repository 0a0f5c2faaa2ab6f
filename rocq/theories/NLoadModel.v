(** Model of loading a mesh by the names of its variables:
    gridded/pyugrid/grid_io/utils.py:19-116 [load_from_varnames].
    A file has one-dimensional variables of numbers and two-dimensional ones of
    whole numbers (rows of one length, no masked entries); a name of the other
    kind counts as absent.  [post_process] is not modelled. *)
From Coq Require Import QArith String.
From Verif Require Import Common GridTypeModel UGridModel.
Open Scope string_scope.
Open Scope list_scope.
Open Scope nat_scope.

(** A variable of numbers; whether it is stored as whole numbers (packed or
    not), which is what its dtype says. *)
Record numvar := mkNum { nv_whole : bool; nv_vals : list Q }.
Record mfile := mkMfile { mf_attrs : dict string; mf_nums : dict numvar; mf_ints : dict (list (list Z)) }.
Record umesh := mkUmesh {
  um_nodes : list (Q * Q); um_faces : list (list Z); um_ff : option (list (list Z));
  um_fcoords : option (list (Q * Q)); um_bounds : option (list (list Z)) }.

(** 49-53; the value is not lowered. *)
Fixpoint check_attrs (attrs : dict string) (l : list (string * string)) : result unit :=
  match l with
  | [] => Ok tt
  | (name, value) :: r =>
      match dget attrs name with
      | None => Err AttributeError
      | Some v => if String.eqb (lower v) value then check_attrs attrs r else Err ValueError
      end
  end.
Definition look {A} (vars : dict A) (mapping : dict string) (key : string) : result A :=
  match dget mapping key with
  | None => Err KeyError
  | Some n => match dget vars n with None => Err KeyError | Some v => Ok v end
  end.
(** [a[:, j] = values] for an array of [n] rows: one value fits any number. *)
Definition column (n : nat) (l : list Q) : result (list Q) :=
  if length l =? n then Ok l
  else match l with [x] => Ok (repeat x n) | _ => Err ValueError end.
(** Storing into an array of whole numbers truncates. *)
Definition trunc (q : Q) : Q := inject_Z (Z.quot (Qnum q) (Zpos (Qden q))).
Definition store_as (whole : bool) (l : list Q) : list Q := if whole then map trunc l else l.

(** 66-70 and 86-90 *)
Definition width (t : list (list Z)) : nat := length (hd [] t).
Definition transposed (t : list (list Z)) : list (list Z) := map (fun j => map (fun row => nth j row 0%Z) t) (seq 0 (width t)).
Definition oriented (t : list (list Z)) : list (list Z) := if length t <=? width t then transposed t else t.
Definition decremented (one : bool) (t : list (list Z)) : list (list Z) := if one then map (map (fun x => (x - 1)%Z)) t else t.

Definition load_from_varnames (f : mfile) (mapping : dict string) (checks : list (string * string)) : result umesh :=
  do _ <- check_attrs (mf_attrs f) checks;
  do lon <- look (mf_nums f) mapping "nodes_lon";
  do lat <- look (mf_nums f) mapping "nodes_lat";
  let n := length (nv_vals lon) in
  do lats <- column n (nv_vals lat);
  do faces <- look (mf_ints f) mapping "faces";
  let faces := oriented faces in
  do mn <- zmin (concat faces);
  let one := (mn =? 1)%Z in
  do faces <- set_faces n (decremented one faces);
  do ff <- match dget mapping "face_face_connectivity" with
           | None => Ok None
           | Some _ =>
               do t <- look (mf_ints f) mapping "face_face_connectivity";
               let t := decremented one (oriented t) in
               if shape_ok faces t then Ok (Some t) else Err ValueError
           end;
  do fc <- match dget mapping "face_coordinates_lon", dget mapping "face_coordinates_lat" with
           | Some _, Some _ =>
               do x <- look (mf_nums f) mapping "face_coordinates_lon";
               do x <- column (length faces) (nv_vals x);
               do y <- look (mf_nums f) mapping "face_coordinates_lat";
               do y <- column (length faces) (nv_vals y);
               Ok (Some (combine (store_as (nv_whole lon) x) (store_as (nv_whole lon) y)))
           | _, _ => Ok None
           end;
  do bs <- match dget mapping "boundaries" with
           | None => Ok None
           | Some _ =>
               do t <- look (mf_ints f) mapping "boundaries";
               Ok (Some (decremented one (map (firstn 2) t)))
           end;
  Ok (mkUmesh (combine (nv_vals lon) lats) faces ff fc bs).
