(** Model of the equality of grids: gridded/pyugrid/ugrid.py:219-233 and
    gridded/pysgrid/sgrid.py:156-179, with [face_padding] of sgrid.py:315-333. *)
From Coq Require Import String QArith.
From Verif Require Import Common SVarModel DepthModel.
Open Scope string_scope.
Open Scope list_scope.
Open Scope nat_scope.

(** An entry of an array: a number, nan, a text or None. *)
Inductive elem := ENum (q : Q) | ENan | EStr (s : string) | ENone.
(** An attribute: None, or an array in row order, maybe with a mask. *)
Inductive value := VNone | VArr (shape : list nat) (data : list elem) (mask : option (list bool)).
(** [np.asarray]: masks are dropped; None is an array without dimensions. *)
Definition asarray (v : value) : list nat * list elem :=
  match v with VNone => ([], [ENone]) | VArr s d _ => (s, d) end.
Definition elem_eqb (a b : elem) : bool :=
  match a, b with
  | ENum x, ENum y => Qeq_bool x y
  | EStr x, EStr y => String.eqb x y
  | ENone, ENone => true
  | _, _ => false
  end.
Fixpoint all2 (l m : list elem) : bool :=
  match l, m with
  | [], [] => true
  | a :: l, b :: m => elem_eqb a b && all2 l m
  | _, _ => false
  end.
Definition array_equal (v w : value) : bool :=
  let (s, d) := asarray v in let (s', d') := asarray w in
  shape_eqb s s' && all2 d d'.

(** A grid object: its identity, its class, and its attributes. *)
Record obj := mkObj { o_id : nat; o_class : nat; o_attr : string -> value }.

(** ** UGrid *)
Definition ugrid_eq (a b : obj) : bool :=
  if o_id a =? o_id b then true
  else if negb (o_class a =? o_class b) then false
  else array_equal (o_attr a "nodes") (o_attr b "nodes") && array_equal (o_attr a "faces") (o_attr b "faces")
       && array_equal (o_attr a "boundaries") (o_attr b "boundaries").

(** ** SGrid *)
(** What [_face_padding] holds: nothing (or an empty tuple), GridPadding
    tuples (their paddings are kept here), or anything else. *)
Inductive padded := PUnset | PGrid (l : list string) | POther (v : value).
Record sobj := mkSobj { s_obj : obj; s_face : padded }.
Definition pair_value (a b : elem) : value := VArr [2] [a; b] None.
Definition guess (face node : nat) : result elem := py_get [EStr "low"; EStr "both"; EStr "none"] (Z.of_nat face - Z.of_nat node).
Definition face_padding (g : sobj) : result value :=
  let guessed :=
    match o_attr (s_obj g) "center_lon" with
    | VNone => Ok (pair_value ENone ENone)
    | VArr fs _ _ =>
        match o_attr (s_obj g) "node_lon" with
        | VNone => Err AttributeError
        | VArr ns _ _ =>
            (* broadcasting of shapes of different lengths is left out *)
            if negb (length fs =? length ns) then Err ValueError
            else match fs, ns with
                 | f0 :: f1 :: _, n0 :: n1 :: _ => do a <- guess f0 n0; do b <- guess f1 n1; Ok (pair_value a b)
                 | _, _ => Err IndexError
                 end
        end
    end in
  match s_face g with
  | PUnset | PGrid [] => guessed
  | PGrid [_] => Err IndexError
  | PGrid (a :: b :: _) => Ok (pair_value (EStr a) (EStr b))
  | POther v => Ok v
  end.
Definition getattr (g : sobj) (k : string) : result value :=
  if String.eqb k "face_padding" then face_padding g else Ok (o_attr (s_obj g) k).
Definition compared : list string :=
  ["node_lon"; "node_lat"; "node_mask"; "center_lon"; "center_lat"; "center_mask"; "faces"; "face_padding"].
Fixpoint eq_loop (ks : list string) (a b : sobj) : result bool :=
  match ks with
  | [] => Ok true
  | k :: r =>
      do x <- getattr a k;
      do y <- getattr b k;
      if array_equal x y then eq_loop r a b else Ok false
  end.
Definition sgrid_eq (a b : sobj) : result bool :=
  if o_id (s_obj a) =? o_id (s_obj b) then Ok true
  else if negb (o_class (s_obj a) =? o_class (s_obj b)) then Ok false
  else eq_loop compared a b.
