(** Variable.at on staggered grids, from the points to the values:
    gridded/variable.py:524-770 on top of SGrid.interpolate_var_to_points
    (gridded/pysgrid/sgrid.py:1034-1250, model in SGridInterpModel).
    The interpolation in time and depth is the one of VariableModel, written here
    for arrays that keep their shape: SGrid answers a vector of N values for nodes
    and edges, but a column of shape (N, 1) for centers and when it finds none of
    the points (sgrid.py:1110, 774-790), and numpy combines the two kinds of array
    with the vector of depth alphas in different ways. *)
From Coq Require Import Reals String.
From Verif Require Import Common TimeModel VariableModel DepthModel MaskModel GridTypeModel SGridModel SGridInterpModel.
Open Scope list_scope.
Open Scope nat_scope.

(** An array of shape (N,) or of shape (N, 1). *)
Inductive answer (V : Type) := Vec (l : list V) | Col (l : list V).
Arguments Vec {V} l.
Arguments Col {V} l.
(** The entries in C order: what [put] and [reshape(-1, 1)] look at. *)
Definition flat {V} (a : answer V) : list V := match a with Vec l | Col l => l end.

(** A depth object as the Variable sees it (VariableModel's depth_view), with
    alphas of any kind of number. *)
Record aview {P B : Type} := mkAV {
  av_layers : nat;
  av_alphas : list P -> result (list (option Z) * list B) }.
Arguments aview : clear implicits.
Definition from_view {P B} (conv : Q -> B) (dv : depth_view (P := P)) : aview P B :=
  mkAV P B (dv_layers dv) (fun pts => do ia <- dv_alphas dv pts; Ok (fst ia, map conv (snd ia))).

Section Arrays.
  (** [lerp x y a]: [x + (y - x) * a] with a time alpha, [blend x y a] with a depth
      alpha. *)
  Context {V P B : Type} (lerp : V -> V -> Q -> V) (blend : V -> V -> B -> V) (masked nan : V).
  Fixpoint lerp_list (v0 v1 : list V) (a : Q) : list V :=
    match v0, v1 with
    | x :: v0', y :: v1' => lerp x y a :: lerp_list v0' v1' a
    | _, _ => []
    end.
  (** A scalar alpha keeps the shape.  Two answers for the same points always
      have the same shape; the other combinations are not modelled. *)
  Definition lerp_one_alpha (v0 v1 : answer V) (a : Q) : result (answer V) :=
    match v0, v1 with
    | Vec x, Vec y => Ok (Vec (lerp_list x y a))
    | Col x, Col y => Ok (Col (lerp_list x y a))
    | _, _ => Err RuntimeError
    end.
  Fixpoint lerp_zip (v0 v1 : list V) (a : list B) : list V :=
    match v0, v1, a with
    | x :: v0', y :: v1', q :: a' => blend x y q :: lerp_zip v0' v1' a'
    | _, _, _ => []
    end.
  (** The vector of alphas [d_alphas[lay_idxs]].  With vectors: entry by entry.
      With columns numpy forms the N x N table of every value with every alpha, and
      [values.put(lay_idxs, table)] takes as many of its entries as there are
      indices, in C order: the first row, that of the first point. *)
  Definition lerp_alphas (v0 v1 : answer V) (a : list B) : result (list V) :=
    match v0, v1 with
    | Vec x, Vec y => Ok (lerp_zip x y a)
    | Col (x :: _), Col (y :: _) => Ok (map (blend x y) a)
    | Col [], Col [] => Ok []
    | _, _ => Err RuntimeError
    end.

  (** variable.py:658-694 *)
  Definition a_time (t : time_obj) (q : Z) (extrapolate : bool) (val : list Z -> result (answer V)) (slices : list Z)
    : result (answer V) :=
    do lo <- min_time t;
    if ((q =? lo) || (extrapolate && (q <? lo)))%Z then val [0%Z]
    else do hi <- max_time t;
    if ((q =? hi) || (extrapolate && (q >? hi)))%Z then val [(-1)%Z]
    else
      do ind <- index_of t q false;
      do v0 <- val (slices ++ [Z.of_nat ind - 1]%Z);
      do v1 <- val (slices ++ [Z.of_nat ind]);
      do a <- interp_alpha t q extrapolate;
      lerp_one_alpha v0 v1 a.

  Section Depth.
    Context (ndim : nat) (val : list P -> list Z -> result (answer V))
            (slices : list Z) (pts : list P) (idxs : list (option Z)) (alphas : list B).
    (** variable.py:745-752 *)
    Fixpoint a_layers (us : list Z) (values : list V) : result (list V) :=
      match us with
      | [] => Ok values
      | u :: us' =>
          let idx := if (u =? -1)%Z then 0%Z else u in
          let lay := where_eq 0 idxs idx in
          do v <- val (gather pts lay) (slices ++ [idx]);
          a_layers us' (put_all values lay (flat v))
      end.
    (** variable.py:753-769 *)
    Fixpoint a_levels (us : list Z) (lay : option (list nat)) (values : list V) : result (list V) :=
      match us with
      | [] => Ok values
      | idx :: us' =>
          if (idx =? Z.of_nat ndim - 1)%Z then
            match lay with
            | None => Err UnboundLocalError
            | Some l =>
                do v0 <- val (gather pts l) (slices ++ [idx]);
                a_levels us' lay (put_all values l (flat v0))
            end
          else
            let l := where_eq 0 idxs idx in
            do v1 <- val (gather pts l) (slices ++ [idx + 1]%Z);
            do v0 <- val (gather pts l) (slices ++ [idx]);
            do sub <- lerp_alphas v0 v1 (gather alphas l);
            a_levels us' (Some l) (put_all values l sub)
      end.
    (** variable.py:696-770, given the answer of depth.interpolation_alphas. *)
    Definition a_depth (num_layers : nat) : result (answer V) :=
      if forallb (fun o => match o with None => true | _ => false end) idxs
      then Ok (Vec (map (fun _ => masked) pts))
      else
        let values := map (fun o => match o with None => masked | Some _ => nan end) idxs in
        let us := unique_unmasked idxs in
        do vs <- (if Nat.eqb ndim num_layers then a_layers us values else a_levels us None values);
        Ok (Vec vs).
  End Depth.

  (** variable.py:603-627 without the cache; [xy] is [_xy_interp]. *)
  Section At.
    Context (order : list dim) (shape : list nat) (time : option time_obj) (depth : option (aview P B))
            (q : Z) (extrapolate : bool) (xy : list P -> list Z -> result (answer V)).
    Definition av_time (val : list P -> list Z -> result (answer V)) (pts : list P) (slices : list Z) : result (answer V) :=
      match time with
      | None => Err AttributeError
      | Some t => a_time t q extrapolate (val pts) slices
      end.
    Definition av_depth (val : list P -> list Z -> result (answer V)) (pts : list P) (slices : list Z) : result (answer V) :=
      match depth with
      | None => Err AttributeError
      | Some dv =>
          do ia <- av_alphas dv pts;
          do n <- dim_len order shape DDepth;
          a_depth n val slices pts (fst ia) (snd ia) (av_layers dv)
      end.
    Definition a_at_nomem (pts : list P) : result (answer V) :=
      match order with
      | DTime :: _ =>
          do b <- next_is order DTime DDepth;
          if b then av_time (av_depth xy) pts [] else av_time xy pts []
      | DDepth :: _ =>
          do b <- next_is order DDepth DTime;
          if b then av_depth (av_time xy) pts [] else av_depth xy pts []
      | [] => Err IndexError
      | _ => xy pts []
      end.
    (** [value.reshape(-1, 1)] *)
    Definition a_value (pts : list P) : result (list V) := do a <- a_at_nomem pts; Ok (flat a).
  End At.
End Arrays.

(** ** The staggered grid below *)
(** [x + (y - x) * a] on masked arrays. *)
Definition rmix (x y : rcell) (a : R) : rcell :=
  match x, y with
  | RMask, _ | _, RMask => RMask
  | RVal u, RVal v => RVal (u + (v - u) * a)%R
  | RAny, _ | _, RAny => RAny
  | _, _ => RNaN
  end.
Definition rlerp (x y : rcell) (a : Q) : rcell := rmix x y (Q2R a).
(** A row of the N x 3 points: longitude, latitude, depth. *)
Definition rspot := ((R * R) * Q)%type.
(** sgrid.py:1100-1250.  [find]: locate_faces, the cell tree (without the cache of
    located points).  [loc] is the variable's location. *)
Definition stag_xy (g : sg) (find : R * R -> option (Z * Z)) (loc : string) (v : nvar) (pts : list rspot) (slices : list Z)
  : result (answer rcell) :=
  let ind := map (fun p => find (fst p)) pts in
  do vs <- interpolate g (map fst pts) ind true false loc (Some slices) v;
  Ok (if opt_all ind || isin loc center_names then Col vs else Vec vs).
Definition stag_at (g : sg) (find : R * R -> option (Z * Z)) (loc : string) (order : list dim) (v : nvar) (shape : list nat)
  (time : option time_obj) (depth : option (aview rspot R)) (q : Z) (extrapolate : bool) (pts : list rspot)
  : result (list rcell) :=
  a_value rlerp rmix RMask RNaN order shape time depth q extrapolate (stag_xy g find loc v) pts.
