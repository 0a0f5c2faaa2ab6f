(** What is in a file that describes its staggered grid by a topology variable,
    without the helpers of the model. *)
From Coq Require Import Reals String.
From Verif Require Import Common VerdatModel SAttrSpec SVarModel SVarSpec SVarProps VariableSpec GridTypeModel GridTypeSpec DepthModel MaskModel MaskSpec SGridModel SGridSpec SGridInterpModel SGridInterpSpec TFileModel LoadModel LoadSpec
  FMeshModel FMeshSpec FRectSpec SWholeSpec FStagModel FStagSpec FSgridModel.
Open Scope string_scope.
Open Scope list_scope.
Open Scope nat_scope.

(** One entry of a padding attribute: the dimension of the faces, that of the
    nodes, and the word. *)
Definition entry := (string * string * string)%type.
(** What the topology variable [h_var] says: the coordinate variables of each
    kind of points, the paddings; and the mask of the faces. *)
Record chart := mkChart {
  h_var : string; h_nodes : string * string; h_faces : option (string * string); h_edges1 : option (string * string); h_edges2 : option (string * string);
  h_pads : list entry; h_pads1 : option (list entry); h_pads2 : option (list entry); h_vertical : list entry; h_mask : option string }.

Definition svars (f : file) : list svar := map to_svar (fi_vars f).
Definition Exists2 (f : file) (x y : string) : Prop := exists vx vy, In (x, vx) (fi_vars f) /\ In (y, vy) (fi_vars f).
Definition Lists (t : mvar) (a x y : string) : Prop := Attr t a (x ++ " " ++ y) /\ NoSpace x /\ NoSpace y.
(** The coordinates of a location: named by the topology variable, or by the first
    variable with that location, as its only longitude and latitude; or none. *)
Definition CoordinatesOf (f : file) (t : mvar) (loc : string) (o : option (string * string)) : Prop :=
  match o with
  | Some (x, y) => Exists2 f x y /\
      (Lists t (loc ++ "_coordinates") x y \/
       (dget (fm_attrs t) (loc ++ "_coordinates") = None /\ exists v names, FirstOf (Carries loc) (svars f) v /\ attr v "coordinates" = Some (spaced names) /\
          strip (spaced names) = spaced names /\ Forall NoSpace names /\ x <> "" /\ y <> "" /\ (forall n, In n names -> exists u, In (n, u) (fi_vars f)) /\
          OnlyWith (LonName (svars f)) names x /\ OnlyWith (LatName (svars f)) names y))
  | None => dget (fm_attrs t) (loc ++ "_coordinates") = None /\ forall n v, In (n, v) (fi_vars f) -> ~ Attr v "location" loc
  end.
Definition PaddingsAre (t : mvar) (a : string) (l : list entry) : Prop :=
  exists text, Attr t a text /\ l <> [] /\ Clean l text /\ forall e, In e l -> KnownWord (snd e).
Definition PaddingsOf (t : mvar) (a : string) (o : option (list entry)) : Prop :=
  match o with Some l => PaddingsAre t a l | None => dget (fm_attrs t) a = None end.
(** The names of the attributes of a grid object. *)
Definition Free (f : file) : Prop := forall n v, In (n, v) (fi_vars f) -> ~ In n read_only /\ ~ In n attributes.
(** The angles: a variable with entries, or calculated from the faces. *)
Definition AnglesOf (f : file) (h : chart) : Prop :=
  (exists v d r, In ("angle", v) (fi_vars f) /\ fm_shape v = S d :: r) \/
  ((forall v, ~ In ("angle", v) (fi_vars f)) /\ exists x y vx vy, h_faces h = Some (x, y) /\ In (x, vx) (fi_vars f) /\ In (y, vy) (fi_vars f) /\ fm_shape vx = fm_shape vy).
(** The mask of the faces: the first with their shape. *)
Definition MaskIs (f : file) (h : chart) : Prop :=
  match h_faces h with
  | None => h_mask h = None
  | Some (x, _) => forall vx, In (x, vx) (fi_vars f) -> MaskOf (svars f) (Some (fm_shape vx)) (h_mask h)
  end.
(** A file with one topology variable [t], which says all that the chart says. *)
Record SgridFile (f : file) (h : chart) (t : mvar) : Prop := {
  sf_unique : UniqueNames f;
  sf_type : forall g, fi_grid_type f = Some g -> ~ In g ["ugrid"; "pygrid_u"; "triangular"; "unstructured"];
  sf_topology : In (h_var h, t) (fi_vars f);
  sf_role : Attr t "cf_role" "grid_topology";
  sf_two : fm_topology_dimension t = Some 2%Z;
  sf_only : forall n v r, In (n, v) (fi_vars f) -> Attr v "cf_role" r -> Mentions "topology" r -> n = h_var h;
  sf_dimensions : exists nd, Attr t "node_dimensions" nd;
  sf_nodes : Lists t "node_coordinates" (fst (h_nodes h)) (snd (h_nodes h)) /\ Exists2 f (fst (h_nodes h)) (snd (h_nodes h)) /\
             TwoDim f (fst (h_nodes h)) /\ TwoDim f (snd (h_nodes h));
  sf_faces : CoordinatesOf f t "face" (h_faces h);
  sf_edges1 : CoordinatesOf f t "edge1" (h_edges1 h);
  sf_edges2 : CoordinatesOf f t "edge2" (h_edges2 h);
  sf_pads : PaddingsAre t "face_dimensions" (h_pads h) /\ length (h_pads h) >= 2;
  sf_pads1 : PaddingsOf t "edge1_dimensions" (h_pads1 h);
  sf_pads2 : PaddingsOf t "edge2_dimensions" (h_pads2 h);
  sf_vertical : PaddingsAre t "vertical_dimensions" (h_vertical h);
  sf_gridded : forall n v g, In (n, v) (fi_vars f) -> Attr v "grid" g -> fm_dims v <> [];
  sf_angles : AnglesOf f h;
  sf_free : Free f;
  sf_mask : MaskIs f h }.

(** The places of the points, for [Staggered] and [SitsAt]. *)
Definition at_ (xy : string * string) : pair := mkPair (fst xy) (snd xy) (fst xy) (snd xy).
Definition places (h : chart) : layout :=
  mkLayout (at_ (h_nodes h)) (option_map at_ (h_faces h)) (option_map at_ (h_edges1 h)) (option_map at_ (h_edges2 h)) (h_mask h) None None.
(** A word of what the topology variable says, which is how the variables of the
    grid itself are known. *)
Definition TopologyWord (t : mvar) (k : string) : Prop :=
  k = "2" \/ exists a text words, In (a, text) (fm_attrs t) /\ Words text words /\ In k words.
(** Every variable belongs to the grid, has no place on it, or is properly sampled. *)
Definition SgridSound (cftime : string -> option (Z * Z * Z)) (f : file) (h : chart) (t : mvar) (nr nc : nat) : Prop :=
  forall k w, In (k, w) (fi_vars f) -> TopologyWord t k \/ Nowhere nr nc (places h) w \/
  exists a b loc, SitsAt nr nc (places h) w a b loc /\
    ((Timeless f w /\ fm_shape w = [a; b]) \/
     exists ts levels, InstantsIn cftime f w ts /\ LevelsIn f levels /\ fm_shape w = [length ts] ++ axis_shape levels ++ [a; b]).

(** ** The paddings *)
Inductive Word : string -> pad -> Prop :=
| word_none : Word "none" PadNone | word_low : Word "low" PadLow | word_high : Word "high" PadHigh | word_both : Word "both" PadBoth.
(** The faces have the dimensions [dr] (rows) and [dc] (columns), with these
    paddings; and either they are listed in this order, or the paddings are the
    same. *)
Definition FacesPadded (h : chart) (dr dc : string) (rows cols : pad) : Prop :=
  exists n1 w1 n2 w2, Word w1 rows /\ Word w2 cols /\
  (h_pads h = [(dr, n1, w1); (dc, n2, w2)] \/ (h_pads h = [(dc, n2, w2); (dr, n1, w1)] /\ rows = cols)).
(** The padding of the edges along the one dimension that has one, listed first;
    that of the faces, without any. *)
Definition EdgesPadded (o : option (list entry)) (d : string) (p of_faces : pad) : Prop :=
  match o with
  | Some l => exists n w r, l = (d, n, w) :: r /\ Word w p
  | None => p = of_faces
  end.
(** What is answered from data with these dimensions at the points of a location:
    its size, whether there is one value per cell, and the answer. *)
Inductive OnChart (g : sg) (h : chart) (dims : list string) : string -> nat -> nat -> bool -> (arr rd -> located -> rcell) -> Prop :=
| ChartNodes : OnChart g h dims "node" (a_r (g_lon g)) (a_c (g_lon g)) false node_expected
| ChartFaces loc lead dr dc rows cols : In loc ["face"; "center"] -> dims = lead ++ [dr; dc] -> FacesPadded h dr dc rows cols ->
    OnChart g h dims loc (padded rows (a_r (g_lon g) - 1)) (padded cols (a_c (g_lon g) - 1)) true (fun var => center_expected var (rows, cols))
| ChartEdges1 lead dr dc rows fr fc frows fcols : dims = lead ++ [dr; dc] -> FacesPadded h fr fc frows fcols -> EdgesPadded (h_pads1 h) dr rows frows -> MaskCovers g (frows, fcols) ->
    OnChart g h dims "edge1" (padded rows (a_r (g_lon g) - 1)) (a_c (g_lon g)) false (fun var => edge1_expected g var (rows, PadNone) (frows, fcols))
| ChartEdges2 lead dr dc cols fr fc frows fcols : dims = lead ++ [dr; dc] -> FacesPadded h fr fc frows fcols -> EdgesPadded (h_pads2 h) dc cols fcols -> MaskCovers g (frows, fcols) ->
    OnChart g h dims "edge2" (a_r (g_lon g)) (padded cols (a_c (g_lon g) - 1)) false (fun var => edge2_expected g var (PadNone, cols) (frows, fcols)).
(** The arrays of the grid, from the file. *)
Definition sgrid_in (s : sfile) (h : chart) (g : sg) : Prop :=
  g_lon g = sf_nums s (fst (h_nodes h)) /\ g_lat g = sf_nums s (snd (h_nodes h)) /\ g_cmask g = option_map (sf_flags s) (h_mask h) /\ g_behavior g = BZero.
