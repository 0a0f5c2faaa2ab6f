(** What is in a file with a staggered grid, without the helpers of the model. *)
From Coq Require Import Reals String.
From Verif Require Import Common VariableSpec GridTypeModel GridTypeSpec DepthModel MaskModel SGridModel SGridSpec SGridInterpModel SGridInterpSpec TFileModel LoadModel LoadSpec
  FMeshModel FMeshSpec FRectSpec SWholeSpec FStagModel.
Open Scope string_scope.
Open Scope list_scope.
Open Scope nat_scope.

(** The one variable called [n], up to case, is [a]. *)
Definition Called (f : file) (n a : string) : Prop :=
  (exists x, In (a, x) (fi_vars f)) /\ CaseEq a n /\ forall b u, In (b, u) (fi_vars f) -> CaseEq b n -> b = a.
(** The variables of the first of these pairs of names that is in the file: the
    names looked for, and those in the file. *)
Record pair := mkPair { p_lon : string; p_lat : string; p_x : string; p_y : string }.
Definition BothIn (f : file) (p : string * string) : Prop := Present f (fst p) /\ Present f (snd p).
Definition PairOf (f : file) (names : list (string * string)) (o : option pair) : Prop :=
  match o with
  | None => forall p, In p names -> ~ BothIn f p
  | Some p => FirstWith (BothIn f) names (p_lon p, p_lat p) /\ Called f (p_lon p) (p_x p) /\ Called f (p_lat p) (p_y p)
  end.
Definition OneOrNone (f : file) (n : string) (o : option string) : Prop :=
  match o with None => ~ Present f n | Some a => Called f n a end.

Record layout := mkLayout {
  y_nodes : pair; y_center : option pair; y_edge1 : option pair; y_edge2 : option pair;
  y_cmask : option string; y_mask1 : option string; y_mask2 : option string }.
Definition TwoDim (f : file) (a : string) : Prop := forall x, In (a, x) (fi_vars f) -> length (fm_shape x) = 2.
(** A file with such coordinates and masks: it declares no mesh, describes no
    topology and has no variable that could be taken for the faces of a mesh. *)
Definition StagFile (f : file) (y : layout) : Prop :=
  UniqueNames f /\
  (forall g, fi_grid_type f = Some g -> ~ In g ["ugrid"; "pygrid_u"; "triangular"; "unstructured"]) /\
  (forall n v r, In (n, v) (fi_vars f) -> Attr v "cf_role" r -> ~ Mentions "topology" r) /\
  (forall n, In n ["faces"; "tris"; "nv"; "ele"; "nele"] -> ~ Present f n) /\
  PairOf f axis_names (Some (y_nodes y)) /\ TwoDim f (p_x (y_nodes y)) /\ TwoDim f (p_y (y_nodes y)) /\
  PairOf f [("center_lon", "center_lat"); ("lon_rho", "lat_rho"); ("lonc", "latc")] (y_center y) /\
  PairOf f [("edge1_lon", "edge1_lat"); ("lon_u", "lat_u")] (y_edge1 y) /\
  PairOf f [("edge2_lon", "edge2_lat"); ("lon_v", "lat_v")] (y_edge2 y) /\
  OneOrNone f "mask_rho" (y_cmask y) /\ OneOrNone f "mask_u" (y_mask1 y) /\ OneOrNone f "mask_v" (y_mask2 y).

(** The names that belong to the grid. *)
Definition names_of (o : option pair) (m : string) (om : option string) : list string :=
  match o with
  | None => []
  | Some p => match om with Some _ => [m] | None => [] end ++ [p_lon p; p_lat p]
  end.
Definition grid_words (y : layout) : list string :=
  [p_lon (y_nodes y); p_lat (y_nodes y)] ++ names_of (y_center y) "mask_rho" (y_cmask y) ++ names_of (y_edge1 y) "mask_u" (y_mask1 y) ++
  names_of (y_edge2 y) "mask_v" (y_mask2 y) ++ ["mask_psi"].

(** Where data without a location of its own is, from the lengths of its last
    two dimensions: [nr] by [nc] nodes, which other points the file has. *)
Inductive Staggered (nr nc : nat) (y : layout) (a b : nat) : string -> Prop :=
| OnNode : a = nr -> b = nc -> Staggered nr nc y a b "node"
| OnRho : y_center y <> None -> a = nr + 1 -> b = nc + 1 -> Staggered nr nc y a b "center"
| OnCell : y_center y <> None -> a + 1 = nr -> b + 1 = nc -> Staggered nr nc y a b "center"
| OnU : y_edge1 y <> None -> a = nr + 1 -> b = nc -> Staggered nr nc y a b "edge1"
| OnV : y_edge2 y <> None -> a = nr -> b = nc + 1 -> Staggered nr nc y a b "edge2".
(** The variable is there, by what it says or by its lengths. *)
Definition SitsAt (nr nc : nat) (y : layout) (w : mvar) (a b : nat) (loc : string) : Prop :=
  (Attr w "location" loc /\ ValidLocation loc) \/
  ((forall l, Attr w "location" l -> ~ ValidLocation l) /\ Staggered nr nc y a b loc).
(** It has no place on the grid. *)
Definition Nowhere (nr nc : nat) (y : layout) (w : mvar) : Prop :=
  (forall l, Attr w "location" l -> ~ ValidLocation l) /\
  (length (fm_shape w) < 2 \/ exists lead a b, fm_shape w = lead ++ [a; b] /\ forall loc, ~ Staggered nr nc y a b loc).
(** Without a time axis. *)
Definition Timeless (f : file) (w : mvar) : Prop := fm_dims w <> [] /\ forall n, ~ TimeAxisOf (as_load f) (to_load w) n.
Definition axis_shape (levels : option (list Q)) : list nat := match levels with Some ls => [length ls] | None => [] end.
(** Every variable is of the grid, has no place on it, or is properly sampled. *)
Definition StagSound (cftime : string -> option (Z * Z * Z)) (f : file) (y : layout) (nr nc : nat) : Prop :=
  forall k w, In (k, w) (fi_vars f) -> In k (grid_words y) \/ Nowhere nr nc y w \/
  exists a b loc, SitsAt nr nc y w a b loc /\
    ((Timeless f w /\ fm_shape w = [a; b]) \/
     exists ts levels, InstantsIn cftime f w ts /\ LevelsIn f levels /\ fm_shape w = [length ts] ++ axis_shape levels ++ [a; b]).

(** ** The grids of ROMS *)
(** What the grid answers: nodes inside, the other points all around ("both"), or
    centers only, inside the nodes. *)
Inductive Answers (g : sg) (cs : option (nat * nat)) : string -> nat -> nat -> bool -> (arr rd -> located -> rcell) -> Prop :=
| AtNode : Answers g cs "node" (a_r (g_lon g)) (a_c (g_lon g)) false node_expected
| AtRho : cs = Some (a_r (g_lon g) + 1, a_c (g_lon g) + 1) ->
    Answers g cs "center" (a_r (g_lon g) + 1) (a_c (g_lon g) + 1) true (fun var => center_expected var (PadBoth, PadBoth))
| AtCell : cs = Some (a_r (g_lon g) - 1, a_c (g_lon g) - 1) -> 1 <= a_r (g_lon g) -> 1 <= a_c (g_lon g) ->
    Answers g cs "center" (a_r (g_lon g) - 1) (a_c (g_lon g) - 1) true (fun var => center_expected var (PadNone, PadNone))
| AtU : cs = Some (a_r (g_lon g) + 1, a_c (g_lon g) + 1) ->
    Answers g cs "edge1" (a_r (g_lon g) + 1) (a_c (g_lon g)) false (fun var => edge1_expected g var (PadBoth, PadNone) (PadBoth, PadBoth))
| AtV : cs = Some (a_r (g_lon g) + 1, a_c (g_lon g) + 1) ->
    Answers g cs "edge2" (a_r (g_lon g)) (a_c (g_lon g) + 1) false (fun var => edge2_expected g var (PadNone, PadBoth) (PadBoth, PadBoth)).
(** Its arrays, from the file. *)
Definition grid_in (s : sfile) (y : layout) (g : sg) : Prop :=
  g_lon g = sf_nums s (p_x (y_nodes y)) /\ g_lat g = sf_nums s (p_y (y_nodes y)) /\
  g_cmask g = match y_center y, y_cmask y with Some _, Some m => Some (sf_flags s m) | _, _ => None end /\
  sp_center_shape (g_pads g) = option_map (fun p => (a_r (sf_nums s (p_x p)), a_c (sf_nums s (p_x p)))) (y_center y).
(** The mask of the centers has their size. *)
Definition MaskSized (s : sfile) (y : layout) : Prop :=
  forall c m, y_center y = Some c -> y_cmask y = Some m ->
  a_r (snd (sf_flags s m)) = a_r (sf_nums s (p_x c)) /\ a_c (snd (sf_flags s m)) = a_c (sf_nums s (p_x c)).
(** The size of the arrays of the centers. *)
Definition center_size (s : sfile) (y : layout) : option (nat * nat) :=
  option_map (fun p => (a_r (sf_nums s (p_x p)), a_c (sf_nums s (p_x p)))) (y_center y).
