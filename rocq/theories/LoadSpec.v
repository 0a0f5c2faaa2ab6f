(** Vocabulary of the theorems about loading variables. *)
From Coq Require Import String Ascii.
From Verif Require Import Common TimeModel GridTypeModel GridTypeSpec MaskSpec TFileModel LoadModel.
Open Scope string_scope.
Open Scope list_scope.

Definition ValidLocation (l : string) : Prop :=
  l = "center" \/ l = "edge1" \/ l = "edge2" \/ l = "node" \/ l = "face" \/ l = "edge" \/ l = "boundary".

(** The time axis of a variable: named by its attribute, else its first
    dimension if that is called after time. *)
Definition AttrAxis (f : lfile) (v : lvar) (n : string) : Prop :=
  dget (lv_attrs v) "time" = Some n /\ In n (lf_dims f).
Definition TimeAxisOf (f : lfile) (v : lvar) (n : string) : Prop :=
  AttrAxis f v n \/
  ((forall m, ~ AttrAxis f v m) /\ (exists r, lv_dims v = n :: r) /\ Mentions "time" n).

(** Horizontal dimensions of data on a grid. *)
Definition GridDimensions (k : gkind) : nat := match k with KS => 2 | KR => 2 | KU => 1 end.

(** Names that belong to the grid: words of a value of its topology. *)
Definition GridName (g : grid_api) (k : string) : Prop :=
  exists role text words, In (role, text) (ga_topology g) /\ Words text words /\ In k words.
(** Where a variable is: where it says, or else where the grid says. *)
Definition LocationOf (g : grid_api) (v : lvar) (l : string) : Prop :=
  (dget (lv_attrs v) "location" = Some l /\ ValidLocation l) \/
  ((forall l', dget (lv_attrs v) "location" = Some l' -> ~ ValidLocation l') /\
   ga_infer g (dget (lv_attrs v) "location") (lv_shape v) = Ok (Some l)).

(** The dataset's variables: those of the file that are not of the grid and
    have a location, each under its name in the file, in the order of the file. *)
Inductive Loads (load : string -> lvar -> string -> variable -> Prop) (g : grid_api) : dict lvar -> dict variable -> Prop :=
| Loads_nil : Loads load g [] []
| Loads_grid k v r vs : GridName g k -> Loads load g r vs -> Loads load g ((k, v) :: r) vs
| Loads_nowhere k v r vs : (forall l, ~ LocationOf g v l) -> Loads load g r vs -> Loads load g ((k, v) :: r) vs
| Loads_take k v l x r vs : ~ GridName g k -> LocationOf g v l -> load k v l x -> Loads load g r vs ->
    Loads load g ((k, v) :: r) ((k, x) :: vs).
