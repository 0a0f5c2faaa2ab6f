(** What the grid-factory properties mean. *)
From Coq Require Import String Ascii.
From Verif Require Import Common VariableSpec GridTypeModel.
Open Scope string_scope.
Open Scope list_scope.

(** Equal up to the case of ASCII letters. *)
Definition CharEq (c d : ascii) : Prop :=
  let m := nat_of_ascii c in let n := nat_of_ascii d in
  m = n \/ (65 <= m <= 90 /\ n = m + 32)%nat \/ (65 <= n <= 90 /\ m = n + 32)%nat.
Fixpoint CaseEq (a b : string) : Prop :=
  match a, b with
  | EmptyString, EmptyString => True
  | String c r, String d s => CharEq c d /\ CaseEq r s
  | _, _ => False
  end.
Definition OneOf (names : list string) (s : string) : Prop := exists n, In n names /\ CaseEq s n.

(** The file's variable called [n], up to case; the last one if there are more. *)
Definition Named (f : gfile) (n : string) (v : gvar) : Prop :=
  exists pre post, gf_vars f = pre ++ v :: post /\ CaseEq (gv_name v) n /\
    forall w, In w post -> ~ CaseEq (gv_name w) n.
Definition InFile (f : gfile) (n : string) : Prop := exists v, In v (gf_vars f) /\ CaseEq (gv_name v) n.
Definition PairIn (f : gfile) (p : string * string) : Prop := InFile f (fst p) /\ InFile f (snd p).

(** Where the node coordinates come from: two separate variables or the
    columns of one, by precedence of the names. *)
Inductive Coords (f : gfile) : src -> src -> Prop :=
| two n1 n2 v1 v2 :
    FirstWith (PairIn f) [("node_lon", "node_lat"); ("lon", "lat"); ("lon_psi", "lat_psi"); ("longitude", "latitude")] (n1, n2) ->
    Named f n1 v1 -> Named f n2 v2 -> Coords f (SVar v1) (SVar v2)
| one n v :
    NoneWith (PairIn f) [("node_lon", "node_lat"); ("lon", "lat"); ("lon_psi", "lat_psi"); ("longitude", "latitude")] ->
    FirstWith (InFile f) ["nodes"; "node"] n -> Named f n v -> Nat.even (size (gv_shape v)) = true ->
    Coords f (SCol v 0) (SCol v 1).
Inductive FaceVar (f : gfile) : gvar -> Prop :=
| face_var n v : FirstWith (InFile f) ["faces"; "tris"; "nv"; "ele"; "nele"] n -> Named f n v -> FaceVar f v.
Definition OneDim (s : src) : Prop :=
  match s with SVar v => length (gv_shape v) = 1%nat | SCol _ _ => True | SFaces _ => False end.
Definition HasLength (s : src) : Prop :=
  match s with SVar v => gv_shape v <> [] | _ => True end.

(** A topology variable. *)
Definition Mentions (sub s : string) : Prop := exists a b, s = (a ++ sub ++ b)%string.
Definition IsTopology (v : gvar) : Prop := exists r, gv_cf_role v = Some r /\ Mentions "topology" r.
