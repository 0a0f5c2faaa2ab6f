(** What a UGRID file means, without the helpers of the model. *)
From Coq Require Import String Ascii QArith.
From Verif Require Import Common GridTypeModel MaskSpec UFileModel.
Open Scope string_scope.
Open Scope list_scope.
Open Scope nat_scope.

(** How an entry of a table is written: masked entries and flags as they are,
    an index with the start index added. *)
Inductive StoredEntry (s : Z) (flag : option Z) : option Z -> option Z -> Prop :=
| stored_masked : StoredEntry s flag None None
| stored_flag f : flag = Some f -> StoredEntry s flag (Some f) (Some f)
| stored_index i : flag <> Some (i + s)%Z -> StoredEntry s flag (Some i) (Some (i + s)%Z).
Definition Stored (s : Z) (flag : option Z) (t a : table) : Prop := Forall2 (Forall2 (StoredEntry s flag)) t a.
Definition Rect (w : nat) (t : table) : Prop := Forall (fun r => length r = w) t.
Definition at2 (t : table) (i j : nat) : option Z := nth j (nth i t []) None.
(** [a] is [t] (of [w] columns) with rows and columns exchanged. *)
Definition Flipped (w : nat) (t a : table) : Prop :=
  length a = w /\ Rect (length t) a /\ forall i j, i < length t -> j < w -> at2 a j i = at2 t i j.
Definition Occurs (x : Z) (t : table) : Prop := exists r, In r t /\ In (Some x) r.
Definition Nonempty (t : table) : Prop := exists r x, In r t /\ In x r.

(** Text with blanks around it. *)
Definition Padded (s w : string) : Prop := exists g g', Gap g /\ Gap g' /\ s = (g ++ w ++ g')%string.
Definition MeshVar (v : fvar) : Prop :=
  (exists r, dget (fv_attrs v) "cf_role" = Some r /\ Padded r "mesh_topology") /\
  (fv_topology_dimension v = Some 1%Z \/ fv_topology_dimension v = Some 2%Z).

Definition HasAttr (v : fvar) (a : string) (l : list string) : Prop := exists s, dget (fv_attrs v) a = Some s /\ In s l.
(** Longitudes and latitudes: by standard name, else by units. *)
Definition LonVar (v : fvar) : Prop :=
  HasAttr v "standard_name" ["longitude"; "projection_x_coordinate"] \/
  (dget (fv_attrs v) "standard_name" = None /\
   HasAttr v "units" ["degrees_east"; "degree_east"; "degree_E"; "degrees_E"; "degreeE"; "degreesE"]).
Definition LatVar (v : fvar) : Prop :=
  HasAttr v "standard_name" ["latitude"; "projection_y_coordinate"] \/
  (dget (fv_attrs v) "standard_name" = None /\
   HasAttr v "units" ["degrees_north"; "degree_north"; "degree_N"; "degrees_N"; "degreeN"; "degreesN"]).
Definition pairs (lon lat : list Q) : list coord := map (fun p => (Some (fst p), Some (snd p))) (combine lon lat).
Definition filled (c : list (Q * Q)) : list coord := map (fun p => (Some (fst p), Some (snd p))) c.

(** Faces as the faces setter leaves them: not empty, and every entry masked,
    -1, or a node. *)
Definition ValidFaces (n : nat) (t : table) : Prop :=
  Nonempty t /\ forall x, Occurs x t -> (-1 <= x < Z.of_nat n)%Z.
(** Representative coordinates fit their elements. *)
Definition Fit (t : option table) (c : option (list (Q * Q))) : Prop :=
  match c with None => True | Some l => exists e, t = Some e /\ length e = length l end.
Definition NotRows (k : nat) (t : option table) : Prop := forall e, t = Some e -> length e <> k.
