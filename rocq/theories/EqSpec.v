(** Vocabulary of the theorems about equality of grids. *)
From Coq Require Import String QArith.
From Verif Require Import Common EqModel.
Open Scope string_scope.
Open Scope list_scope.
Open Scope nat_scope.

(** The same number, text or nothing; nan is not the same as itself. *)
Inductive SameElem : elem -> elem -> Prop :=
| same_num x y : (x == y)%Q -> SameElem (ENum x) (ENum y)
| same_str s : SameElem (EStr s) (EStr s)
| same_none : SameElem ENone ENone.
Inductive Same : value -> value -> Prop :=
| same_nothing : Same VNone VNone
| same_array s d d' m m' : Forall2 SameElem d d' -> Same (VArr s d m) (VArr s d' m')
(** an array without dimensions that holds None *)
| same_left m : Same VNone (VArr [] [ENone] m)
| same_right m : Same (VArr [] [ENone] m) VNone.
(** The value has no nan. *)
Definition Clean (v : value) : Prop := match v with VNone => True | VArr _ d _ => ~ In ENan d end.
(** Two names of the same object. *)
Definition Coherent (a b : obj) : Prop := o_id a = o_id b -> a = b.
Definition CoherentS (a b : sobj) : Prop := o_id (s_obj a) = o_id (s_obj b) -> a = b.
(** Arrays of points and of indices. *)
Definition Points (v : value) (l : list (Q * Q)) : Prop :=
  exists m, v = VArr [length l; 2] (flat_map (fun p => [ENum (fst p); ENum (snd p)]) l) m.
Definition Rows (v : value) (l : list (list Z)) : Prop :=
  exists k m, (forall r, In r l -> length r = k) /\ v = VArr [length l; k] (map (fun z => ENum (inject_Z z)) (concat l)) m.
Definition SamePt (p q : Q * Q) : Prop := (fst p == fst q /\ snd p == snd q)%Q.
(** The padding guessed from the sizes of centers and nodes. *)
Definition Guessed (face node : nat) (s : string) : Prop :=
  (s = "low" /\ (face = node \/ node = face + 3)) \/ (s = "both" /\ (face = node + 1 \/ node = face + 2)) \/ (s = "none" /\ (face = node + 2 \/ node = face + 1)).
