(** Data on the layers between levels of fixed depth. *)
From Coq Require Import String.
From Verif Require Import Common TimeModel VariableModel DepthModel DepthSpec WholeSpec SWholeSpec AnyDepthSpec.
Open Scope list_scope.
Open Scope nat_scope.

(** One entry per layer, a layer fewer than levels. *)
Definition layer_shape (time : option time_obj) (ls : list Q) (rest : list nat) : list nat :=
  match time with Some t => [length (t_data t)] | None => [] end ++ [length ls - 1] ++ rest.
(** The point is in the layer [j], or where answers are masked. *)
Definition Layered (ls : list Q) (sbc bbc : bcond) (z : Q) (j : nat) : Prop := InLayer ls z j \/ BeyondLevels ls sbc bbc z.
(** Masked beyond the levels, else as [P] says. *)
Definition AtLayer (ls : list Q) (sbc bbc : bcond) (z : Q) (j : nat) (P : cell -> Prop) (c : cell) : Prop :=
  (BeyondLevels ls sbc bbc z -> c = CMasked) /\ (InLayer ls z j -> P c).
(** Between the samples of a layer the quantity changes at a constant rate. *)
Definition LayersChange {P} (ts : option (list Z)) (f : Z -> nat -> P -> Q) : Prop := forall l, ts = Some l -> forall j p, LinearInTime l (fun t => f t j p).
