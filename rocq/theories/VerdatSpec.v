(** What a faithful verdat file is. *)
From Coq Require Import String Permutation Sorted Qabs.
From Verif Require Import Common ChainModel ChainSpec VerdatModel.
Open Scope Z_scope.

(** [r] is the number with [d] decimals nearest to [q]. *)
Definition Printed (d : nat) (q r : Q) : Prop :=
  exists z, (r == inject_Z z / inject_Z (10 ^ Z.of_nat d))%Q /\
            (Qabs (q - r) <= (1 # 2) / inject_Z (10 ^ Z.of_nat d))%Q.

(** [perm] lists the old numbers of the points in their new order. *)
Definition Reordered {A B} (R : A -> B -> Prop) (old : list A) (perm : list nat) (new : list B) : Prop :=
  Forall2 (fun i b => exists a, nth_error old i = Some a /\ R a b) perm new.

(** A segment of new numbers in terms of old numbers. *)
Definition relabel (perm : list nat) (s : seg) : seg :=
  let f x := Z.of_nat (nth (Z.to_nat x) perm 0%nat) in (f (fst s), f (snd s)).
