(** What default names should be. *)
From Coq Require Import String List.
Import ListNotations.

(** The objects made without a name have different names. *)
Definition DefaultsDiffer (ops : list (nat * option string)) (names : list string) : Prop :=
  forall i j c d a b, i <> j -> nth_error ops i = Some (c, None) -> nth_error ops j = Some (d, None) ->
  nth_error names i = Some a -> nth_error names j = Some b -> a <> b.
(** Names given are kept. *)
Definition GivenKept (ops : list (nat * option string)) (names : list string) : Prop :=
  forall i c s, nth_error ops i = Some (c, Some s) -> nth_error names i = Some s.
