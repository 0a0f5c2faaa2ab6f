(** Vocabulary of the theorems about bearings: geometry on the unit sphere. *)
From Coq Require Import Reals.
Open Scope R_scope.

Definition vec := (R * R * R)%type.
Definition dot (u v : vec) : R := let '(a, b, c) := u in let '(x, y, z) := v in a * x + b * y + c * z.
(** The point of the unit sphere of a longitude and a latitude (radians), and
    the unit vectors that point east and north there. *)
Definition sphere (lon lat : R) : vec := (cos lat * cos lon, cos lat * sin lon, sin lat).
Definition east (lon : R) : vec := (- sin lon, cos lon, 0).
Definition north (lon lat : R) : vec := (- sin lat * cos lon, - sin lat * sin lon, cos lat).
Definition rad (d : R) : R := d * (PI / 180).
Definition place (p : R * R) : vec := sphere (rad (fst p)) (rad (snd p)).
(** How far [q] lies to the east and to the north of [p], seen from [p]. *)
Definition eastward (p q : R * R) : R := dot (east (rad (fst p))) (place q).
Definition northward (p q : R * R) : R := dot (north (rad (fst p)) (rad (snd p))) (place q).
