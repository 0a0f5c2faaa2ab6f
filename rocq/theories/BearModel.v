(** Model of the angles computed for a staggered grid that has none:
    gridded/pysgrid/utils.py:22-43 [pair_arrays], 183-198 [calculate_bearing],
    201-213 [calculate_angle_from_true_east] and sgrid.py:1417-1426
    [get_angles].  Numbers are exact reals in place of binary64; signed zeros
    are not told apart. *)
From Coq Require Import Reals List.
Import ListNotations.
Open Scope R_scope.

Definition radians (d : R) : R := d * PI / 180.
(** np.arctan2 *)
Definition arctan2 (y x : R) : R :=
  if Rlt_dec 0 x then atan (y / x)
  else if Rlt_dec x 0 then (if Rle_dec 0 y then atan (y / x) + PI else atan (y / x) - PI)
  else if Rlt_dec 0 y then PI / 2
  else if Rlt_dec y 0 then - (PI / 2)
  else 0.
(** [x % 360] *)
Definition mod360 (x : R) : R := x - 360 * IZR (Int_part (x / 360)).
(** Points are (longitude, latitude) in degrees. *)
Definition bearing (p q : R * R) : R :=
  let lon_1 := radians (fst p) in
  let lat_1 := radians (snd p) in
  let lon_2 := radians (fst q) in
  let lat_2 := radians (snd q) in
  let x1 := sin (lon_2 - lon_1) * cos lat_2 in
  let x2 := cos lat_1 * sin lat_2 - sin lat_1 * cos lat_2 * cos (lon_2 - lon_1) in
  mod360 (arctan2 x1 x2 * 180 / PI + 360).
Definition angle_from_true_east (p q : R * R) : R := (90 - bearing p q) * PI / 180.

(** A row of coordinates: numbers, and whether they are masked.  Writing a
    masked array into a plain one copies the numbers (pair_arrays). *)
Definition entry := (R * bool)%type.
Definition pair_row (lon lat : list entry) : list (R * R) := combine (map fst lon) (map fst lat).
(** [a[:-1]], [a[1:]], [a[-1:]] *)
Definition last_only (a : list R) : list R := match rev a with [] => [] | x :: _ => [x] end.
Definition angles_row (lon lat : list entry) : list R :=
  let c := pair_row lon lat in
  let a := map (fun pq => angle_from_true_east (fst pq) (snd pq)) (combine (removelast c) (tl c)) in
  a ++ last_only a.
Definition angles (lon lat : list (list entry)) : list (list R) :=
  map (fun ll => angles_row (fst ll) (snd ll)) (combine lon lat).
