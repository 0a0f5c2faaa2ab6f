(** gridded/time.py:29-45 [offset_as_iso_string]: once over exact rationals,
    once over IEEE binary64 (the standard library's executable SpecFloat),
    because the code computes with Python floats. *)
From Verif Require Import Common.
From Coq Require Import String Ascii DecimalString SpecFloat Qabs Qround.
Open Scope string_scope.

(** [f"{n:0>2}"] for a non-negative int: right-aligned, '0'-filled, width 2. *)
Definition dec (n : N) : string := NilEmpty.string_of_uint (N.to_uint n).
Definition pad2 (s : string) : string :=
  match String.length s with
  | O => "00" ++ s
  | S O => "0" ++ s
  | _ => s
  end.
Definition iso_render (negative : bool) (hours minutes : N) : string :=
  (if negative then "-" else "+") ++ pad2 (dec hours) ++ ":" ++ pad2 (dec minutes).

(** Exact version. [int()] of a non-negative number is the floor. *)
Definition iso_hm (h : Q) : N * N :=
  let a := Qabs.Qabs h in
  let hours := Qround.Qfloor a in
  let minutes := Qround.Qfloor ((a - inject_Z hours) * 60)%Q in
  (Z.to_N hours, Z.to_N minutes).
Definition offset_as_iso_string (h : option Q) : string :=
  match h with
  | None => ""
  | Some q => let (hh, mm) := iso_hm q in iso_render (Qlt_bool q 0) hh mm
  end.

(** binary64 version. *)
Definition prec := 53%Z.
Definition emax := 1024%Z.
Definition f_of_Z (z : Z) : spec_float := binary_normalize prec emax z 0 false.
(** [int(x)] of a finite float: truncation towards zero. *)
Definition f_trunc (x : spec_float) : option Z :=
  match x with
  | S754_zero _ => Some 0%Z
  | S754_finite s m e =>
      let a := (if (0 <=? e)%Z then Z.pos m * 2 ^ e else Z.pos m / 2 ^ (- e))%Z in
      Some (if s then - a else a)%Z
  | _ => None
  end.
Definition f_iso_hm (h : spec_float) : option (N * N) :=
  let a := SFabs h in
  match f_trunc a with
  | None => None
  | Some hours =>
      match f_trunc (SFmul prec emax (SFsub prec emax a (f_of_Z hours)) (f_of_Z 60)) with
      | None => None
      | Some minutes => Some (Z.to_N hours, Z.to_N minutes)
      end
  end.
Definition f_offset_as_iso_string (h : spec_float) : option string :=
  match f_iso_hm h with
  | None => None
  | Some (hh, mm) => Some (iso_render (SFltb h (f_of_Z 0)) hh mm)
  end.
(** time.py:79 [offset_hours = offset.total_seconds() / 3600] for an offset of
    [m] whole minutes. *)
Definition f_hours_of_minutes (m : Z) : spec_float :=
  SFdiv prec emax (f_of_Z (m * 60)) (f_of_Z 3600).
