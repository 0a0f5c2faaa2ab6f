(** Model of gridded/io/verdat.py:24-142: reading and writing verdat text files.
    A file is its list of lines. *)
From Coq Require Import String Ascii Qabs Qround.
From Verif Require Import Common MaskModel GridTypeModel ChainModel.
Open Scope string_scope.
Open Scope list_scope.
Open Scope Z_scope.

(** ** Numbers as text *)
Definition digit (n : N) : string := String (ascii_of_N (48 + n)) "".
(** [k] digits of [n], most significant first *)
Fixpoint digits (k : nat) (n : N) : string :=
  match k with
  | O => ""
  | S k' => (digits k' (n / 10) ++ digit (n mod 10))%string
  end.
(** str of a non-negative int *)
Fixpoint dec_fuel (k : nat) (n : N) : string :=
  match k with
  | O => ""
  | S k' => if (n <? 10)%N then digit n else (dec_fuel k' (n / 10) ++ digit (n mod 10))%string
  end.
Definition dec (n : N) : string := dec_fuel (S (N.size_nat n)) n.
Fixpoint spaces (k : nat) : string := match k with O => "" | S k' => String " " (spaces k') end.
Definition lpad (w : nat) (s : string) : string := (spaces (w - String.length s) ++ s)%string.
(** "{:4d}" *)
Definition fmt_int (w : nat) (z : Z) : string :=
  lpad w ((if (z <? 0)%Z then "-" else "") ++ dec (Z.abs_N z))%string.
(** nearest integer, ties to even *)
Definition rne (q : Q) : Z :=
  let f := Qfloor q in
  let r := (q - inject_Z f)%Q in
  if Qlt_le_dec r (1 # 2) then f
  else if Qlt_le_dec (1 # 2) r then f + 1
  else if Z.even f then f else f + 1.
(** "{:w.df}" of a number given exactly; Python rounds the exact binary value, ties
    to even, and keeps the sign of a negative number that rounds to zero. *)
Definition fmt_fixed (w d : nat) (q : Q) : string :=
  let a := Z.abs_N (rne (q * inject_Z (10 ^ Z.of_nat d))) in
  let p := (10 ^ N.of_nat d)%N in
  lpad w ((if Qlt_le_dec q 0%Q then "-" else "") ++ dec (a / p) ++ "." ++ digits d (a mod p))%string.

(** str.strip *)
Fixpoint ltrim (s : string) : string :=
  match s with String c r => if is_blank c then ltrim r else s | "" => "" end.
Fixpoint rtrim (s : string) : string :=
  match s with
  | "" => ""
  | String c r => let r' := rtrim r in
                  if String.eqb r' "" then (if is_blank c then "" else String c "") else String c r'
  end.
Definition strip (s : string) : string := rtrim (ltrim s).
Definition digit_of (c : ascii) : option N :=
  let n := N_of_ascii c in if ((48 <=? n) && (n <=? 57))%N then Some (n - 48)%N else None.
Fixpoint read_digits (s : string) (acc : N) : option N :=
  match s with
  | "" => Some acc
  | String c r => match digit_of c with Some d => read_digits r (10 * acc + d)%N | None => None end
  end.
Definition unsigned (s : string) : option N := if String.eqb s "" then None else read_digits s 0.
(** optional sign *)
Definition sign_of (s : string) : bool * string :=
  match s with
  | String c r => if Ascii.eqb c "-" then (true, r) else if Ascii.eqb c "+" then (false, r) else (false, s)
  | "" => (false, "")
  end.
(** int(s): blanks around, a sign, digits (digit separators '_' are not modelled). *)
Definition int_str (s : string) : option Z :=
  let (neg, r) := sign_of (strip s) in
  option_map (fun n => if neg : bool then - Z.of_N n else Z.of_N n) (unsigned r).
(** up to the first '.', and what follows it *)
Fixpoint cut_dot (s : string) : string * option string :=
  match s with
  | "" => ("", None)
  | String c r => if Ascii.eqb c "." then ("", Some r)
                  else let (a, b) := cut_dot r in (String c a, b)
  end.
(** float(s) for decimal notation; exponents, nan, inf and '_' are not modelled
    (None = ValueError), and the value is the exact decimal, not its binary64
    rounding. *)
Definition float_str (s : string) : option Q :=
  let (neg, r) := sign_of (strip s) in
  let (a, b) := cut_dot r in
  let f := match b with Some f => f | None => "" end in
  option_map (fun n => let v := inject_Z (Z.of_N n) / inject_Z (10 ^ Z.of_nat (String.length f)) in
                       if neg : bool then - v else v)%Q
             (unsigned (a ++ f)%string).
(** line.split(",") *)
Fixpoint split_comma (s : string) : list string :=
  match s with
  | "" => [""]
  | String c r =>
      if Ascii.eqb c "," then "" :: split_comma r
      else match split_comma r with x :: l => String c x :: l | [] => [String c ""] end
  end.

(** ** save_verdat *)
(** verdat.py:18-22 *)
Definition units_map (u : string) : result string :=
  if isin u ["foot"; "ft"; "feet"] then Ok "FEET"
  else if isin u ["meter"; "m"; "meters"; "metre"] then Ok "METERS"
  else Err KeyError.
(** The depth variable: none asked for, or its units and values. *)
Inductive depth_var := NoDepth | Depth (units : option string) (data : list Q).

Fixpoint mapM_res {A B} (f : A -> result B) (l : list A) : result (list B) :=
  match l with
  | [] => Ok []
  | a :: r => do b <- f a; do bs <- mapM_res f r; Ok (b :: bs)
  end.

(** verdat.py:105, 122-124: one point line *)
Definition point_line (i : nat) (p : Q * Q) (d : Q) : string :=
  (fmt_int 4 (Z.of_nat i) ++ ", " ++ fmt_fixed 10 6 (fst p) ++ ", " ++ fmt_fixed 10 6 (snd p)
   ++ ", " ++ fmt_fixed 8 3 d)%string.
Fixpoint number_from {A} (i : nat) (l : list A) : list (nat * A) :=
  match l with [] => [] | a :: r => (i, a) :: number_from (S i) r end.
Definition depth_units (d : depth_var) : result string :=
  match d with
  | NoDepth => Ok ""
  | Depth None _ => Err AttributeError
  | Depth (Some u) _ => units_map (lower (strip u))
  end.
Definition depth_data (n : nat) (d : depth_var) : list Q :=
  match d with NoDepth => repeat 1%Q n | Depth _ l => l end.
(** verdat.py:118-134: the order in which points are written: boundary points loop
    by loop, then those not written yet. *)
Definition write_order (n : nat) (bounds : list (list Z)) : list Z :=
  concat bounds ++ filter (fun j => negb (existsb (Z.eqb j) (concat bounds))) (map Z.of_nat (seq 0 n)).
Fixpoint running (i : nat) (bounds : list (list Z)) : list nat :=
  match bounds with [] => [] | b :: r => (i + length b)%nat :: running (i + length b) r end.

(** verdat.py:87-142; the boundary segments are those of the grid (given, or made
    by build_boundaries). *)
Definition save_verdat (nodes : list (Q * Q)) (segs : list seg) (d : depth_var) : result (list string) :=
  do u <- depth_units d;
  do b <- order_segments segs;
  let bounds := fst b in
  let dd := depth_data (length nodes) d in
  do rows <- mapM_res (fun p => do xy <- py_get nodes p; do z <- py_get dd p; Ok (xy, z))
                      (write_order (length nodes) bounds);
  Ok (("DOGS " ++ u)%string
      :: map (fun r => point_line (fst r) (fst (snd r)) (snd (snd r))) (number_from 1 rows)
      ++ [point_line 0 (0, 0)%Q 0%Q; dec (N.of_nat (length bounds))]
      ++ map (fun n => dec (N.of_nat n)) (running 0 bounds)).

(** ** load_verdat *)
Record verdat := mkVerdat { vd_units : string; vd_nodes : list (Q * Q); vd_depth : list Q; vd_bounds : list seg }.

(** verdat.py:29-33 *)
Definition header_units (header : string) : string :=
  match split header with _ :: u :: _ => lower u | _ => "" end.
(** verdat.py:37-43: the points and the lines left; ValueError for a field that is
    no number or a wrong number of fields. *)
Fixpoint read_points (lines : list string) : result (list ((Q * Q) * Q) * list string) :=
  match lines with
  | [] => Ok ([], [])
  | l :: r =>
      match map float_str (split_comma l) with
      | [Some i; Some x; Some y; Some z] =>
          if Qeq_bool i 0 && Qeq_bool x 0 && Qeq_bool y 0 && Qeq_bool z 0 then Ok ([], r)
          else do t <- read_points r; Ok (((x, y), z) :: fst t, snd t)
      | _ => Err ValueError
      end
  end.
(** verdat.py:59-67: [i] is the loop variable, unbound before its first use *)
Definition zrange (a b : Z) : list Z := map (fun k => a + Z.of_nat k) (seq 0 (Z.to_nat (b - a))).
Fixpoint read_bounds (k : nat) (start : Z) (i : option Z) (lines : list string) : result (list seg) :=
  match k with
  | O => Ok []
  | S k' =>
      match lines with
      | [] => Err ValueError
      | l :: r =>
          match int_str l with
          | None => Err ValueError
          | Some e =>
              let is := zrange start (e - 1) in
              let i := match rev is with x :: _ => Some x | [] => i end in
              match i with
              | None => Err UnboundLocalError
              | Some x =>
                  do rest <- read_bounds k' e i r;
                  Ok (map (fun j => (j, j + 1)) is ++ (x + 1, start) :: rest)
              end
          end
      end
  end.
(** verdat.py:45-57 *)
Definition read_count (lines : list string) : result (nat * list string) :=
  match lines with
  | [] => Ok (0%nat, [])
  | l :: r => match int_str l with
              | Some n => Ok (Z.to_nat n, r)
              | None => if String.eqb (strip l) "" then Ok (0%nat, r) else Err ValueError
              end
  end.
(** verdat.py:24-84, up to the construction of the Dataset *)
Definition load_verdat (lines : list string) : result verdat :=
  let (header, rest) := match lines with [] => ("", []) | h :: r => (h, r) end in
  let units := header_units (strip header) in
  do pts <- read_points rest;
  do c <- read_count (snd pts);
  do b <- read_bounds (fst c) 0 None (snd c);
  Ok (mkVerdat (lower units) (map fst (fst pts)) (map snd (fst pts)) b).
