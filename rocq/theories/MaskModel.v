(** Model of the mask conversion, gridded/utilities.py:20-78. *)
From Coq Require Import String Ascii DecimalString Decimal.
From Verif Require Import Common VariableModel GridTypeModel.
Open Scope string_scope.

(** One entry of the mask variable's data: the stored number, and whether the
    netCDF library returned it masked (a fill value). *)
Record mentry := mkM { m_val : Z; m_masked : bool }.

(** str.split() without arguments: maximal runs of non-blank characters. *)
Definition is_blank (c : ascii) : bool :=
  let n := nat_of_ascii c in ((n =? 32) || ((9 <=? n) && (n <=? 13)))%nat.
Fixpoint split_aux (s : string) (cur : string) : list string :=
  match s with
  | EmptyString => if String.eqb cur "" then [] else [cur]
  | String c r =>
      if is_blank c then (if String.eqb cur "" then split_aux r "" else cur :: split_aux r "")
      else split_aux r (cur ++ String c "")
  end.
Definition split (s : string) : list string := split_aux s "".

(** int(token) for plain decimal tokens. *)
Definition int_of (s : string) : option Z :=
  match NilEmpty.int_of_string s with
  | Some d => if String.eqb s "" then None else Some (Z.of_int d)
  | None => None
  end.
(** [np.asarray(tokens, dtype=mask_data.dtype)] for an integer dtype: all
    tokens must be numbers, otherwise they stay strings (which equal no
    number). *)
Fixpoint ints_of (l : list string) : option (list Z) :=
  match l with
  | [] => Some []
  | s :: r => match int_of s, ints_of r with Some z, Some zs => Some (z :: zs) | _, _ => None end
  end.

(** The attributes: a blank-separated string or a sequence. *)
Inductive flag_vals := FVNums (l : list Z) | FVStr (s : string).
Inductive flag_means := FMList (l : list string) | FMStr (s : string).
Inductive mask_kind :=
| MFlags (fv : flag_vals) (fm : flag_means)   (* nc4.Variable with flag_values and flag_meanings *)
| MOption                                     (* nc4.Variable with option_0 *)
| MPlain.                                     (* anything else *)

(** Keys the loop at utilities.py:57-58 can compare equal to a number. *)
Definition flag_keys (fv : flag_vals) : list Z :=
  match fv with
  | FVNums l => l
  | FVStr s => match ints_of (split s) with Some l => l | None => [] end
  end.
Definition flag_words (fm : flag_means) : list string :=
  match fm with FMList l => l | FMStr s => split s end.
(** utilities.py:55 *)
Definition is_land (s : string) : bool :=
  negb (contains "water" (lower s) || contains "lake" (lower s)).

(** [dict(zip(keys, vals))] *)
Fixpoint zip {A B} (a : list A) (b : list B) : list (A * B) :=
  match a, b with x :: a', y :: b' => (x, y) :: zip a' b' | _, _ => [] end.
Definition dict_of (l : list (Z * bool)) : list (Z * bool) :=
  fold_left (fun d kv => memo_put Z.eqb d (fst kv) (snd kv)) l [].

(** [for k, v in tfmap.items(): ret_mask[mask_data == k] = v], one entry.
    A masked entry equals no number. *)
Definition apply_map (tf : list (Z * bool)) (e : mentry) : bool :=
  fold_left (fun r kv => if negb (m_masked e) && (m_val e =? fst kv)%Z then snd kv else r) tf true.

Definition convert_entry (k : mask_kind) (e : mentry) : bool :=
  match k with
  | MFlags fv fm => apply_map (dict_of (zip (flag_keys fv) (map is_land (flag_words fm)))) e
  | MOption => apply_map (dict_of (zip [0%Z; 1%Z] [true; false])) e
  | MPlain => negb (m_val e =? 0)%Z        (* ret_mask[:] = mask_data *)
  end.
(** utilities.py:20-69 on the raveled data. *)
Definition convert_mask (k : mask_kind) (data : list mentry) : list bool :=
  map (convert_entry k) data.
