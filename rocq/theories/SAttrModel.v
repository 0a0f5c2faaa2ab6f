(** Model of the text parsing in gridded/pysgrid/read_netcdf.py: regular
    expressions as Python's [re] runs them (leftmost, greedy, backtracking),
    the padding attribute, the axes attribute and the vector axis of a
    standard name. *)
From Coq Require Import String Ascii.
From Verif Require Import Common MaskModel GridTypeModel ChainModel VerdatModel.
Open Scope string_scope.
Open Scope list_scope.
Open Scope nat_scope.

(** The patterns in read_netcdf.py are sequences of single character classes
    and repeated classes [[...]+]. *)
Inductive elem := One (f : ascii -> bool) | Plus (f : ascii -> bool).

(** [re.Match] at the start of a string: the pieces matched by each element
    and what is left.  [Plus] takes as many characters as it can and gives
    characters back one by one when the rest does not match. *)
Definition cons_piece (w : string) (r : option (list string * string)) : option (list string * string) :=
  match r with Some (ws, rest) => Some (w :: ws, rest) | None => None end.
Fixpoint mseq (p : list elem) (s : string) {struct p} : option (list string * string) :=
  match p with
  | [] => Some ([], s)
  | One f :: r =>
      match s with
      | String c s' => if f c then cons_piece (String c "") (mseq r s') else None
      | "" => None
      end
  | Plus f :: r =>
      (fix go (pre s : string) {struct s} : option (list string * string) :=
         match s with
         | String c s' =>
             if f c then
               let pre' := (pre ++ String c "")%string in
               match go pre' s' with
               | Some x => Some x
               | None => cons_piece pre' (mseq r s')
               end
             else None
         | "" => None
         end) "" s
  end.
(** [re.findall]: leftmost matches that do not overlap ([skip] counts the
    characters of a match still to be passed over).  None of the patterns
    matches the empty string. *)
Fixpoint scan (p : list elem) (skip : nat) (s : string) : list (list string) :=
  match s with
  | "" => []
  | String c r =>
      match skip with
      | S k => scan p k r
      | O => match mseq p s with
             | Some (ws, rest) => ws :: scan p (String.length s - String.length rest - 1) r
             | None => scan p 0 r
             end
      end
  end.
Definition findall (p : list elem) (s : string) : list (list string) := scan p 0 s.
(** [re.search]: the pieces of the leftmost match. *)
Definition search (p : list elem) (s : string) : option (list string) :=
  match findall p s with ws :: _ => Some ws | [] => None end.

Definition code (c : ascii) : nat := nat_of_ascii c.
Definition between (a b : nat) (c : ascii) : bool := (a <=? code c)%nat && (code c <=? b)%nat.
Definition is_lower_c := between 97 122.
Definition is_upper_c := between 65 90.
Definition is_alpha (c : ascii) : bool := is_lower_c c || is_upper_c c.                 (* [a-zA-Z] *)
Definition is_us (c : ascii) : bool := Ascii.eqb c "_".
Definition is_word (c : ascii) : bool := is_alpha c || between 48 57 c || is_us c.      (* [a-zA-Z0-9_] *)
Definition is_alpha_us (c : ascii) : bool := is_alpha c || is_us c.                     (* [a-zA-Z_] *)
Definition is_lower_us (c : ascii) : bool := is_lower_c c || is_us c.                   (* [a-z_] *)
Definition is_xyz := between 120 122.                                                   (* [xyz] *)
Definition lit (d : ascii) : elem := One (Ascii.eqb d).
Fixpoint lits (s : string) : list elem := match s with "" => [] | String c r => lit c :: lits r end.

(** [s.split(sep)] for a one-character separator. *)
Fixpoint split_on (d : ascii) (s : string) : list string :=
  match s with
  | "" => [""]
  | String c r =>
      if Ascii.eqb c d then "" :: split_on d r
      else match split_on d r with w :: ws => String c w :: ws | [] => [String c ""] end
  end.
(** [re.sub(r"[\(\)]", "", s)]. *)
Fixpoint drop_parens (s : string) : string :=
  match s with
  | "" => ""
  | String c r => if Ascii.eqb c "(" || Ascii.eqb c ")" then drop_parens r else String c (drop_parens r)
  end.
Definition cat (l : list string) : string := String.concat "" l.

(** GridPadding, utils.py:11-19, without the name of the topology variable
    (a constant of the call). *)
Record padding := mkPadding { face_dim : string; node_dim : string; pad_type : string }.

(** read_netcdf.py:63 *)
Definition padding_re : list elem :=
  [Plus is_word; lit ":"; lit " "; Plus is_word; lit " "] ++ lits "(padding: " ++ [Plus is_alpha; lit ")"].
(** read_netcdf.py:67-77: the three groups are pieces 0-1, 3 and 5 onwards. *)
Definition padding_of (ws : list string) : result padding :=
  let raw_dim := cat (firstn 2 ws) in
  let raw_sub_dim := cat (firstn 1 (skipn 3 ws)) in
  let raw_padding := cat (skipn 5 ws) in
  do dim <- py_get (split_on ":" raw_dim) 0;
  do typ <- py_get (split_on ":" (drop_parens raw_padding)) 1;
  Ok (mkPadding dim raw_sub_dim (strip typ)).
(** read_netcdf.py:43-85 *)
Definition parse_padding (s : string) : result (list padding) :=
  do l <- mapM_res padding_of (findall padding_re s);
  if (0 <? length l)%nat then Ok l else Err ValueError.

(** read_netcdf.py:89 *)
Definition axes_re : list elem := [One is_alpha; lit ":"; lit " "; Plus is_alpha_us].
Definition axes3 := (option string * option string * option string)%type.
(** read_netcdf.py:94-103 *)
Definition axis_step (a : axes3) (m : string) : result axes3 :=
  let '(x, y, z) := a in
  let parts := split_on ":" m in
  do n <- py_get parts 0;
  do c <- py_get parts 1;
  let n := lower (strip n) in
  let c := strip c in
  Ok (if String.eqb n "x" then (Some c, y, z)
      else if String.eqb n "y" then (x, Some c, z)
      else if String.eqb n "z" then (x, y, Some c)
      else (x, y, z)).
Fixpoint axis_steps (a : axes3) (ms : list string) : result axes3 :=
  match ms with [] => Ok a | m :: r => do a' <- axis_step a m; axis_steps a' r end.
(** read_netcdf.py:88-104 *)
Definition parse_axes (s : string) : result axes3 :=
  axis_steps (None, None, None) (map cat (findall axes_re s)).
(** sgrid.py:473-484: how the axes attribute is written. *)
Definition write_axes (a : axes3) : string :=
  let '(x, y, z) := a in
  let one (n : string) (v : option string) := match v with Some c => [(n ++ ": " ++ c)%string] | None => [] end in
  String.concat " " (one "X" x ++ one "Y" y ++ one "Z" z).

(** read_netcdf.py:107-116: [match] tests the start of the name, [search]
    then looks for the first [_x_], [_y_] or [_z_] in the whole name
    ([match.string]); [.replace("_", "").upper()]. *)
Definition vector_re : list elem :=
  [Plus is_lower_us; lit "_"; One is_xyz; lit "_"; Plus is_lower_us].
Definition direction_re : list elem := [lit "_"; One is_xyz; lit "_"].
Fixpoint drop_us (s : string) : string :=
  match s with "" => "" | String c r => if is_us c then drop_us r else String c (drop_us r) end.
Definition upper1 (c : ascii) : ascii := if is_lower_c c then ascii_of_nat (code c - 32) else c.
Fixpoint upper (s : string) : string := match s with "" => "" | String c r => String (upper1 c) (upper r) end.
Definition parse_vector_axis (s : string) : result (option string) :=
  match mseq vector_re s with
  | Some _ =>
      match search direction_re s with
      | Some ws => Ok (Some (upper (drop_us (cat ws))))
      | None => Err AttributeError        (* None.group() *)
      end
  | None => Ok None
  end.
