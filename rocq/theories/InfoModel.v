(** Model of the reports: gridded/time.py:313-329 [Time.info], variable.py:294-307
    [Variable.__repr__], 334-354 [Variable.info], pyugrid/ugrid.py:206-217
    [UGrid.info], pysgrid/sgrid.py:242-253 [SGrid.info], gridded.py:244-261
    [Dataset.info], pyugrid/uvar.py:138-141 and pysgrid/variables.py:183-184
    [__str__], with textwrap.dedent; and of pysgrid/utils.py:45-56
    [check_element_equal] and utilities.py:333-356, pyugrid/util.py:61-85
    [isarraylike], [asarraylike].  Texts of dates, grid objects, types and
    attribute values are given; texts are of single bytes. *)
From Coq Require Import String Ascii NArith.
From Verif Require Import Common DepthModel GridTypeModel IsoModel.
Open Scope string_scope.
Open Scope list_scope.
Open Scope nat_scope.

(** ** Lines *)
Definition nl : ascii := "010"%char.
Definition newline : string := String nl "".
(** [s.split("\n")] *)
Fixpoint lines (s : string) : list string :=
  match s with
  | "" => [""]
  | String c r =>
      if Ascii.eqb c nl then "" :: lines r
      else match lines r with [] => [String c ""] | l :: ls => String c l :: ls end
  end.
(** ["\n".join(ls)] *)
Definition unlines (ls : list string) : string := String.concat newline ls.

(** ** textwrap.dedent *)
Definition space (c : ascii) : bool := Ascii.eqb c " "%char || Ascii.eqb c "009"%char.
Fixpoint blank (s : string) : bool := match s with "" => true | String c r => space c && blank r end.
Fixpoint indent (s : string) : string :=
  match s with String c r => if space c then String c (indent r) else "" | "" => "" end.
(** The three cases of dedent (equal start, shorter, common start) are the
    longest common start. *)
Fixpoint meet (a b : string) : string :=
  match a, b with String c a', String d b' => if Ascii.eqb c d then String c (meet a' b') else "" | _, _ => "" end.
Definition cleared (l : string) : string := if blank l then "" else l.
Definition margin (ls : list string) : string :=
  match map indent (filter (fun l => negb (blank l)) ls) with [] => "" | i :: r => fold_left meet r i end.
Fixpoint strip (m l : string) : option string :=
  match m, l with
  | "", _ => Some l
  | String c m', String d l' => if Ascii.eqb c d then strip m' l' else None
  | _, _ => None
  end.
Definition stripped (m l : string) : string := match strip m l with Some r => r | None => l end.
Definition dedent (text : string) : string :=
  let ls := map cleared (lines text) in
  unlines (map (stripped (margin ls)) ls).

(** ** Values in a text *)
Definition show (x : option string) : string := match x with Some s => s | None => "None" end.
Definition decimal (n : nat) : string := dec (N.of_nat n).
(** [str] of a shape *)
Definition show_shape (s : list nat) : string :=
  match s with
  | [n] => ("(" ++ decimal n ++ ",)")%string
  | _ => ("(" ++ String.concat ", " (map decimal s) ++ ")")%string
  end.
Definition eight : string := "        ".
(** What stands before each line of the source of the two longer reports. *)
Definition six : string := "      ".
Definition fourteen : string := (eight ++ six)%string.

(** ** Time.info *)
Section Time.
  Context {T : Type} (text_of : T -> string).
  Definition time_info (filename varname : option string) (data : list T) : result string :=
    match data with
    | [] => Err IndexError
    | t :: r =>
        Ok (dedent (unlines
          [""; fourteen ++ "Time object:";
           fourteen ++ "  filename: " ++ show filename;
           fourteen ++ "  varname: " ++ show varname;
           fourteen ++ "  first timestep: " ++ text_of t;
           fourteen ++ "  final timestep: " ++ text_of (last r t);
           fourteen ++ "  number of timesteps: " ++ decimal (length data);
           fourteen]%string))
    end.
End Time.

(** ** Variable *)
Record vinfo := mkVinfo { vi_filename : option string; vi_varname : option string; vi_attrs : list (string * string);
  vi_name : option string; vi_time : string; vi_units : option string; vi_location : option string; vi_grid : string;
  vi_type : string; vi_shape : option (list nat) (* None: no data *) }.
Definition variable_info (v : vinfo) : result string :=
  match vi_shape v with
  | None => Err AttributeError
  | Some s =>
      Ok (dedent (unlines
        [""; fourteen ++ "Variable:";
         fourteen ++ "  filename: " ++ show (vi_filename v);
         fourteen ++ "  varname: " ++ show (vi_varname v);
         fourteen ++ "  standard name: " ++ show (dget (vi_attrs v) "standard_name");
         fourteen ++ "  units: " ++ show (vi_units v);
         fourteen ++ "  grid: " ++ vi_grid v;
         fourteen ++ "  data shape: " ++ show_shape s;
         fourteen]%string))
  end.
Definition quote : string := String """"%char "".
(** [cls] is the class with its module. *)
Definition variable_repr (cls : string) (v : vinfo) : result string :=
  match vi_shape v with
  | None => Err AttributeError
  | Some s =>
      Ok (unlines
        [cls ++ "(name=" ++ quote ++ show (vi_name v) ++ quote ++ ", ";
         "time=" ++ quote ++ vi_time v ++ quote ++ ", ";
         "units=" ++ quote ++ show (vi_units v) ++ quote ++ ", ";
         "location=" ++ quote ++ show (vi_location v) ++ quote ++ " ";
         "data=Type:" ++ vi_type v ++ ", shape:" ++ show_shape s ++ quote ++ ", )"]%string)
  end.

(** ** Grids *)
(** A mesh by its sizes: faces with the length of a row, boundaries. *)
Definition mesh_info (name : string) (nodes : nat) (faces : option (nat * nat)) (bounds : option nat) : result string :=
  match faces with
  | None => Err TypeError
  | Some (n, k) =>
      Ok (unlines
        (["UGrid object: " ++ name; "Number of nodes: " ++ decimal nodes;
          "Number of faces: " ++ decimal n ++ " with " ++ decimal k ++ " vertices per face"]%string ++
         match bounds with Some b => [("Number of boundaries: " ++ decimal b)%string] | None => [] end))
  end.
Definition private (name : string) : bool := match name with String c _ => Ascii.eqb c "_"%char | "" => false end.
(** [vars(self)]: each attribute, and whether it has a value. *)
Definition staggered_info (vars : list (string * bool)) : string :=
  unlines ["SGrid object with defined:"; ("    " ++ String.concat ", " (map fst (filter (fun x => negb (private (fst x)) && snd x) vars)))%string].
Inductive ginfo :=
| GMesh (name : string) (nodes : nat) (faces : option (nat * nat)) (bounds : option nat)
| GStaggered (vars : list (string * bool))
| GRegular   (* Grid_R has no [info] *)
| GNothing.
Definition grid_info (g : ginfo) : result string :=
  match g with
  | GMesh name nodes faces bounds => mesh_info name nodes faces bounds
  | GStaggered vars => Ok (staggered_info vars)
  | GRegular | GNothing => Err AttributeError
  end.

(** ** Dataset.info *)
(** VectorVariable has no [info]. *)
Inductive iinfo := IVariable (v : vinfo) | IVector.
Definition item_info (x : iinfo) : result string := match x with IVariable v => variable_info v | IVector => Err AttributeError end.
Definition indented (s : string) : string := unlines (map (fun l => (eight ++ l)%string) (lines s)).
Definition dataset_info (filename : option string) (grid : ginfo) (vars : list (string * iinfo)) (attrs : list (string * string)) : result string :=
  do infos <- mapM (fun kv => item_info (snd kv)) vars;
  let vs := indented (String.concat "" (map (fun v => (eight ++ v)%string) infos)) in
  let ats := unlines (map (fun kv => (eight ++ fst kv ++ ": " ++ snd kv)%string) attrs) in
  do g <- grid_info grid;
  Ok (unlines
    ["gridded.Dataset:"; "    filename: " ++ show filename; "    grid:"; indented g; "    variables: " ++ vs; "    attributes:"; ats]%string).

(** ** __str__ of UVar and SGridVariable *)
(** The format [:s] refuses None. *)
Definition formatted (x : option string) : result string := match x with Some s => Ok s | None => Err TypeError end.
Definition uvar_str (name location : option string) (n : nat) (attrs : string) : result string :=
  do a <- formatted name;
  do l <- formatted location;
  Ok (unlines ["UVar object: " ++ a ++ ", on the " ++ l ++ "s, and " ++ decimal n ++ " data points"; "Attributes: " ++ attrs]%string).
Definition svar_str (standard_name location : option string) : result string :=
  do a <- formatted standard_name;
  do l <- formatted location;
  Ok ("SGridVariable object: " ++ a ++ ", on the " ++ l ++ "s")%string.

(** ** check_element_equal *)
Section Equal.
  Context {A : Type} (eqb : A -> A -> bool).
  (** [lst[1:] == lst[:-1]] of lists, and of arrays. *)
  Fixpoint list_eqb (a b : list A) : bool :=
    match a, b with
    | [], [] => true
    | x :: a', y :: b' => eqb x y && list_eqb a' b'
    | _, _ => false
    end.
  Inductive truth := One (b : bool) | Each (l : list bool).
  Definition check_element_equal (is_array : bool) (l : list A) : truth :=
    if is_array then Each (map (fun p => eqb (fst p) (snd p)) (combine (tl l) (removelast l))) else One (list_eqb (tl l) (removelast l)).
End Equal.

(** ** isarraylike *)
(** An object by its identity and the attributes that [hasattr] finds. *)
Record pobj := mkPobj { po_id : nat; po_has : list string }.
Definition must_have : list string := ["dtype"; "shape"; "ndim"; "__len__"; "__getitem__"; "__getattribute__"].
Definition isarraylike (o : pobj) : bool := forallb (fun a => isin a (po_has o)) must_have.
(** [np.array] makes a new array. *)
Definition asarraylike (fresh : nat) (array_has : list string) (o : pobj) : pobj := if isarraylike o then o else mkPobj fresh array_has.
