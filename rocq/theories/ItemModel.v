(** Model of the item caches: UVar.__getitem__ and the data setter
    (gridded/pyugrid/uvar.py:79-88, 118-131), SGridVariable.__getitem__
    (gridded/pysgrid/variables.py:165-181) and UMVar (uvar.py:147-209). *)
From Coq Require Import String.
From Verif Require Import Common GridTypeModel DepthModel.
Open Scope string_scope.
Open Scope list_scope.

Section Cache.
  (** [get]: the data's own __getitem__; [str]: Python's str() of an item. *)
  Context {D I V : Type} (get : D -> I -> result V) (str : I -> string).

  (** uvar.py:122-131: found, or asked, stored last and the oldest dropped. *)
  Definition cache := dict V.
  Definition cache_cap := 3%nat.
  Definition cache_put (c : cache) (k : string) (v : V) : cache :=
    let c' := dset c k v in
    if Nat.ltb cache_cap (length c') then tl c' else c'.
  Definition lookup (d : D) (c : cache) (i : I) : cache * result V :=
    match dget c (str i) with
    | Some v => (c, Ok v)
    | None => match get d i with
              | Ok v => (cache_put c (str i) v, Ok v)
              | Err e => (c, Err e)
              end
    end.

  (** UVar: data may be replaced (uvar.py:79-88; deletion replaces it by an empty
      array); the cache is not touched.  SGridVariable has no setter: histories
      without [SetData]. *)
  Inductive uop := Item (i : I) | SetData (d : D).
  Record uvar := mkUvar { uv_data : D; uv_cache : cache }.
  Definition uvar_step (s : uvar) (o : uop) : uvar * option (result V) :=
    match o with
    | Item i => let (c, r) := lookup (uv_data s) (uv_cache s) i in (mkUvar (uv_data s) c, Some r)
    | SetData d => (mkUvar d (uv_cache s), None)
    end.
  Fixpoint uvar_run (s : uvar) (ops : list uop) : uvar * list (option (result V)) :=
    match ops with
    | [] => (s, [])
    | o :: r => let (s1, a) := uvar_step s o in let (s2, l) := uvar_run s1 r in (s2, a :: l)
    end.
  Definition uvar_new (d : D) : uvar := mkUvar d [].
End Cache.
Arguments Item {D I}. Arguments SetData {D I}.

(** ** str() of an index array: numpy writes the first and the last three entries
    of arrays of more than 1000 (the separators do not matter here). *)
Inductive item := IInt (z : Z) | IArray (l : list Z).
Definition digit (z : Z) : string := String (Ascii.ascii_of_nat (48 + Z.to_nat z)) "".
Definition str_z (z : Z) : string :=      (* for numbers of at most two digits *)
  let a := Z.abs z in
  (if (z <? 0)%Z then "-" else "") ++ (if (a <? 10)%Z then digit a else digit (a / 10) ++ digit (a mod 10)).
Fixpoint join (l : list string) : string := match l with [] => "" | s :: r => s ++ " " ++ join r end.
Definition np_str (i : item) : string :=
  match i with
  | IInt z => str_z z
  | IArray l =>
      if Nat.ltb 1000 (length l)
      then "[" ++ join (map str_z (firstn 3 l)) ++ "... " ++ join (map str_z (skipn (length l - 3) l)) ++ "]"
      else "[" ++ join (map str_z l) ++ "]"
  end.
(** One-dimensional integer data. *)
Definition get1 (d : list Z) (i : item) : result (list Z) :=
  match i with
  | IInt z => do v <- py_get d z; Ok [v]
  | IArray l => DepthModel.mapM (py_get d) l
  end.

(** ** UMVar: several variables side by side (uvar.py:147-209).  The variables are
    attributes under their names (setattr), listed in [um_names]. *)
Section Multi.
  Context {D I V : Type} (get : D -> I -> result V) (str : I -> string) (same_shape : D -> D -> bool).
  Record umvar := mkUmvar {
    um_first : D;                                   (* self.shape is that of the first source *)
    um_names : list string; um_vars : dict (uvar (D := D) (V := V)); um_cache : dict (list V) }.
  (** uvar.py:204: the columns, with the variables' own caches. *)
  Fixpoint columns (names : list string) (vs : dict uvar) (i : I) : dict uvar * result (list V) :=
    match names with
    | [] => (vs, Ok [])
    | n :: r =>
        match dget vs n with
        | None => (vs, Err AttributeError)
        | Some u =>
            let (c, x) := lookup get str (uv_data u) (uv_cache u) i in
            let vs' := dset vs n (mkUvar (uv_data u) c) in
            match x with
            | Err e => (vs', Err e)
            | Ok v => let (vs2, y) := columns r vs' i in
                      (vs2, match y with Ok l => Ok (v :: l) | Err e => Err e end)
            end
        end
    end.
  Inductive mop := MItem (i : I) | MAdd (n : string) (d : D).
  Definition umvar_step (s : umvar) (o : mop) : umvar * result (option (list V)) :=
    match o with
    | MItem i =>
        match dget (um_cache s) (str i) with
        | Some l => (s, Ok (Some l))
        | None =>
            let (vs, x) := columns (um_names s) (um_vars s) i in
            match x with
            | Ok l => (mkUmvar (um_first s) (um_names s) vs (cache_put (um_cache s) (str i) l), Ok (Some l))
            | Err e => (mkUmvar (um_first s) (um_names s) vs (um_cache s), Err e)
            end
        end
    | MAdd n d =>                                     (* uvar.py:194-200 *)
        if negb (same_shape d (um_first s)) then (s, Err ValueError)
        else if isin n (um_names s) then (s, Err ValueError)
        else (mkUmvar (um_first s) (um_names s ++ [n]) (dset (um_vars s) n (uvar_new d)) (um_cache s), Ok None)
    end.
  Fixpoint umvar_run (s : umvar) (ops : list mop) : umvar * list (result (option (list V))) :=
    match ops with
    | [] => (s, [])
    | o :: r => let (s1, a) := umvar_step s o in let (s2, l) := umvar_run s1 r in (s2, a :: l)
    end.
  (** uvar.py:160-192: a single source is refused, so is a source of another shape;
      no source at all: data[0] raises IndexError.  Names are not checked. *)
  Definition umvar_new (vars : list (string * D)) : result umvar :=
    if Nat.eqb (length vars) 1 then Err ValueError
    else match vars with
         | [] => Err IndexError
         | (_, d) :: _ =>
             if negb (forallb (fun nd => same_shape (snd nd) d) vars) then Err ValueError
             else Ok (mkUmvar d (map fst vars)
                        (fold_left (fun o nd => dset o (fst nd) (uvar_new (snd nd))) vars []) [])
         end.
End Multi.
Arguments MItem {D I}. Arguments MAdd {D I}.
