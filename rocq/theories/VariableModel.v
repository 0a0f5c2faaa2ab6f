(** Model of gridded/variable.py: dimension ordering, the data and time
    setters, the result caches, interpolation in time and depth, [at], and the
    default-name searches.

    Horizontal interpolation ([_xy_interp], lines 631-656, which delegates to
    the grid) enters as a function [leaf]: [leaf ix p] is the value at point
    [p] of the horizontal field that the leading indices [ix] select.  The
    grids' own interpolation is modelled in the UGrid / SGrid / Rect files. *)
From Coq Require Import String.
From Verif Require Import Common TimeModel.
Open Scope Z_scope.

(** A computed value: a number, NaN, or a masked entry. *)
Inductive cell := CVal (q : Q) | CNaN | CMasked.

(** [v0 + (v1 - v0) * alpha] on one entry: a mask or a NaN in either operand
    propagates. *)
Definition cell_lerp (v0 v1 : cell) (a : Q) : cell :=
  match v0, v1 with
  | CMasked, _ | _, CMasked => CMasked
  | CVal x, CVal y => CVal (x + (y - x) * a)
  | _, _ => CNaN
  end.

(** ** Dimension ordering *)
Inductive dim := DTime | DDepth | DLon | DLat | DEle.
Definition dim_eqb (a b : dim) : bool :=
  match a, b with
  | DTime, DTime | DDepth, DDepth | DLon, DLon | DLat, DLat | DEle, DEle => true
  | _, _ => false
  end.
Inductive grid_kind := GStructured | GOther.   (* (Grid_S, Grid_R) / the rest *)

(** variable.py:477-518 (the getter; an explicit [_order] is returned as is). *)
Definition dimension_ordering (explicit : option (list dim)) (g : grid_kind)
  (ndim : nat) (has_time has_depth : bool) : result (list dim) :=
  match explicit with
  | Some o => Ok o
  | None =>
      let order := match g with
                   | GStructured => [DTime; DDepth; DLon; DLat]
                   | GOther => [DTime; DDepth; DEle]
                   end in
      let diff := Z.of_nat (length order) - Z.of_nat ndim in
      if diff =? 0 then Ok order
      else if diff =? 1 then
        if has_time then
          Ok (match order with a :: _ :: r => a :: r | o => o end)   (* del order[1] *)
        else if has_depth then
          Ok (match order with _ :: r => r | o => o end)             (* del order[0] *)
        else Err ValueError
      else if diff =? 2 then Ok (skipn 2 order)
      else Err ValueError
  end.

(** ** Setters
    [vs_shape] is the data's shape; [vs_time] the axis; [vs_loc] whether a
    location is known.  [vs_data] is some payload standing for the values. *)
Record var_state := mkVS {
  vs_shape : list nat; vs_time : option time_obj; vs_loc : option nat }.

(** variable.py:358-372.  [t] given as a Time ([SetTimeObj]) or as an iterable
    of datetimes ([SetTimeList], which goes through [Time(t)]). *)
Inductive time_arg := TNone | TObj (t : time_obj) | TList (l : list Z).
Definition set_time (v : var_state) (t : time_arg) : result var_state :=
  let check (n : nat) : result unit :=
    match vs_shape v with
    | [] => Err IndexError                       (* self.data.shape[0] on 0-d data *)
    | d :: _ => if negb (Nat.eqb n d) && Nat.ltb 1 n then Err ValueError else Ok tt
    end in
  match t with
  | TNone => Ok (mkVS (vs_shape v) None (vs_loc v))
  | TObj o => do _ <- check (length (t_data o));
              Ok (mkVS (vs_shape v) (Some o) (vs_loc v))
  | TList l => do _ <- check (length l);
               do o <- time_init l None None None None;
               Ok (mkVS (vs_shape v) (Some o) (vs_loc v))
  end.

(** variable.py:378-393.  [infer] is the grid's infer_location on a shape
    ([None]: no grid). *)
Definition set_data (infer : option (list nat -> option nat)) (v : var_state)
  (shape : list nat) : result var_state :=
  do _ <- match vs_time v with
          | None => Ok tt
          | Some o => match shape with
                      | [] => Err TypeError       (* len() of a 0-d array *)
                      | d :: _ => if Nat.eqb d (length (t_data o)) then Ok tt else Err ValueError
                      end
          end;
  match infer with
  | None => Ok (mkVS shape (vs_time v) (vs_loc v))
  | Some f =>
      let loc := match vs_loc v with None => f shape | l => l end in
      match loc with
      | None => Err ValueError
      | Some _ => Ok (mkVS shape (vs_time v) loc)
      end
  end.

Inductive var_op := OpTime (t : time_arg) | OpData (shape : list nat).
Definition var_assign infer (v : var_state) (o : var_op) : result var_state :=
  match o with OpTime t => set_time v t | OpData s => set_data infer v s end.
(** A failed assignment leaves the object as it was. *)
Definition var_step infer (v : var_state) (o : var_op) : var_state :=
  match var_assign infer v o with Ok v' => v' | Err _ => v end.
(** variable.py:101-110: data first (no time yet), then time. *)
Definition var_init infer (shape : list nat) (t : time_arg) (loc : option nat)
  : result var_state :=
  do v <- set_data infer (mkVS [] None loc) shape; set_time v t.

(** ** Result caches
    collections.OrderedDict as an association list, oldest insertion first. *)
Section Memo.
  Context {K V : Type}.
  Context (keqb : K -> K -> bool).
  Definition memo := list (K * V).
  Fixpoint memo_get (d : memo) (k : K) : option V :=
    match d with
    | [] => None
    | (k', v) :: r => if keqb k' k then Some v else memo_get r k
    end.
  (** [D[k] = v]: an existing key keeps its place. *)
  Fixpoint memo_put (d : memo) (k : K) (v : V) : memo :=
    match d with
    | [] => [(k, v)]
    | (k', v') :: r => if keqb k' k then (k', v) :: r else (k', v') :: memo_put r k v
    end.
  (** variable.py:432-441 ([cap] = 4) and 1183-1191 ([cap] = 8):
      [if len(D) > cap: D.popitem(last=False)] and then the assignment. *)
  Definition memo_store (cap : nat) (d : memo) (k : K) (v : V) : memo :=
    memo_put (if Nat.ltb cap (length d) then tl d else d) k v.
  Definition memo_run (cap : nat) (h : list (K * V)) : memo :=
    fold_left (fun d kv => memo_store cap d (fst kv) (snd kv)) h [].
End Memo.
Definition var_memo_cap := 4%nat.
Definition vector_memo_cap := 8%nat.

(** ** Interpolation *)
(** Leading indices resolved against the leading dimensions of the data.
    A wrong number of indices leaves an array of the wrong rank: the grids
    reject it in various ways, all summarised as ValueError here. *)
Fixpoint resolve (lead : list nat) (slices : list Z) : result (list nat) :=
  match lead, slices with
  | [], [] => Ok []
  | n :: lead', i :: sl =>
      match py_index n i with
      | None => Err IndexError
      | Some k => do r <- resolve lead' sl; Ok (k :: r)
      end
  | _, _ => Err ValueError
  end.

Section Interp.
  Context {P : Type}.
  (** variable.py:631-656 *)
  Definition xy_interp (lead : list nat) (leaf : list nat -> P -> cell)
    (pts : list P) (slices : list Z) : result (list cell) :=
    do ix <- resolve lead slices; Ok (map (leaf ix) pts).

  (** Entry-wise [v0 + (v1 - v0) * alpha]. *)
  Fixpoint cells_lerp (v0 v1 : list cell) (a : Q) : list cell :=
    match v0, v1 with
    | x :: v0', y :: v1' => cell_lerp x y a :: cells_lerp v0' v1' a
    | _, _ => []
    end.

  (** variable.py:658-694.  [val] is the next level, already applied to the
      points. Note [slices=(0,)] / [(-1,)]: slices chosen so far are dropped. *)
  Definition time_interp (t : time_obj) (q : Z) (extrapolate : bool)
    (val : list Z -> result (list cell)) (slices : list Z) : result (list cell) :=
    do lo <- min_time t;
    if (q =? lo) || (extrapolate && (q <? lo)) then val [0]
    else do hi <- max_time t;
    if (q =? hi) || (extrapolate && (q >? hi)) then val [-1]
    else
      do ind <- index_of t q false;
      do v0 <- val (slices ++ [Z.of_nat ind - 1]);
      do v1 <- val (slices ++ [Z.of_nat ind]);
      do a <- interp_alpha t q extrapolate;
      Ok (cells_lerp v0 v1 a).

  (** np.unique of the unmasked indices: ascending, without repetition. *)
  Definition unique_unmasked (idxs : list (option Z)) : list Z :=
    uniqueZ (flat_map (fun o => match o with Some i => [i] | None => [] end) idxs).

  (** [np.where(d_indices == idx)[0]] *)
  Fixpoint where_eq (k : nat) (idxs : list (option Z)) (i : Z) : list nat :=
    match idxs with
    | [] => []
    | Some j :: r => if j =? i then k :: where_eq (S k) r i else where_eq (S k) r i
    | None :: r => where_eq (S k) r i
    end.
  (** [a[list_of_indices]] *)
  Definition gather {A} (l : list A) (ks : list nat) : list A :=
    flat_map (fun k => match nth_error l k with Some a => [a] | None => [] end) ks.
  (** [values.put(indices, vals)] *)
  Fixpoint put_all {A} (l : list A) (ks : list nat) (vs : list A) : list A :=
    match ks, vs with
    | k :: ks', v :: vs' => put_all (list_set l k v) ks' vs'
    | _, _ => l
    end.
  Fixpoint zip_lerp (v0 v1 : list cell) (a : list Q) : list cell :=
    match v0, v1, a with
    | x :: v0', y :: v1', q :: a' => cell_lerp x y q :: zip_lerp v0' v1' a'
    | _, _, _ => []
    end.

  Section Depth.
    Context (ndim : nat)                                   (* data.shape[dim_idx] *)
              (val : list P -> list Z -> result (list cell))  (* next level *)
              (slices : list Z) (pts : list P)
              (idxs : list (option Z)) (alphas : list Q).

    (** variable.py:745-752, data on layers. *)
    Fixpoint layer_loop (us : list Z) (values : list cell) : result (list cell) :=
      match us with
      | [] => Ok values
      | u :: us' =>
          let idx := if u =? -1 then 0 else u in
          let lay := where_eq 0 idxs idx in
          do v <- val (gather pts lay) (slices ++ [idx]);
          layer_loop us' (put_all values lay v)
      end.

    (** variable.py:753-769, data on levels.  [lay] is the Python local
        [lay_idxs]: unbound before the first assignment, and not refreshed on the
        [idx == shape - 1] path. *)
    Fixpoint level_loop (us : list Z) (lay : option (list nat)) (values : list cell)
      : result (list cell) :=
      match us with
      | [] => Ok values
      | idx :: us' =>
          if idx =? Z.of_nat ndim - 1 then
            match lay with
            | None => Err UnboundLocalError
            | Some l =>
                do v0 <- val (gather pts l) (slices ++ [idx]);
                level_loop us' lay (put_all values l v0)
            end
          else
            let l := where_eq 0 idxs idx in
            do v1 <- val (gather pts l) (slices ++ [idx + 1]);
            do v0 <- val (gather pts l) (slices ++ [idx]);
            level_loop us' (Some l) (put_all values l (zip_lerp v0 v1 (gather alphas l)))
      end.

    (** variable.py:696-770, given the answer (indices, alphas) of
        depth.interpolation_alphas.  NaN indices do not occur (they are ints). *)
    Definition depth_interp (num_layers : nat) : result (list cell) :=
      if forallb (fun o => match o with None => true | _ => false end) idxs
      then Ok (map (fun _ => CMasked) pts)
      else
        let values := map (fun o => match o with None => CMasked | Some _ => CNaN end) idxs in
        let us := unique_unmasked idxs in
        if Nat.eqb ndim num_layers then layer_loop us values
        else level_loop us None values.
  End Depth.

  (** A depth axis as seen by the Variable. *)
  Record depth_view := mkDV {
    dv_layers : nat;
    dv_alphas : list P -> result (list (option Z) * list Q) }.

  Fixpoint index_dim (d : dim) (o : list dim) : option nat :=
    match o with
    | [] => None
    | x :: r => if dim_eqb x d then Some O else option_map S (index_dim d r)
    end.

  (** variable.py:524-627 without the cache: the dispatch on order[0] and the
      chaining done by [val_func].  [shape] is the data's shape; all dimensions
      named time or depth are leading ones. *)
  Section At.
    Context (order : list dim) (shape : list nat)
              (leaf : list nat -> P -> cell)
              (time : option time_obj) (depth : option depth_view)
              (q : Z) (extrapolate : bool).
    Definition lead_dims : list nat :=
      firstn (length (filter (fun d => dim_eqb d DTime || dim_eqb d DDepth) order)) shape.
    Definition next_is (d d' : dim) : result bool :=
      match index_dim d order with
      | None => Err ValueError                                   (* list.index *)
      | Some i => match nth_error order (S i) with
                  | None => Err IndexError
                  | Some x => Ok (dim_eqb x d')
                  end
      end.
    Definition dim_len (d : dim) : result nat :=
      match index_dim d order with
      | None => Err ValueError
      | Some i => match nth_error shape i with Some n => Ok n | None => Err IndexError end
      end.
    Definition v_xy (pts : list P) (slices : list Z) : result (list cell) :=
      xy_interp lead_dims leaf pts slices.
    Definition v_time (val : list P -> list Z -> result (list cell))
      (pts : list P) (slices : list Z) : result (list cell) :=
      match time with
      | None => Err AttributeError
      | Some t => time_interp t q extrapolate (val pts) slices
      end.
    Definition v_depth (val : list P -> list Z -> result (list cell))
      (pts : list P) (slices : list Z) : result (list cell) :=
      match depth with
      | None => Err AttributeError
      | Some dv =>
          do ia <- dv_alphas dv pts;
          do n <- dim_len DDepth;
          depth_interp n val slices pts (fst ia) (snd ia) (dv_layers dv)
      end.
    (** [_time_interp]: the next level is depth iff it is the next name. *)
    Definition at_nomem (pts : list P) : result (list cell) :=
      match order with
      | DTime :: _ =>
          do b <- next_is DTime DDepth;
          if b then v_time (v_depth v_xy) pts [] else v_time v_xy pts []
      | DDepth :: _ =>
          do b <- next_is DDepth DTime;
          if b then v_depth (v_time v_xy) pts [] else v_depth v_xy pts []
      | [] => Err IndexError
      | _ => v_xy pts []
      end.
  End At.
End Interp.

(** ** The cached [at] (variable.py:603-627)
    A request is the N x k array of points, the time and the remaining options.
    The key is (sha1 of the raw bytes of the points, sha1 of str(time)): the
    bytes do not record the shape.  sha1 and str are taken to be injective. *)
Record request := mkReq { rq_pts : list (list Q); rq_time : Z; rq_opts : nat }.
Definition rq_key (r : request) : list Q * Z := (concat (rq_pts r), rq_time r).
Definition Qpair_eqb (a b : Q) : bool := (Qnum a =? Qnum b) && Pos.eqb (Qden a) (Qden b).
Fixpoint list_eqbQ (a b : list Q) : bool :=
  match a, b with
  | [], [] => true
  | x :: a', y :: b' => Qpair_eqb x y && list_eqbQ a' b'
  | _, _ => false
  end.
Definition key_eqb (a b : list Q * Z) : bool := list_eqbQ (fst a) (fst b) && (snd a =? snd b).

Section CachedAt.
  Context {D V : Type}.
  Context (compute : D -> request -> result V).   (* what [_mem=False] returns *)
  Record at_state := mkAt { as_data : D; as_memo : list ((list Q * Z) * V) }.
  Inductive at_op := Call (r : request) | SetData (d : D).
  Definition at_step (s : at_state) (o : at_op) : at_state * option (result V) :=
    match o with
    | SetData d => (mkAt d (as_memo s), None)
    | Call r =>
        match memo_get key_eqb (as_memo s) (rq_key r) with
        | Some v => (s, Some (Ok v))
        | None =>
            match compute (as_data s) r with
            | Err e => (s, Some (Err e))
            | Ok v => (mkAt (as_data s)
                            (memo_store key_eqb var_memo_cap (as_memo s) (rq_key r) v),
                       Some (Ok v))
            end
        end
    end.
  Fixpoint at_run (s : at_state) (ops : list at_op) : at_state * list (option (result V)) :=
    match ops with
    | [] => (s, [])
    | o :: r => let (s1, x) := at_step s o in
                let (s2, xs) := at_run s1 r in (s2, x :: xs)
    end.
  (** The same history with the cache disabled. *)
  Fixpoint at_ref (d : D) (ops : list at_op) : list (option (result V)) :=
    match ops with
    | [] => []
    | SetData d' :: r => None :: at_ref d' r
    | Call q :: r => Some (compute d q) :: at_ref d r
    end.
End CachedAt.

(** ** Default names *)
Record nc_var := mkNC { nc_name : string; nc_std : option string; nc_long : option string }.
Definition opt_is (o : option string) (n : string) : bool :=
  match o with Some s => String.eqb s n | None => false end.
Definition matches_std (v : nc_var) (n : string) : bool :=
  opt_is (nc_std v) n || opt_is (nc_long v) n.
Definition has_name (file : list nc_var) (n : string) : bool :=
  existsb (fun v => String.eqb (nc_name v) n) file.

(** variable.py:773-808 *)
Fixpoint gen_std (file : list nc_var) (stds : list string) : result string :=
  match stds with
  | [] => Err ValueError
  | n :: r => match find (fun v => matches_std v n) file with
              | Some v => Ok (nc_name v)
              | None => gen_std file r
              end
  end.
Definition gen_varname (file : list nc_var) (names stds : list string) : result string :=
  match find (has_name file) names with
  | Some n => Ok n
  | None => gen_std file stds
  end.

(** variable.py:1048-1091, for one component [k]: [v] its default names and
    [s] its standard names.  [continue] does not leave the loop, and [break]
    leaves only the loop over the file's variables. *)
Definition gen_varnames_comp (file : list nc_var) (names stds : list string) : option string :=
  let rd := fold_left (fun acc n => if has_name file n then Some n else acc) names None in
  match rd with
  | Some n => Some n
  | None => fold_left (fun acc n => match find (fun v => matches_std v n) file with
                                    | Some v => Some (nc_name v)
                                    | None => acc
                                    end) stds None
  end.
