(** Model of gridded/variable.py: VectorVariable (811-1362) and the arrays
    the caches of Variable and VectorVariable hand out. *)
From Coq Require Import Ascii String.
From Verif Require Import Common TimeModel VariableModel.
Open Scope nat_scope.

(** ** [VectorVariable.at]  (variable.py:1201-1295)
    A component is the cached [Variable.at] of VariableModel ([at_state]); [V] is
    the column it answers.  The value of the vector is [np.ma.column_stack] of
    the columns, here their list.  Simplification: all columns have one entry
    per point, so [column_stack] does not fail.  [mem] is the argument [_mem],
    passed on to the components, as is the key. *)
Section VectorAt.
  Context {D V : Type} (compute : D -> request -> result V).

  Record vec_state := mkVec {
    vc_comps : list (at_state (D := D) (V := V));
    vc_memo : memo (K := list Q * Z) (V := list V) }.

  (** variable.py:563-629 with [_mem] *)
  Definition comp_at (mem : bool) (s : at_state (D := D) (V := V)) (r : request)
    : at_state (D := D) (V := V) * result V :=
    if mem then
      match at_step compute s (Call r) with
      | (s', Some v) => (s', v)
      | (s', None) => (s', Err TypeError)
      end
    else (s, compute (as_data s) r).

  (** The list comprehension: components in order, stopping at the first
      exception; what the earlier components remembered stays. *)
  Fixpoint comps_at (mem : bool) (cs : list (at_state (D := D) (V := V))) (r : request)
    : list (at_state (D := D) (V := V)) * result (list V) :=
    match cs with
    | [] => ([], Ok [])
    | c :: cs' =>
        match comp_at mem c r with
        | (c1, Err e) => (c1 :: cs', Err e)
        | (c1, Ok v) =>
            match comps_at mem cs' r with
            | (cs1, Ok vs) => (c1 :: cs1, Ok (v :: vs))
            | (cs1, Err e) => (c1 :: cs1, Err e)
            end
        end
    end.

  (** variable.py:1264-1295 *)
  Definition vec_at (mem : bool) (s : vec_state) (r : request) : vec_state * result (list V) :=
    match (if mem then memo_get key_eqb (vc_memo s) (rq_key r) else None) with
    | Some v => (s, Ok v)
    | None =>
        match comps_at mem (vc_comps s) r with
        | (cs, Err e) => (mkVec cs (vc_memo s), Err e)
        | (cs, Ok vs) =>
            (mkVec cs (if mem then memo_store key_eqb vector_memo_cap (vc_memo s) (rq_key r) vs
                       else vc_memo s), Ok vs)
        end
    end.

  (** What can happen to a vector: a query of the vector, a query of one of its
      components on its own, and an assignment to the data of a component. *)
  Inductive vec_op := VAt (mem : bool) (r : request) | VComp (k : nat) (op : at_op (D := D)).
  Definition vec_step (s : vec_state) (o : vec_op) : vec_state * option (result (list V)) :=
    match o with
    | VAt mem r => let (s', v) := vec_at mem s r in (s', Some v)
    | VComp k op =>
        match nth_error (vc_comps s) k with
        | None => (s, None)
        | Some c => (mkVec (list_set (vc_comps s) k (fst (at_step compute c op))) (vc_memo s), None)
        end
    end.
  Fixpoint vec_run (s : vec_state) (ops : list vec_op) : vec_state * list (option (result (list V))) :=
    match ops with
    | [] => (s, [])
    | o :: r =>
        let (s1, v) := vec_step s o in
        let (s2, vs) := vec_run s1 r in (s2, v :: vs)
    end.
End VectorAt.
Arguments vec_state : clear implicits.
Arguments vec_op : clear implicits.

(** variable.py:1259-1262: what to query. *)
Definition vec_points (points : option (list (list Q))) (lons lats : option (list Q))
  : result (list (list Q)) :=
  match points with
  | Some p => Ok p
  | None =>
      match lons, lats with
      | Some xs, Some ys =>
          (* np.column_stack of arrays of different lengths *)
          if Nat.eqb (length xs) (length ys) then Ok (map (fun p => [fst p; snd p]) (combine xs ys))
          else Err ValueError
      | _, _ => Err ValueError
      end
  end.

(** ** The arrays behind the caches  (variable.py:432-455, 1183-1199)
    An array has values, a mask and the numpy flag [writeable]; [ar_ma] says
    whether it is a MaskedArray.  [x[i] = 5] needs the flag.  [x[i] =
    np.ma.masked] on a MaskedArray only sets the mask, which is an array of its
    own with its own flag, so it always works.  Arrays live at addresses. *)
Record arr := mkArr { ar_vals : list (Q * bool); ar_ma : bool; ar_write : bool }.
Definition read_only (a : arr) : arr := mkArr (ar_vals a) (ar_ma a) false.
Definition arr_copy (a : arr) : arr := mkArr (ar_vals a) (ar_ma a) true.
Definition arr_set (a : arr) (i : nat) (x : Q) : result arr :=
  if ar_write a then
    if Nat.ltb i (length (ar_vals a)) then Ok (mkArr (list_set (ar_vals a) i (x, false)) (ar_ma a) true)
    else Err IndexError
  else Err ValueError.
Definition arr_mask (a : arr) (i : nat) : result arr :=
  match nth_error (ar_vals a) i with
  | None => Err IndexError
  | Some (x, _) =>
      if ar_ma a then Ok (mkArr (list_set (ar_vals a) i (x, true)) true (ar_write a))
      else (* not modelled further: a plain array would get nan *)
        if ar_write a then Ok a else Err ValueError
  end.

Section Handed.
  (** [comp r] is the freshly computed array; keys of type nat. *)
  Context (comp : nat -> result (list (Q * bool) * bool)) (keyf : nat -> nat).
  Record hstate := mkH { h_heap : list arr; h_memo : memo (K := nat) (V := nat); h_out : list nat }.
  Inductive hop := HCall (r : nat) | HSet (k i : nat) (x : Q) | HMask (k i : nat).
  (** [copying] is the keyword [_copy]: false in Variable (variable.py:620, 627),
      true in VectorVariable (defaults of 1183 and 1193). *)
  Definition h_call (copying : bool) (cap : nat) (s : hstate) (r : nat) : hstate * result nat :=
    let n := length (h_heap s) in
    match memo_get Nat.eqb (h_memo s) (keyf r) with
    | Some p =>
        if copying then
          match nth_error (h_heap s) p with
          | None => (s, Err KeyError)
          | Some a => (mkH (h_heap s ++ [arr_copy a]) (h_memo s) (h_out s ++ [n]), Ok n)
          end
        else (mkH (h_heap s) (h_memo s) (h_out s ++ [p]), Ok p)
    | None =>
        match comp r with
        | Err e => (s, Err e)
        | Ok (vs, ma) =>
            let a := mkArr vs ma true in
            if copying then
              (mkH (h_heap s ++ [a; read_only (arr_copy a)])
                   (memo_store Nat.eqb cap (h_memo s) (keyf r) (S n)) (h_out s ++ [n]), Ok n)
            else
              (mkH (h_heap s ++ [read_only a]) (memo_store Nat.eqb cap (h_memo s) (keyf r) n)
                   (h_out s ++ [n]), Ok n)
        end
    end.
  (** The caller changes the [k]-th array it was given. *)
  Definition h_edit (s : hstate) (k : nat) (f : arr -> result arr) : hstate * option err :=
    match nth_error (h_out s) k with
    | None => (s, None)
    | Some p =>
        match nth_error (h_heap s) p with
        | None => (s, None)
        | Some a =>
            match f a with
            | Ok a' => (mkH (list_set (h_heap s) p a') (h_memo s) (h_out s), None)
            | Err e => (s, Some e)
            end
        end
    end.
  (** The answer of a call as the caller sees it when it is returned. *)
  Definition h_see (s : hstate) (p : nat) : list (Q * bool) :=
    match nth_error (h_heap s) p with Some a => ar_vals a | None => [] end.
  Definition h_step (copying : bool) (cap : nat) (s : hstate) (o : hop)
    : hstate * option (result (list (Q * bool))) :=
    match o with
    | HCall r =>
        match h_call copying cap s r with
        | (s', Ok p) => (s', Some (Ok (h_see s' p)))
        | (s', Err e) => (s', Some (Err e))
        end
    | HSet k i x => match h_edit s k (fun a => arr_set a i x) with (s', None) => (s', None) | (s', Some e) => (s', Some (Err e)) end
    | HMask k i => match h_edit s k (fun a => arr_mask a i) with (s', None) => (s', None) | (s', Some e) => (s', Some (Err e)) end
    end.
  Fixpoint h_run (copying : bool) (cap : nat) (s : hstate) (ops : list hop)
    : list (option (result (list (Q * bool)))) :=
    match ops with
    | [] => []
    | o :: r => let (s1, v) := h_step copying cap s o in v :: h_run copying cap s1 r
    end.
End Handed.
Definition h_empty := mkH [] [] [].

(** ** Constructor, time and units  (variable.py:840-884, 1113-1160)
    The [units] attribute of a vector: nothing, a string, or a list. *)
Inductive uval := UNone | UStr (s : string) | UList (l : list (option string)).
Record vcomp := mkComp { cp_state : var_state; cp_units : uval }.
Record vvec := mkVV { vv_time : option time_obj; vv_units : uval; vv_comps : list vcomp }.

Fixpoint chars (s : string) : list ascii :=
  match s with EmptyString => [] | String c r => c :: chars r end.
Definition opt_str_eqb (a b : option string) : bool :=
  match a, b with
  | None, None => true
  | Some x, Some y => String.eqb x y
  | _, _ => false
  end.
(** [len(set(l)) > 1] *)
Definition several {A} (eqb : A -> A -> bool) (l : list A) : bool :=
  match l with [] => false | a :: r => negb (forallb (eqb a) r) end.
(** variable.py:1140-1153.  A string has [__iter__] too. *)
Definition units_get (u : uval) : result uval :=
  match u with
  | UNone => Ok UNone
  | UStr s =>
      if several Ascii.eqb (chars s) then Ok u
      else match chars s with [] => Err IndexError | c :: _ => Ok (UStr (String c EmptyString)) end
  | UList l =>
      if several opt_str_eqb l then Ok u
      else match l with [] => Err IndexError | Some x :: _ => Ok (UStr x) | None :: _ => Ok UNone end
  end.
(** variable.py:1155-1160 *)
Definition units_set (v : vvec) (u : uval) : vvec :=
  mkVV (vv_time v) u (map (fun c => mkComp (cp_state c) u) (vv_comps v)).

(** variable.py:1122-1138.  The components are set one by one;
    [collections.Iterable] does not exist in Python 3.10 and later (the
    package needs 3.12), so anything but a Time object ends in
    AttributeError, after the components were set. *)
Fixpoint comps_set_time (cs : list vcomp) (t : time_arg) : list vcomp * option err :=
  match cs with
  | [] => ([], None)
  | c :: cs' =>
      match set_time (cp_state c) t with
      | Err e => (cs, Some e)
      | Ok st =>
          let (r, e) := comps_set_time cs' t in (mkComp st (cp_units c) :: r, e)
      end
  end.
Definition vec_set_time (v : vvec) (t : time_arg) : vvec * option err :=
  let (cs, e) := comps_set_time (vv_comps v) t in
  match e with
  | Some e => (mkVV (vv_time v) (vv_units v) cs, Some e)
  | None =>
      match t with
      | TObj o => (mkVV (Some o) (vv_units v) cs, None)
      | _ => (mkVV (vv_time v) (vv_units v) cs, Some AttributeError)
      end
  end.

(** variable.py:840-884 for a sequence of Variable objects ([None]: the argument
    is missing).  [ncomp] is [len(comp_order)]. *)
Definition vec_init (ncomp : nat) (vars : option (list vcomp)) (time : time_arg) (units : uval)
  : result vvec :=
  match vars with
  | None => Err TypeError                           (* iterating over None *)
  | Some vs =>
      do t <- (match time with
               | TNone => Ok None
               | TObj o => Ok (Some o)
               | TList l => do o <- time_init l None None None None; Ok (Some o)
               end);
      match vs with
      | [] =>
          match units, t with
          | UNone, _ | _, None => Err IndexError    (* variables[0] *)
          | _, Some _ => Err ValueError
          end
      | c :: _ =>
          let u := match units with UNone => cp_units c | _ => units end in
          let t' := match t with None => vs_time (cp_state c) | Some _ => t end in
          if Nat.ltb (length vs) 2 then Err ValueError
          else if Nat.ltb (length vs) ncomp then Err IndexError
          else Ok (mkVV t' u vs)
      end
  end.

(** The state changes a user can make through the vector. *)
Inductive vv_op := VTime (t : time_arg) | VUnits (u : uval).
Definition vv_step (v : vvec) (o : vv_op) : vvec :=
  match o with VTime t => fst (vec_set_time v t) | VUnits u => units_set v u end.

(** variable.py:1340-1362: [save] writes nothing; it only refuses an unknown format. *)
Definition vec_save (format : string) : result unit :=
  if existsb (String.eqb format) ["netcdf3"; "netcdf4"]%string then Ok tt else Err ValueError.
