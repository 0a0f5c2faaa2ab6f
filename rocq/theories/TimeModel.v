(** Model of gridded/time.py.  Times are microseconds since an arbitrary
    epoch ([Z]); a timedelta is a number of microseconds.  Simplifications:
    the datetime range limit (years 1..9999, OverflowError) is not modelled;
    [timedelta(hours=h)] is taken to be exact, so an offset is given directly in
    microseconds; [filename]/[varname]/names are informational and dropped. *)
From Verif Require Import Common.
Open Scope Z_scope.

(** time.py:86-175, the attributes that matter: [_data], [_tz_offset]
    (None = naive) and [_displacement] (absent and None are the same to
    every reader, time.py:396-414). *)
Record time_obj := mkTime {
  t_data : list Z;
  t_tz   : option Z;
  t_disp : option Z }.

(** In-place [data += d] on an object array of datetimes. *)
Definition shift (d : Z) (l : list Z) : list Z := map (fun t => t + d) l.

(** np.sort: any sorting function; insertion sort here. *)
Fixpoint insertZ (x : Z) (l : list Z) : list Z :=
  match l with
  | [] => [x]
  | y :: r => if x <=? y then x :: y :: r else y :: insertZ x r
  end.
Fixpoint sortZ (l : list Z) : list Z :=
  match l with [] => [] | x :: r => insertZ x (sortZ r) end.

Fixpoint list_eqbZ (a b : list Z) : bool :=
  match a, b with
  | [], [] => true
  | x :: a', y :: b' => (x =? y) && list_eqbZ a' b'
  | _, _ => false
  end.

(** np.unique: the sorted array with repetitions removed. *)
Fixpoint dedup_sorted (l : list Z) : list Z :=
  match l with
  | x :: ((y :: _) as r) => if x =? y then dedup_sorted r else x :: dedup_sorted r
  | l' => l'
  end.
Definition uniqueZ (l : list Z) : list Z := dedup_sorted (sortZ l).

(** time.py:346-347 [_timeseries_is_ascending] *)
Definition timeseries_is_ascending (ts : list Z) : bool := list_eqbZ (sortZ ts) ts.

(** time.py:349-350 [_has_duplicates] *)
Definition has_duplicates (ts : list Z) : bool :=
  negb (Nat.eqb (length (uniqueZ ts)) (length ts)) && negb (Nat.eqb (length ts) 1).

(** time.py:379-394, the tz_offset setter. *)
Definition set_tz (t : time_obj) (off : option Z) : time_obj :=
  match t_tz t, off with
  | Some old, Some new =>
      mkTime (shift new (shift (- old) (t_data t))) off (t_disp t)
  | _, _ => mkTime (t_data t) off (t_disp t)
  end.

(** time.py:402-414, the displacement setter: the new object state and the
    exception raised, if any. *)
Definition set_disp (t : time_obj) (d : option Z) : time_obj * option err :=
  match t_disp t with
  | None =>
      match d with
      | None => (mkTime (t_data t) (t_tz t) None, None)
      | Some x => (mkTime (shift x (t_data t)) (t_tz t) (Some x), None)
      end
  | Some _ => (t, Some AttributeError)
  end.

(** time.py:133-175 [__init__], for [data] given as a sequence of datetimes.
    (An empty sequence stands for an empty object array; a plain empty list
    would become a float array and be rejected as a TypeError at line 142.)
    The TypeError branch for non-datetime data is outside the model's types. *)
Definition time_init (data : list Z) (tz new_tz origin disp : option Z)
  : result time_obj :=
  do d1 <- match origin with
           | None => Ok data
           | Some o => match data with
                       | [] => Err IndexError
                       | first :: _ => Ok (shift (- (first - o)) data)
                       end
           end;
  let t1 := mkTime d1 tz None in
  do t2 <- match new_tz with
           | None => Ok t1
           | Some n => match t_tz t1 with
                       | None => Err ValueError
                       | Some _ => Ok (set_tz t1 (Some n))
                       end
           end;
  do t3 <- match disp with
           | None => Ok t2
           | Some x => match set_disp t2 (Some x) with
                       | (t', None) => Ok t'
                       | (_, Some e) => Err e
                       end
           end;
  if negb (timeseries_is_ascending (t_data t3)) then Err TimeSeriesError
  else if has_duplicates (t_data t3) then Err TimeSeriesError
  else Ok t3.

(** time.py:352-368 *)
Definition min_time (t : time_obj) : result Z := py_get (t_data t) 0.
Definition max_time (t : time_obj) : result Z := py_get (t_data t) (-1).

(** time.py:422-430 *)
Definition time_in_bounds (t : time_obj) (q : Z) : result bool :=
  do lo <- min_time t;
  if q <? lo then Ok false
  else do hi <- max_time t; Ok (negb (q >? hi)).

(** time.py:432-443 *)
Definition valid_time (t : time_obj) (q : Z) : result unit :=
  do b <- time_in_bounds t q;
  if b then Ok tt else Err OutOfTimeRangeError.

(** time.py:445-464; np.searchsorted with the default side='left'. *)
Definition index_of (t : time_obj) (q : Z) (extrapolate : bool) : result nat :=
  let n := length (t_data t) in
  do _ <- (if negb (extrapolate || Nat.eqb n 1) then valid_time t q else Ok tt);
  let index := searchsorted (fun x => x <? q) (t_data t) in
  Ok (if Nat.eqb n 1 then O else index).

(** time.py:466-493; the quotient of the two float total_seconds() is an exact
    rational here. *)
Definition interp_alpha (t : time_obj) (q : Z) (extrapolate : bool) : result Q :=
  let n := length (t_data t) in
  do _ <- (if negb extrapolate && negb (Nat.eqb n 1) then valid_time t q else Ok tt);
  do i0 <- index_of t q extrapolate;
  if Z.of_nat i0 >? Z.of_nat n - 1 then Ok 1%Q
  else if Nat.eqb i0 0 then Ok 0%Q
  else do t0 <- py_get (t_data t) (Z.of_nat i0 - 1);
       do t1 <- py_get (t_data t) (Z.of_nat i0);
       Ok (inject_Z (q - t0) / inject_Z (t1 - t0))%Q.

(** time.py:336-344 (both operands Time objects; [None == None] is True,
    a number never equals None). *)
Definition tz_eqb (a b : option Z) : bool :=
  match a, b with
  | None, None => true
  | Some x, Some y => x =? y
  | _, _ => false
  end.
Definition time_eqb (a b : time_obj) : bool :=
  list_eqbZ (t_data a) (t_data b) && tz_eqb (t_tz a) (t_tz b).
Definition time_neb (a b : time_obj) : bool := negb (time_eqb a b).

(** Histories of assignments to one object. *)
Definition run_tz (t : time_obj) (h : list (option Z)) : time_obj :=
  fold_left set_tz h t.

Fixpoint run_disp (t : time_obj) (h : list (option Z))
  : time_obj * list (option err) :=
  match h with
  | [] => (t, [])
  | d :: h' => let (t1, e) := set_disp t d in
               let (t2, es) := run_disp t1 h' in (t2, e :: es)
  end.

(** Mixed histories. *)
Inductive time_op := OpTz (o : option Z) | OpDisp (d : option Z).
Definition time_step (t : time_obj) (o : time_op) : time_obj :=
  match o with
  | OpTz x => set_tz t x
  | OpDisp d => fst (set_disp t d)
  end.
Definition run_ops (t : time_obj) (h : list time_op) : time_obj :=
  fold_left time_step h t.

(** ** Sharing (time.py:133-138, 304-311, 388-394, 410)
    [np.asarray] of an ndarray and [Time.data] return the very same buffer,
    and every shift is in place.  The heap holds the buffers; an object is a
    buffer reference plus its own offset and displacement.  The caller's own
    arrays are buffers too. *)
Record heap_obj := mkHObj { h_buf : nat; h_tz : option Z; h_disp : option Z }.
Record heap := mkHeap { h_bufs : list (list Z); h_objs : list heap_obj }.

Definition buf_get (h : heap) (b : nat) : list Z := nth b (h_bufs h) [].
Fixpoint list_set {A} (l : list A) (n : nat) (x : A) : list A :=
  match l, n with
  | [], _ => []
  | _ :: r, O => x :: r
  | y :: r, S m => y :: list_set r m x
  end.
Definition buf_set (h : heap) (b : nat) (l : list Z) : heap :=
  mkHeap (list_set (h_bufs h) b l) (h_objs h).

Inductive source :=
| FromArray (b : nat)      (* Time(ndarray): np.asarray keeps the array   *)
| FromTime (o : nat)       (* Time(other): self.data = data.data          *)
| FromList (l : list Z).   (* Time([...]): np.asarray builds a new array  *)

Inductive heap_op :=
| HNewArray (l : list Z)
| HNewTime (s : source) (tz new_tz origin disp : option Z)
| HSetTz (o : nat) (off : option Z)
| HSetDisp (o : nat) (d : option Z).

Definition heap_source (h : heap) (s : source) : option (heap * nat) :=
  match s with
  | FromArray b => if Nat.ltb b (length (h_bufs h)) then Some (h, b) else None
  | FromTime o => match nth_error (h_objs h) o with
                  | Some ob => Some (h, h_buf ob) | None => None end
  | FromList l => Some (mkHeap (h_bufs h ++ [l]) (h_objs h), length (h_bufs h))
  end.

(** [__init__] on a buffer: the shifts happen in place even when a later
    check raises, exactly as in time.py:146-174. *)
Definition heap_init (h : heap) (b : nat) (tz new_tz origin disp : option Z)
  : heap * result heap_obj :=
  let d0 := buf_get h b in
  match (match origin with
         | None => Ok d0
         | Some o => match d0 with
                     | [] => Err IndexError
                     | first :: _ => Ok (shift (- (first - o)) d0)
                     end
         end) with
  | Err e => (h, Err e)
  | Ok d1 =>
    match (match new_tz with
           | None => Ok (d1, tz)
           | Some n => match tz with
                       | None => Err ValueError
                       | Some old => Ok (shift n (shift (- old) d1), Some n)
                       end
           end) with
    | Err e => (buf_set h b d1, Err e)
    | Ok (d2, tz2) =>
      let d3 := match disp with None => d2 | Some x => shift x d2 end in
      let h3 := buf_set h b d3 in
      if negb (timeseries_is_ascending d3) then (h3, Err TimeSeriesError)
      else if has_duplicates d3 then (h3, Err TimeSeriesError)
      else (h3, Ok (mkHObj b tz2 disp))
    end
  end.

Definition heap_step (h : heap) (op : heap_op) : heap :=
  match op with
  | HNewArray l => mkHeap (h_bufs h ++ [l]) (h_objs h)
  | HNewTime s tz new_tz origin disp =>
      match heap_source h s with
      | None => h
      | Some (h1, b) =>
          match heap_init h1 b tz new_tz origin disp with
          | (h2, Ok ob) => mkHeap (h_bufs h2) (h_objs h2 ++ [ob])
          | (h2, Err _) => h2
          end
      end
  | HSetTz o off =>
      match nth_error (h_objs h) o with
      | None => h
      | Some ob =>
          let d := buf_get h (h_buf ob) in
          let d' := match h_tz ob, off with
                    | Some old, Some new => shift new (shift (- old) d)
                    | _, _ => d
                    end in
          let h1 := buf_set h (h_buf ob) d' in
          mkHeap (h_bufs h1) (list_set (h_objs h1) o (mkHObj (h_buf ob) off (h_disp ob)))
      end
  | HSetDisp o d =>
      match nth_error (h_objs h) o with
      | None => h
      | Some ob =>
          match h_disp ob, d with
          | None, Some x =>
              let h1 := buf_set h (h_buf ob) (shift x (buf_get h (h_buf ob))) in
              mkHeap (h_bufs h1)
                     (list_set (h_objs h1) o (mkHObj (h_buf ob) (h_tz ob) (Some x)))
          | _, _ => h
          end
      end
  end.
Definition heap_run (ops : list heap_op) : heap :=
  fold_left heap_step ops (mkHeap [] []).

(** The observable value of object [o]: what a value-level Time would hold. *)
Definition heap_view (h : heap) (o : nat) : option time_obj :=
  match nth_error (h_objs h) o with
  | Some ob => Some (mkTime (buf_get h (h_buf ob)) (h_tz ob) (h_disp ob))
  | None => None
  end.
