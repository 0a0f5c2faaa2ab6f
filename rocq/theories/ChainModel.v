(** Model of gridded/io/verdat.py:145-197 [order_boundary_segments]. *)
From Verif Require Import Common.
Open Scope Z_scope.

Definition seg := (Z * Z)%type.

(** verdat.py:152-156: the list of [p0, p1] lists is sorted in descending order and
    then consumed from its back; the model keeps it ascending and consumes it from
    its front.  Equal segments are indistinguishable, so stability does not matter. *)
Definition seg_leb (a b : seg) : bool :=
  (fst a <? fst b) || ((fst a =? fst b) && (snd a <=? snd b)).
Fixpoint insert_seg (s : seg) (l : list seg) : list seg :=
  match l with
  | [] => [s]
  | x :: r => if seg_leb s x then s :: l else x :: insert_seg s r
  end.
Definition sort_segs (l : list seg) : list seg := fold_right insert_seg [] l.

Definition first_pt (b : list Z) : Z := hd 0 b.
Definition last_pt (b : list Z) : Z := last b 0.

(** verdat.py:172-187, one run of the for loop up to its first [break]: the first
    segment that touches an end of the chain is attached and removed.  [insert] with
    one argument raises TypeError (line 181). *)
Fixpoint attach (b : list Z) (segs : list seg) : result (option (list Z * list seg)) :=
  match segs with
  | [] => Ok None
  | (p0, p1) :: r =>
      if p0 =? last_pt b then Ok (Some (b ++ [p1], r))
      else if p1 =? last_pt b then Ok (Some (b ++ [p0], r))
      else if p0 =? first_pt b then Err TypeError
      else if p1 =? first_pt b then Ok (Some (p0 :: b, r))
      else do o <- attach b r; Ok (option_map (fun x => (fst x, (p0, p1) :: snd x)) o)
  end.

(** verdat.py:170-196, the [while not done] loop: (closed?, chain, segments left). *)
Fixpoint grow (fuel : nat) (b : list Z) (segs : list seg) : result (bool * list Z * list seg) :=
  match fuel with
  | O => Err FuelExhausted
  | S f =>
      do o <- attach b segs;
      match o with
      | None => Ok (false, b, segs)
      | Some (b', r) => if first_pt b' =? last_pt b' then Ok (true, removelast b', r) else grow f b' r
      end
  end.

(** verdat.py:163-197, the outer loop.  Results in the order found. *)
Fixpoint chains (fuel : nat) (segs : list seg) : result (list (list Z) * list (list Z)) :=
  match fuel with
  | O => match segs with [] => Ok ([], []) | _ => Err FuelExhausted end
  | S f =>
      match segs with
      | [] => Ok ([], [])
      | (p0, p1) :: r =>
          do g <- grow (S (length r)) [p0; p1] r;
          let '(closed, b, remain) := g in
          do rest <- chains f remain;
          Ok (if closed : bool then (b :: fst rest, snd rest) else (fst rest, b :: snd rest))
      end
  end.
Definition order_segments (segs : list seg) : result (list (list Z) * list (list Z)) :=
  chains (length segs) (sort_segs segs).
