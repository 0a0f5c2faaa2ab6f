(** What currents on a staggered grid should be. *)
From Coq Require Import Reals String.
From Verif Require Import Common TimeModel TimeSpec VariableModel DepthModel DepthSpec WholeModel WholeSpec MaskModel GridTypeModel
  SGridModel SGridSpec SGridInterpModel SGridInterpSpec SWholeModel SWholeSpec RTerrModel RTerrSpec VVarModel CurrModel.
Open Scope list_scope.
Open Scope R_scope.

(** The points of a request. *)
Definition Row (d : bool) (row : list Q) (s : rspot) : Prop :=
  (exists x y z, row = [x; y; z] /\ s = ((Q2R x, Q2R y), z)) \/
  (d = false /\ exists x y, row = [x; y] /\ s = ((Q2R x, Q2R y), 0%Q)).

(** A field on the sides of the cells. *)
Definition sides := nat -> nat -> R.
Section Parts.
  Context (g : sg) (place_of : R * R -> option (nat * nat * (R * R))) (w : vertical) (c : component).
  (** What the component holds at the time [q] asked and at the depth of each
      point: a field on the sides with its land mask, or nothing when the point is
      out of the water column. *)
  Inductive Holding (q : Z) (ex : bool) (pts : list rspot) : (rspot -> option sides) -> (nat -> nat -> bool) -> Prop :=
  | HoldsFlat f m q' :
      w = Flat -> Holds (p_var c) (option_map t_data (p_time c)) None (p_nr c) (p_nc c) (fun t _ => f t) (fun _ => m) ->
      TimeOk (option_map t_data (p_time c)) ex q q' -> Holding q ex pts (fun _ => Some (f q')) m
  | HoldsLevels ls sbc bbc f m q' z :
      w = Levels ls (length ls) sbc bbc ->
      Holds (p_var c) (option_map t_data (p_time c)) (Some (length ls)) (p_nr c) (p_nc c) (fun t j => f t (nth j ls 0%Q)) (fun _ => m) ->
      (forall t i j, m i j = false -> RLinearInDepth ls (fun d => f t d i j)) ->
      TimeOk (option_map t_data (p_time c)) ex q q' -> (2 <= length ls)%nat -> Monotone ls ->
      (forall s, In s pts -> DepthAsked ls sbc bbc (snd s) (z s)) -> Holding q ex pts (fun s => Some (f q' (z s))) m
  | HoldsTerrain te n sbc bbc f m q' sit :
      w = Terrain te n sbc bbc ->
      Holds (p_var c) (option_map t_data (p_time c)) (Some n) (p_nr c) (p_nc c) f (fun _ => m) ->
      TimeOk (option_map t_data (p_time c)) ex q q' -> Columns g te place_of q ex n sbc bbc pts sit ->
      Holding q ex pts (fun s => match sit s with
                                 | Out => None
                                 | Bed => Some (f q' 0%nat)
                                 | Between j b => Some (blended (f q') j b)
                                 end) m.
End Parts.
(** The time asked is outside the times of the component. *)
Definition Late (c : component) (r : request) : Prop :=
  exists t, p_time c = Some t /\ StrictlyIncreasing (t_data t) /\ (2 <= length (t_data t))%nat /\ ~ InRange (t_data t) (rq_time r) /\ extrapolating r = false.

(** Speed through one side of a cell: none through a side that is masked or that
    separates land from water. *)
Definition through (F : sides) (m : nat -> nat -> bool) (i j : nat) (here there : bool) : R :=
  if m i j || xorb here there then 0 else F i j.
Section Answers.
  Context (g : sg) (p1 p2 cp : pad * pad).
  (** Land in the cell of row [r] and column [c], and in the neighbours; beyond the
      mask the cell itself is repeated. *)
  Definition dry (r c : nat) : bool := land g (low_extra (fst cp) + r) (low_extra (snd cp) + c).
  Definition dry_before (r c : nat) : bool := land g (low_extra (fst cp) + r) (low_extra (snd cp) + c - 1).
  Definition dry_after (r c : nat) : bool := land g (low_extra (fst cp) + r) (next_in (snd (cm_shape g)) (low_extra (snd cp) + c)).
  Definition dry_below (r c : nat) : bool := land g (low_extra (fst cp) + r - 1) (low_extra (snd cp) + c).
  Definition dry_above (r c : nat) : bool := land g (next_in (fst (cm_shape g)) (low_extra (fst cp) + r)) (low_extra (snd cp) + c).
  (** Speeds through the four sides of the cell (the arrays may be padded). *)
  Definition u_in (F : sides) m (r c : nat) : R := through F m (low_extra (fst p1) + r) (low_extra (snd p1) + c) (dry r c) (dry_before r c).
  Definition u_out (F : sides) m (r c : nat) : R := through F m (low_extra (fst p1) + r) (S (low_extra (snd p1) + c)) (dry r c) (dry_after r c).
  Definition v_in (F : sides) m (r c : nat) : R := through F m (low_extra (fst p2) + r) (low_extra (snd p2) + c) (dry r c) (dry_below r c).
  Definition v_out (F : sides) m (r c : nat) : R := through F m (S (low_extra (fst p2) + r)) (low_extra (snd p2) + c) (dry r c) (dry_above r c).
  (** Inside the cell each speed changes linearly from one side to the other. *)
  Definition u_at (F : option sides) m (pl : option (nat * nat * (R * R))) : rcell :=
    match F, pl with
    | Some F, Some (r, c, (l, _)) => RVal ((1 - l) * u_in F m r c + l * u_out F m r c)
    | _, _ => RMask
    end.
  Definition v_at (F : option sides) m (pl : option (nat * nat * (R * R))) : rcell :=
    match F, pl with
    | Some F, Some (r, c, (_, b)) => RVal ((1 - b) * v_in F m r c + b * v_out F m r c)
    | _, _ => RMask
    end.
End Answers.

(** A grid whose first components sit on the sides crossed along the rows ("edge1")
    and whose second ones on the sides crossed along the columns ("edge2"). *)
Definition Staggered (g : sg) (p1 p2 cp : pad * pad) (u v : component) : Prop :=
  SameShape g /\ g_behavior g = BZero /\
  edge1_padding (g_pads g) = Ok p1 /\ known2 p1 /\ edge2_padding (g_pads g) = Ok p2 /\ known2 p2 /\
  face_padding (g_pads g) = Ok cp /\ known2 cp /\ MaskCovers g cp /\
  isin (p_loc u) edge1_names = true /\ isin (p_loc v) edge2_names = true /\
  (p_nr u >= low_extra (fst p1) + (a_r (g_lon g) - 1))%nat /\ (p_nc u >= low_extra (snd p1) + a_c (g_lon g))%nat /\
  (p_nr v >= low_extra (fst p2) + a_r (g_lon g))%nat /\ (p_nc v >= low_extra (snd p2) + (a_c (g_lon g) - 1))%nat.

(** The answer to a request. *)
Inductive Current (g : sg) (p1 p2 cp : pad * pad) (place_of : R * R -> option (nat * nat * (R * R))) (w : vertical) (u v : component) (r : request)
  : result (list (list rcell)) -> Prop :=
| Blown pts hu mu hv mv :
    Forall2 (Row (deep w)) (rq_pts r) pts ->
    Holding g place_of w u (rq_time r) (extrapolating r) pts hu mu ->
    Holding g place_of w v (rq_time r) (extrapolating r) pts hv mv ->
    Current g p1 p2 cp place_of w u v r
      (Ok [map (fun s => u_at g p1 cp (hu s) mu (place_of (fst s))) pts; map (fun s => v_at g p2 cp (hv s) mv (place_of (fst s))) pts])
| TooLate pts : Forall2 (Row (deep w)) (rq_pts r) pts -> Late u r -> Current g p1 p2 cp place_of w u v r (Err OutOfTimeRangeError).
(** A history of requests like these, all with [k] numbers per point and the same
    options; components may be asked on their own. *)
Definition Asks (g : sg) (p1 p2 cp : pad * pad) (find : R * R -> option (Z * Z)) (place_of : R * R -> option (nat * nat * (R * R))) (w : vertical) (u v : component) (k o : nat)
  (op : vec_op component) : Prop :=
  match op with
  | VAt _ r => rq_opts r = o /\ (forall row, In row (rq_pts r) -> length row = k) /\
      (exists a, Current g p1 p2 cp place_of w u v r a) /\
      forall pts, Forall2 (Row (deep w)) (rq_pts r) pts -> Finds g find place_of (map fst pts)
  | VComp _ (Call r) => rq_opts r = o /\ forall row, In row (rq_pts r) -> length row = k
  | VComp _ (SetData _) => False
  end.
Definition Answered (g : sg) (p1 p2 cp : pad * pad) (place_of : R * R -> option (nat * nat * (R * R))) (w : vertical) (u v : component)
  (op : vec_op component) (a : option (result (list (list rcell)))) : Prop :=
  match op with
  | VAt _ r => exists b, a = Some b /\ Current g p1 p2 cp place_of w u v r b /\ forall b', Current g p1 p2 cp place_of w u v r b' -> b' = b
  | VComp _ _ => a = None
  end.
