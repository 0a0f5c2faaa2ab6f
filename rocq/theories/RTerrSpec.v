(** What a variable on ROMS levels over a staggered grid should answer. *)
From Coq Require Import Reals String.
From Verif Require Import Common TimeModel TimeSpec VariableModel VariableSpec DepthModel DepthSpec WholeModel WholeSpec
  MaskModel GridTypeModel SGridModel SGridSpec SGridInterpModel SGridInterpSpec SWholeModel SWholeSpec RTerrModel.
Open Scope list_scope.
Open Scope R_scope.

(** Height of a level over the mean sea surface, where the bathymetry is [h] and
    the free surface [z]: the two vertical transformations of ROMS. *)
Definition level_height (vt : Z) (hc h z s c : R) : R :=
  if (vt =? 1)%Z then let S := hc * (s - c) + h * c in S + z * (1 + S / h)
  else let S := (hc * s + h * c) / (hc + h) in z + (z + h) * S.
Definition divisor (vt : Z) (hc h : R) : R := if (vt =? 1)%Z then h else hc + h.
(** Depths of the levels below the free surface. *)
Definition level_depths (vt : Z) (hc : R) (curve : list (R * R)) (h z : R) : list R :=
  map (fun sc => z - level_height vt hc h z (fst sc) (snd sc)) curve.
(** The water column over a point, if there is one. *)
Inductive Water (vt : Z) (hc : R) (curve : list (R * R)) (h z : rcell) : option (list R) -> Prop :=
| Dry : h = RMask \/ z = RMask -> Water vt hc curve h z None
| Shallow a b : h = RVal a -> z = RVal b -> divisor vt hc a = 0 -> Water vt hc curve h z None
| Wet a b : h = RVal a -> z = RVal b -> divisor vt hc a <> 0 -> Water vt hc curve h z (Some (level_depths vt hc curve a b)).
Definition RDesc (l : list R) : Prop := forall i j x y, (i < j)%nat -> nth_error l i = Some x -> nth_error l j = Some y -> y < x.

(** Where a depth lies in a column whose first level is the bottom: nowhere, on
    or below the bottom, or the fraction [w] of the way from level [j] up to the next. *)
Inductive seat := Out | Bed | Between (j : nat) (w : R).
Inductive Seats (sbc bbc : bcond) (d : R) : option (list R) -> seat -> Prop :=
| NoWater : Seats sbc bbc d None Out
| InWater l j x y w : nth_error l j = Some x -> nth_error l (S j) = Some y -> y <= d < x -> d = x + w * (y - x) -> Seats sbc bbc d (Some l) (Between j w)
| AtBottom l x : nth_error l 0 = Some x -> x <= d -> bbc = BExtrapolate -> Seats sbc bbc d (Some l) Bed
| BelowBottom l x : nth_error l 0 = Some x -> x <= d -> bbc <> BExtrapolate -> Seats sbc bbc d (Some l) Out
| AboveSurface l y : nth_error l (length l - 1) = Some y -> d < y -> sbc <> BExtrapolate -> Seats sbc bbc d (Some l) Out.

Section Terrain.
  Context (g : sg) (te : rterr) (place_of : R * R -> option (nat * nat * (R * R))) (q : Z) (ex : bool).
  (** The bathymetry over a point. *)
  Inductive Floor : (rspot -> rcell) -> Prop :=
  | FloorAt col expct nr nc f m : Sits g (rt_hloc te) nr nc col expct -> Reads (rt_h te) nr nc f m ->
      Floor (fun s => expct (snap nr nc f m) (fst s, place_of (fst s))).
  (** The free surface over a point at the time asked. *)
  Definition OnEarthR (p : R * R) : Prop := -360 <= fst p <= 360 /\ - (8995 / 100) <= snd p <= 8995 / 100.
  Inductive Surface : (rspot -> rcell) -> Prop :=
  | Still h : rt_zeta te = None -> (forall s, OnEarthR (fst s) -> h s = RVal 0) -> (forall s, ~ OnEarthR (fst s) -> h s = RMask) -> Surface h
  | Moving t v nr nc loc col expct f m qz : rt_zeta te = Some (t, v, (nr, nc), loc) -> Sits g loc nr nc col expct ->
      Holds v (Some (t_data t)) None nr nc (fun u _ => f u) (fun _ => m) -> TimeOk (Some (t_data t)) ex q qz ->
      Surface (fun s => expct (snap nr nc (f qz) m) (fst s, place_of (fst s))).
  (** The column over each point, and where the point lies in it. *)
  Definition Columns (n : nat) (sbc bbc : bcond) (pts : list rspot) (sit : rspot -> seat) : Prop :=
    let r := rt_roms te in
    length (r_sw r) = n /\ length (r_Cw r) = n /\ length (r_srho r) = (n - 1)%nat /\ (2 <= n)%nat /\ Ascending (r_sw r) /\
    (r_vt r = 1 \/ r_vt r = 2)%Z /\
    exists h z, Floor h /\ Surface z /\
    forall s, In s pts -> exists prof, Water (r_vt r) (Q2R (r_hc r)) (combine (map Q2R (r_sw r)) (map Q2R (r_Cw r))) (h s) (z s) prof /\
      (forall l, prof = Some l -> RDesc l) /\ Seats sbc bbc (Q2R (snd s)) prof (sit s).
End Terrain.
(** The data of one time at a seat. *)
Definition blended (f : nat -> nat -> nat -> R) (j : nat) (w : R) (r c : nat) : R := f j r c + w * (f (S j) r c - f j r c).

(** The stretching curve of ROMS: [s] and C(s) rise from -1 at the bottom to 0 at
    the surface. *)
Definition Stretches (l : list Q) : Prop :=
  Ascending l /\ (exists a, nth_error l 0 = Some a /\ (a == -1)%Q) /\ (exists b, nth_error l (length l - 1) = Some b /\ (b == 0)%Q).
