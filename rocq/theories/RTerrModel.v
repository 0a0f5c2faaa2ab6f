(** A variable on the terrain-following levels of ROMS over a staggered grid, from
    the points to the values: ROMS_Depth (gridded/depth.py:628-815, 858-891) with
    its bathymetry and free surface interpolated by the grid (SWholeModel), under
    Variable.at (gridded/variable.py:524-770).
    Over the reals, since the grid's interpolation is.  The stretching curves are
    numbers, two arrays of one length (arrays of length one, which numpy would
    repeat, are not modelled).  What a NaN in a profile does is not modelled
    (RuntimeError stands for it). *)
From Coq Require Import Reals String.
From Verif Require Import Common TimeModel VariableModel DepthModel MaskModel GridTypeModel SGridModel SGridInterpModel SWholeModel.
Open Scope list_scope.
Open Scope nat_scope.

Definition Rleb (x y : R) : bool := if Rle_dec x y then true else false.
Definition Rltb (x y : R) : bool := if Rlt_dec x y then true else false.
(** np.digitize, as in Common. *)
Fixpoint r_up (l : list R) : bool := match l with x :: ((y :: _) as r) => Rleb x y && r_up r | _ => true end.
Fixpoint r_down (l : list R) : bool := match l with x :: ((y :: _) as r) => Rleb y x && r_down r | _ => true end.
Definition r_digitize (x : R) (bins : list R) : result nat :=
  if r_up bins then Ok (searchsorted (fun b => Rleb b x) bins)
  else if r_down bins then Ok (length bins - searchsorted (fun b => Rleb b x) (rev bins))
  else Err ValueError.

(** One row of the answer: the (masked) index and alpha. *)
Definition rrow := (option Z * option R)%type.
(** depth.py:628-723 for one point with its profile; as s_point of DepthModel. *)
Definition rs_point (surf bot : Z) (sbc bbc : bcond) (d : R) (p : option (list R)) : result rrow :=
  match p with
  | None => Ok (None, None)
  | Some prof =>
      do k <- r_digitize d prof;
      let i := (Z.of_nat k - 1)%Z in
      let (a, m) := s_boundary surf bot sbc bbc false i in
      match a with
      | Some v => Ok (if m then (None, None) else (Some i, Some (Q2R v)))
      | None =>
          let idx := DepthModel.clip 0 (Z.of_nat (length prof) - 2) i in
          do x <- py_get prof idx;
          do y <- py_get prof (idx + 1);
          if Req_EM_T (y - x) 0 then Err ValueError
          else let v := ((d - x) / (y - x))%R in
               if negb m && (Rltb v 0 || Rltb 1 v) then Err ValueError
               else Ok (if m then (None, None) else (Some i, Some v))
      end
  end.

(** depth.py:882-890, one level.  The operands are masked arrays, whose division
    masks the points where the divisor is zero. *)
Definition r_level (vt : Z) (hc h zeta s c : R) : result (option R) :=
  if (vt =? 1)%Z then
    let S := (hc * s + h * c - hc * c)%R in
    Ok (if Req_EM_T h 0 then None else Some (- (S + zeta * (1 + S / h)))%R)
  else if (vt =? 2)%Z then
    Ok (if Req_EM_T (hc + h) 0 then None
        else let S := ((hc * s + h * c) / (hc + h))%R in Some (- (zeta + (zeta + h) * S))%R)
  else Err UnboundLocalError.
(** A row is masked as a whole: its levels have one divisor. *)
Fixpoint all_some {A} (l : list (option A)) : option (list A) :=
  match l with
  | [] => Some []
  | Some x :: r => match all_some r with Some y => Some (x :: y) | None => None end
  | None :: _ => None
  end.
(** depth.py:815 and 874-891 for one point: bathymetry and free surface there. *)
Definition r_column (vt : Z) (hc : Q) (curve : list (Q * Q)) (h z : rcell) : result (option (list R)) :=
  do _ <- (if ((vt =? 1) || (vt =? 2))%Z then Ok tt else Err UnboundLocalError);
  match h, z with
  | RMask, _ => Ok None
  | _, RMask => Ok None
  | RVal h, RVal z =>
      do l <- mapM (fun sc => r_level vt (Q2R hc) h z (Q2R (fst sc)) (Q2R (snd sc))) curve;
      Ok (option_map (map (fun d => d + z)%R) (all_some l))
  | _, _ => Err RuntimeError
  end.

Record rterr := mkRT {
  rt_roms : roms;                                   (* s_w, s_rho, Cs_w, Cs_r, hc, vtransform *)
  rt_h : arr rd; rt_hloc : string;                  (* bathymetry and its location *)
  rt_zeta : option (time_obj * nvar * (nat * nat) * string) }.   (* None: Variable.constant(0) *)

(** Variable.constant(0): masked outside its own grid (C86). *)
Definition r_const (p : R * R) : rcell :=
  if Rleb (-360) (fst p) && Rleb (fst p) 360 && Rleb (- (8995 / 100)) (snd p) && Rleb (snd p) (8995 / 100) then RVal 0 else RMask.

Section Terrain.
  Context (g : sg) (find : R * R -> option (Z * Z)) (te : rterr) (q : Z) (ex : bool).
  Definition rh_at (pts : list rspot) : result (list rcell) :=
    stag_at g find (rt_hloc te) [DLon; DLat] (mkNvar [] (fun _ => rt_h te)) [a_r (rt_h te); a_c (rt_h te)] None None q ex pts.
  Definition rz_at (pts : list rspot) : result (list rcell) :=
    match rt_zeta te with
    | None => Ok (map (fun s => r_const (fst s)) pts)
    | Some (t, v, (nr, nc), loc) =>
        stag_at g find loc [DTime; DLon; DLat] v [length (t_data t); nr; nc] (Some t) None q ex pts
    end.
  (** depth.py:878-879; the Variable passes data_shape = (num_levels,). *)
  Definition r_curve : result (list (Q * Q)) :=
    let r := rt_roms te in
    let lay := Nat.eqb (length (r_sw r)) (length (r_srho r)) in
    zipM (fun s c => Ok (s, c)) (if lay then r_srho r else r_sw r) (if lay then r_Cr r else r_Cw r).
  Definition r_profiles (pts : list rspot) : result (list (option (list R))) :=
    do z <- rz_at pts;
    do h <- rh_at pts;
    do cu <- r_curve;
    mapM (fun k => r_column (r_vt (rt_roms te)) (r_hc (rt_roms te)) cu (nth k h RNaN) (nth k z RNaN)) (seq 0 (length pts)).
  (** depth.py:628-723 *)
  Definition r_alphas (sbc bbc : bcond) (pts : list rspot) : result (list rrow) :=
    let nlev := length (r_sw (rt_roms te)) in
    do surf <- argmax (r_sw (rt_roms te));
    do bot <- argmin (r_sw (rt_roms te));
    if Nat.eqb nlev 1 then Ok (map (fun _ => (Some (Z.of_nat surf), Some 0%R)) pts)
    else
      do profs <- r_profiles pts;
      mapM (fun x => rs_point (Z.of_nat surf) (Z.of_nat bot) sbc bbc (Q2R (snd (fst x))) (snd x)) (combine pts profs).
  Definition r_view (sbc bbc : bcond) : aview rspot R :=
    mkAV rspot R (length (r_srho (rt_roms te))) (fun pts =>
      do rows <- r_alphas sbc bbc pts;
      Ok (map fst rows, map (fun x => match snd x with Some a => a | None => 0%R end) rows)).
  (** A variable over (time,) levels or layers; [n] is the number of its levels or
      layers, [nr] x [nc] the size of its arrays. *)
  Definition roms_at (loc : string) (v : nvar) (n nr nc : nat) (time : option time_obj) (sbc bbc : bcond) (pts : list rspot)
    : result (list rcell) :=
    stag_at g find loc (match time with Some _ => [DTime] | None => [] end ++ [DDepth; DLon; DLat]) v
      (match time with Some t => [length (t_data t)] | None => [] end ++ [n; nr; nc]) time (Some (r_view sbc bbc)) q ex pts.
End Terrain.
