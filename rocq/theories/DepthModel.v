(** Model of gridded/depth.py: the base (surface-only) depth, level depths,
    sigma depths (ROMS and FVCOM) and the factory.

    Depths, levels and coefficients are exact rationals.  The horizontal
    interpolation of bathymetry, zeta and sigma to the points is an input: a
    point carries the already interpolated numbers, [None] where masked. *)
From Coq Require Import String.
From Verif Require Import Common VariableModel.
Open Scope Z_scope.

(** The boundary-condition strings: "mask", "extrapolate", anything else. *)
Inductive bcond := BMask | BExtrapolate | BOther.
Definition bmask (b : bcond) : bool := match b with BMask => true | _ => false end.
Definition bextrap (b : bcond) : bool := match b with BExtrapolate => true | _ => false end.

(** One row of the answer: the (masked) index and the (masked) alpha. *)
Definition drow := (option Z * option Q)%type.

Fixpoint mapM {A B} (f : A -> result B) (l : list A) : result (list B) :=
  match l with
  | [] => Ok []
  | x :: r => do y <- f x; do ys <- mapM f r; Ok (y :: ys)
  end.

(** np.argmin / np.argmax: first extremal position; ValueError when empty. *)
Fixpoint argbest (better : Q -> Q -> bool) (k best : nat) (b : Q) (l : list Q) : nat :=
  match l with
  | [] => best
  | x :: r => if better x b then argbest better (S k) k x r
              else argbest better (S k) best b r
  end.
Definition argmin (l : list Q) : result nat :=
  match l with [] => Err ValueError | x :: r => Ok (argbest Qlt_bool 1 0 x r) end.
Definition argmax (l : list Q) : result nat :=
  match l with [] => Err ValueError | x :: r => Ok (argbest (fun a b => Qlt_bool b a) 1 0 x r) end.

(** ** DepthBase *)
Record base_depth := mkBase {
  b_name : option Z;        (* the name; [from_netCDF] puts an integer here *)
  b_surface : Z; b_bottom : Z }.

(** depth.py:21-38 *)
Definition base_init (name : option Z) (surface bottom : Z) : base_depth :=
  mkBase name surface bottom.
(** depth.py:51-53: [cls(surface_index, ** kwargs)], where the first positional
    parameter of [__init__] is [name].  [kw_name] is a name among the keyword
    arguments (then [name] is given twice); [kw_bottom] likewise. *)
Definition base_from_netCDF (surface : Z) (kw_name : option Z) (kw_bottom : option Z)
  : result base_depth :=
  match kw_name with
  | Some _ => Err TypeError
  | None => Ok (base_init (Some surface) (-1) (match kw_bottom with Some b => b | None => 0 end))
  end.
(** depth.py:967-973 *)
Definition surface_only (surface : Z) : base_depth := base_init None surface 0.
(** depth.py:67-90 *)
Definition base_alphas {P} (surface : Z) (points : list P) : list drow :=
  map (fun _ => (Some surface, Some 0%Q)) points.

(** ** L_Depth *)
(** depth.py:208-298 for one depth, given levels with more than one entry.
    [asc] is [L0 < L1].  The code works on whole arrays; every step is
    entry-wise, and the only exception that can follow the digitize is raised if
    any entry qualifies, as here through [mapM].
    [alphas[indices == -1] = 1] (line 281) comes after the surface mask: masked
    entries compare unequal, the others already hold 1.
    A division by zero would give inf or nan; it is shown not to occur. *)
Definition l_point (levels : list Q) (asc : bool) (sbc bbc : bcond) (d : Q) : result drow :=
  do k <- digitize d levels (negb asc);
  let i := Z.of_nat k - 1 in
  let n := Z.of_nat (length levels) in
  let above := if asc then i =? -1 else i =? n - 1 in
  let below := if asc then i =? n - 1 else i =? -1 in
  let above_alpha := if asc then 1%Q else 0%Q in
  let below_alpha := if asc then 0%Q else 1%Q in
  let a1 := if above then Some above_alpha else None in
  let a2 := if below then Some below_alpha else a1 in
  let m1 := bmask sbc && above in
  let a3 := if negb m1 && (i =? -1) then Some 1%Q else a2 in
  let m2 := m1 || (bmask bbc && below) in
  do a <- match a3 with
          | Some a => Ok a
          | None =>
              do x <- py_get levels i;
              do y <- py_get levels (i + 1);
              if Qeq_bool (y - x) 0 then Err ZeroDivision else Ok ((d - x) / (y - x))%Q
          end;
  Ok (if m2 then (None, None) else (Some i, Some a)).

(** depth.py:208-298.  [data_len] is data_shape[0] ([None]: data_shape is None);
    the boundary conditions are already defaulted.  The points are given by
    their third column. *)
Definition l_alphas (levels : list Q) (data_len : option nat) (sbc bbc : bcond)
  (depths : list Q) : result (list drow) :=
  if match data_len with Some 1%nat => true | _ => false end || Nat.eqb (length levels) 1 then
    do s <- argmin levels; Ok (base_alphas (Z.of_nat s) depths)
  else
    do l0 <- py_get levels 0;
    do l1 <- py_get levels (-1);
    mapM (l_point levels (Qlt_bool l0 l1) sbc bbc) depths.
(** depth.py:35-36: the default conditions. *)
Definition default_sbc := BExtrapolate.
Definition default_bbc := BMask.

(** depth.py:167-189 from the point where the levels are read: the smallest
    entry is overwritten by 0. *)
Fixpoint qset (l : list Q) (k : nat) (v : Q) : list Q :=
  match l, k with
  | [], _ => []
  | _ :: r, O => v :: r
  | x :: r, S k' => x :: qset r k' v
  end.
Definition l_from_levels (levels : list Q) : result (list Q) :=
  do s <- argmin levels; Ok (qset levels s 0).

(** ** S_Depth *)
(** depth.py:725-784 for one (unmasked on entry, [excl] = false) index.  Returns
    the alpha assigned (None: still NaN) and the final mask. *)
Definition s_boundary (surf bot : Z) (sbc bbc : bcond) (excl : bool) (i : Z) : option Q * bool :=
  let above := if surf =? 0 then i <? surf else i >=? surf in
  let below := if surf =? 0 then i >=? bot else i <? bot in
  let a1 := if above then Some (if surf =? 0 then 1%Q else 0%Q) else None in
  let a2 := if below then Some (if surf =? 0 then 0%Q else 1%Q) else a1 in
  let m0 := excl || (above || below) in
  let m1 := if bextrap sbc && above then false else m0 in
  let m2 := if bmask sbc && above then true else m1 in
  let m3 := if bextrap bbc && below then false else m2 in
  let m4 := if bmask bbc && below then true else m3 in
  (a2, m4 || excl).

Definition clip (lo hi x : Z) : Z := Z.min (Z.max x lo) hi.

(** depth.py:628-723 for one point with its depth profile ([None]: masked
    profile, i.e. off the grid; the index computed from the values under the mask is
    never seen, and is skipped here).  A zero or inverted layer gives nan or inf:
    both are caught by the checks at the end (ValueError). *)
Definition s_point (surf bot : Z) (sbc bbc : bcond) (p : Q * option (list Q)) : result drow :=
  match snd p with
  | None => Ok (None, None)
  | Some prof =>
      let d := fst p in
      do k <- digitize d prof false;
      let i := Z.of_nat k - 1 in
      let (a, m) := s_boundary surf bot sbc bbc false i in
      match a with
      | Some v => Ok (if m then (None, None) else (Some i, Some v))
      | None =>
          let idx := clip 0 (Z.of_nat (length prof) - 2) i in
          do x <- py_get prof idx;
          do y <- py_get prof (idx + 1);
          if Qeq_bool (y - x) 0 then Err ValueError
          else let v := ((d - x) / (y - x))%Q in
               if negb m && (Qlt_bool v 0 || Qlt_bool 1 v) then Err ValueError
               else Ok (if m then (None, None) else (Some i, Some v))
      end
  end.

(** depth.py:628-723.  [profile n p] is the row of get_depth_profile for data
    of first dimension [n] at point [p] ([None]: masked). *)
Definition s_alphas {P} (depth : P -> Q) (profile : nat -> P -> result (option (list Q)))
  (surf bot : nat) (nlev nlay : nat) (data_len : option nat)
  (sbc bbc : bcond) (pts : list P) : result (list drow) :=
  if match data_len with Some 1%nat => true | _ => false end || Nat.eqb nlev 1 then
    Ok (base_alphas (Z.of_nat surf) pts)
  else match data_len with
  | None => Err TypeError
  | Some n =>
      if negb (Nat.eqb n nlev) && negb (Nat.eqb n nlay) then Err ValueError
      else
        do profs <- mapM (fun p => do l <- profile n p; Ok (depth p, l)) pts;
        mapM (s_point (Z.of_nat surf) (Z.of_nat bot) sbc bbc) profs
  end.

(** ** Profiles *)
(** depth.py:874-891, one level with coordinate [s] and stretching [c]. *)
Definition roms_s (vt : Z) (hc h zeta s c : Q) : result Q :=
  if vt =? 1 then
    let S := (hc * s + h * c - hc * c)%Q in
    Ok (- (S + zeta * (1 + S / h)))%Q
  else if vt =? 2 then
    let S := ((hc * s + h * c) / (hc + h))%Q in
    Ok (- (zeta + (zeta + h) * S))%Q
  else Err UnboundLocalError.
(** depth.py:925-947 *)
Definition fvcom_s (h zeta sigma : Q) : Q := (- (zeta + (zeta + h) * sigma))%Q.

Record roms := mkROMS {
  r_sw : list Q; r_srho : list Q; r_Cw : list Q; r_Cr : list Q; r_hc : Q; r_vt : Z }.
Fixpoint zipM {A B C} (f : A -> B -> result C) (a : list A) (b : list B) : result (list C) :=
  match a, b with
  | x :: a', y :: b' => do z <- f x y; do zs <- zipM f a' b'; Ok (z :: zs)
  | [], [] => Ok []
  | _, _ => Err ValueError                     (* shapes do not broadcast *)
  end.
(** depth.py:812-830 with 874-891: the profile at a point with bathymetry
    [h] and surface elevation [zeta]. *)
Definition roms_profile (r : roms) (data_len : nat) (h zeta : Q) : result (list Q) :=
  let lay := Nat.eqb data_len (length (r_srho r)) in
  let s_c := if lay then r_srho r else r_sw r in
  let C_s := if lay then r_Cr r else r_Cw r in
  zipM (fun s c => do v <- roms_s (r_vt r) (r_hc r) h zeta s c; Ok (v + zeta)%Q) s_c C_s.
Definition fvcom_profile (sigma : list Q) (h zeta : Q) : list Q :=
  map (fun s => (fvcom_s h zeta s + zeta)%Q) sigma.

(** A point of a sigma axis: its depth, and bathymetry and zeta there. *)
Record spoint := mkSP { sp_depth : Q; sp_hz : option (Q * Q) }.

(** ROMS_Depth.interpolation_alphas: depth.py:628-723 with 858-872. *)
Definition roms_alphas (r : roms) (data_len : option nat) (sbc bbc : bcond) (pts : list spoint)
  : result (list drow) :=
  do surf <- argmax (r_sw r);
  do bot <- argmin (r_sw r);
  s_alphas sp_depth
    (fun n p => match sp_hz p with
                | None => Ok None
                | Some (h, z) => do l <- roms_profile r n h z; Ok (Some l)
                end)
    surf bot (length (r_sw r)) (length (r_srho r)) data_len sbc bbc pts.

(** FVCOM_Depth.interpolation_alphas: depth.py:628-723 with 913-947.  A point
    carries its sigma levels and sigma layers, interpolated from the nodes;
    [siglev0] is the first node's column of siglev. *)
Record fpoint := mkFP { fp_depth : Q; fp_hz : option (Q * Q); fp_lev : list Q; fp_lay : list Q }.
Definition fvcom_alphas (siglev0 : list Q) (nlay : nat) (data_len : option nat) (sbc bbc : bcond)
  (pts : list fpoint) : result (list drow) :=
  do surf <- argmax siglev0;
  do bot <- argmin siglev0;
  s_alphas fp_depth
    (fun n p => match fp_hz p with
                | None => Ok None
                | Some (h, z) =>
                    Ok (Some (fvcom_profile (if Nat.eqb n nlay then fp_lay p else fp_lev p) h z))
                end)
    surf bot (length siglev0) nlay data_len sbc bbc pts.

(** A depth axis as the Variable sees it: masked alphas are never used there. *)
Definition view_rows (r : result (list drow)) : result (list (option Z) * list Q) :=
  do rows <- r;
  Ok (map fst rows, map (fun x => match snd x with Some a => a | None => 0%Q end) rows).
Definition l_view {P} (dep : P -> Q) (levels : list Q) (data_len : option nat) (sbc bbc : bcond)
  : depth_view (P := P) :=
  mkDV (length levels - 1) (fun pts => view_rows (l_alphas levels data_len sbc bbc (map dep pts))).
Definition roms_view (r : roms) (data_len : option nat) (sbc bbc : bcond) : depth_view (P := spoint) :=
  mkDV (length (r_srho r)) (fun pts => view_rows (roms_alphas r data_len sbc bbc pts)).

(** ** Factory (depth.py:975-1022)
    [avail] is the list of _can_create_from_netCDF answers for
    sd_types + ld_types; the answer is the position of the chosen class, or
    None for the surface-only fallback. *)
Fixpoint argtrue (k : nat) (l : list bool) : nat :=
  match l with [] => O | true :: _ => k | false :: r => argtrue (S k) r end.
Definition count_true (l : list bool) : nat := length (filter (fun b => b) l).
Definition depth_factory {T} (typs : list T) (can : T -> bool) : result (option T) :=
  let avail := map can typs in
  if negb (existsb (fun b => b) avail) then Ok None
  else match nth_error typs (argtrue 0 avail) with
       | None => Err IndexError
       | Some t => if Nat.ltb 1 (count_true avail) then Err ValueError else Ok (Some t)
       end.
Inductive depth_class := ROMS_Depth | FVCOM_Depth | L_Depth.
Definition sd_ld_types := [ROMS_Depth; FVCOM_Depth; L_Depth].

(** depth.py:585-607 and 157-165: which classes a file supports.  [zeta] is
    optional for the sigma kinds.  The search itself is modelled in
    UtilModel; here only which roles were found. *)
Definition can_create_sigma (found : list (string * bool)) : bool :=
  forallb (fun kv => snd kv || String.eqb (fst kv) "zeta") found.
