(** Model of gridded/pysgrid/sgrid.py, the geometric side: logical
    coordinates and interpolation, over the real numbers (the code computes
    with floats; rounding is not modelled). *)
From Coq Require Import Reals String.
From Verif Require Import Common DepthModel MaskModel GridTypeModel SGridModel.
Open Scope R_scope.

Definition coef := (R * R * R * R)%type.

(** sgrid.py:556-579.  [A] is the matrix of the code, [AI] its inverse. *)
Definition A_matrix : list (list Z) := [[1; 0; 0; 0]; [1; 0; 1; 0]; [1; 1; 1; 1]; [1; 1; 0; 0]]%Z.
Definition AI_matrix : list (list Z) := [[1; 0; 0; 0]; [-1; 0; 0; 1]; [-1; 1; 0; 0]; [1; -1; 1; -1]]%Z.
Definition dotZ (u : list Z) (v : list R) : R :=
  fold_right Rplus 0 (map (fun uv => IZR (fst uv) * snd uv) (combine u v)).
Definition mat_vec (m : list (list Z)) (v : list R) : list R := map (fun row => dotZ row v) m.
Definition to_coef (l : list R) : coef := (nth 0 l 0, nth 1 l 0, nth 2 l 0, nth 3 l 0).
(** Coefficients of one cell from the four values of get_variable_by_index. *)
Definition cell_coef (vals : list R) : coef := to_coef (mat_vec AI_matrix vals).

(** sgrid.py:1283-1342, one point.  [LNaN]: the plain numpy divisions of the
    linear case met a zero denominator, the result is nan or infinite.  [LAny]: a
    masked-array operation of the quadratic case met a negative radicand, or a zero
    denominator of the root that is used; the number it leaves behind is not
    modelled.  [np.choose] looks at the stored flags only, so a first root with m1
    outside [0, 1] is dropped whatever l1 is. *)
Inductive lm := LM (l m : R) | LNaN | LAny.
Definition ratio (x a0 a2 m a1 a3 : R) : option R :=
  let den := a1 + a3 * m in
  if Req_EM_T den 0 then None else Some ((x - a0 - a2 * m) / den).
Definition off01 (t : R) : bool :=
  if Rlt_dec t 0 then true else if Rgt_dec t 1 then true else false.
Definition x_to_l (x y : R) (a b : coef) : lm :=
  let '(a0, a1, a2, a3) := a in
  let '(b0, b1, b2, b3) := b in
  let aa := a3 * b2 - a2 * b3 in
  let bb := a3 * b0 - a0 * b3 + a1 * b2 - a2 * b1 + x * b3 - y * a3 in
  let cc := a1 * b0 - a0 * b1 + x * b1 - y * a1 in
  if Req_EM_T aa 0 then
    if Req_EM_T bb 0 then LNaN
    else let m := - cc / bb in
         match ratio x a0 a2 m a1 a3 with Some l => LM l m | None => LNaN end
  else
    let k := bb * bb - 4 * aa * cc in
    if Rlt_dec k 0 then LAny
    else
      let det := sqrt k in
      let m1 := (- bb - det) / (2 * aa) in
      let m2 := (- bb + det) / (2 * aa) in
      let second := match ratio x a0 a2 m2 a1 a3 with Some l2 => LM l2 m2 | None => LAny end in
      match ratio x a0 a2 m1 a1 a3 with
      | Some l1 => if off01 l1 || off01 m1 then second else LM l1 m1
      | None => if off01 m1 then second else LAny     (* [t2] alone selects *)
      end.

(** Values of a variable: the stored number and its mask. *)
Record rd := mkRd { d_val : R; d_mask : bool }.
(** Results: a number, nan or infinite, masked, not modelled (see [LAny]). *)
Inductive rcell := RVal (r : R) | RNaN | RMask | RAny.

(** The grid: node coordinates, padding attributes, center mask, and the
    masked_interpolant_behavior attribute. *)
Inductive behavior := BZero | BMirror | BMask | BOther.
Record sg := mkSg {
  g_lon : arr R; g_lat : arr R;
  g_pads : sgrid_pads;
  g_cmask : option (mask_kind * arr mentry);
  g_behavior : behavior }.

(** [_l_coeffs[i, j]] for one cell (sgrid.py:552-582); the arrays have one
    entry per cell. *)
Definition coef_at (a : arr R) (ij : Z * Z) : result coef :=
  if ((0 <=? fst ij) && (fst ij <? Z.of_nat (a_r a) - 1) && (0 <=? snd ij) && (snd ij <? Z.of_nat (a_c a) - 1))%Z
  then do v <- variable_by_index a ij; Ok (cell_coef v)
  else Err IndexError.

(** One point: masked (outside), or its logical offsets. *)
Inductive offs := OMask | OIn (o : lm).
Definition offset (g : sg) (p : R * R) (ij : option (Z * Z)) : result offs :=
  match ij with
  | None => Ok OMask
  | Some ij =>
      do a <- coef_at (g_lon g) ij;
      do b <- coef_at (g_lat g) ij;
      Ok (OIn (x_to_l (fst p) (snd p) a b))
  end.
(** sgrid.py:1254-1281: [indices + (l, m)], one located point. *)
Definition geo_to_logical (g : sg) (p : R * R) (ij : Z * Z) : result (option (R * R)) :=
  do o <- offset g p (Some ij);
  Ok (match o with OIn (LM l m) => Some (IZR (fst ij) + l, IZR (snd ij) + m) | _ => None end).

(** sgrid.py:1227-1230 *)
Definition w_aa (l m : R) := 1 - l - m + l * m.
Definition w_ab (l m : R) := m - l * m.
Definition w_ac (l m : R) := l * m.
Definition w_ad (l m : R) := l - l * m.

(** np.ma.sum over a row of products: masked entries are skipped; masked if
    there is nothing left. *)
Definition ma_sum (l : list (R * bool)) : rcell :=
  if forallb snd l then RMask
  else RVal (fold_right Rplus 0 (map fst (filter (fun x => negb (snd x)) l))).
Definition node_point (v : list rd) (l m : R) : rcell :=
  ma_sum (map (fun vw => (d_val (fst vw) * snd vw, d_mask (fst vw)))
              (combine v [w_aa l m; w_ab l m; w_ac l m; w_ad l m])).

(** ** compute_interpolant, sgrid.py:964-1032
    Rows of values with rows of alphas; a row of alphas is masked, not finite,
    not modelled, or numbers.  The warning of lines 997-1001 is left out. *)
Inductive alpha_row := AMask | ANaN | AAny | ARow (l : list R).
Definition row_sum (vals : list R) (a : alpha_row) : rcell :=
  match a with
  | AMask => RMask
  | ANaN => RNaN
  | AAny => RAny
  | ARow l => RVal (fold_right Rplus 0 (map (fun va => fst va * snd va) (combine vals l)))
  end.
Definition zero_fill (row : list rd) : list R := map (fun d => if d_mask d then 0 else d_val d) row.
(** sgrid.py:951-962: [np.where(values.mask, -values[:, ::-1], values)] on the
    stored numbers. *)
Definition mirror_row (row : list rd) : list R :=
  map (fun dd => if d_mask (fst dd) then - d_val (snd dd) else d_val (fst dd)) (combine row (rev row)).
(** sgrid.py:1017: [np.tile(np.any(values.mask, axis=-1), 2)] written into the
    mask in flat order: entry (i, j) gets the flag of row (w i + j) mod N. *)
Definition any_masked (rows : list (list rd)) (i : nat) : bool := existsb d_mask (nth i rows []).
Definition tiled_mask (rows : list (list rd)) (w i : nat) : bool :=
  existsb (fun j => any_masked rows ((w * i + j) mod length rows)) (seq 0 w).
Definition compute_interpolant (mode : behavior) (rows : list (list rd)) (w : nat) (alphas : list alpha_row)
  : result (list rcell) :=
  match mode with
  | BZero => Ok (map (fun ra => row_sum (zero_fill (fst ra)) (snd ra)) (combine rows alphas))
  | BMirror =>
      if Nat.ltb 2 (length rows) then Err ValueError          (* len(values) > 2 *)
      else if Nat.eqb w 4 then Err ValueError
      else Ok (map (fun ra => row_sum (mirror_row (fst ra)) (snd ra)) (combine rows alphas))
  | BMask =>
      Ok (map (fun ira => let '(i, (row, a)) := ira in
                          if tiled_mask rows w i then RMask else row_sum (map d_val row) a)
              (combine (seq 0 (length rows)) (combine rows alphas)))
  | BOther => Err ValueError
  end.

(** ** interpolate_var_to_points, sgrid.py:1034-1250 *)
(** The variable: its leading dimensions and the 2-D array they select. *)
Record nvar := mkNvar { nv_lead : list nat; nv_at : list nat -> arr rd }.
(** [variable[slices]] followed by the dimension check (sgrid.py:1147-1152);
    [None] as an index adds a dimension. *)
Definition select (v : nvar) (slices : option (list Z)) : result (arr rd) :=
  match slices with
  | None => Err ValueError
  | Some sl => do ix <- VariableModel.resolve (nv_lead v) sl; Ok (nv_at v ix)
  end.

Definition shifted (p : pad * pad) (ij : option (Z * Z)) : result (option (Z * Z)) :=
  match ij with
  | None => do _ <- apply_padding p (0, 0)%Z; Ok None
  | Some ij => do s <- apply_padding p ij; Ok (Some s)
  end.
Definition add2 (a b : Z * Z) : Z * Z := (fst a + fst b, snd a + snd b)%Z.

(** The land/water flag of a (padded) center index; no center mask: water. *)
Definition center_flag (g : sg) (ij : Z * Z) : bool :=
  match g_cmask g with
  | None => false
  | Some (k, m) => convert_entry k (variable_at m ij)
  end.
(** sgrid.py:1166-1192 and 1194-1220: the two values on either side of the
    cell; a value on an edge between land and water is masked. *)
Definition edge_pair (g : sg) (var : arr rd) (idx cidx off : Z * Z) : list rd :=
  let u1 := variable_at var idx in
  let u2 := variable_at var (add2 idx off) in
  let neg := (- fst off, - snd off)%Z in
  let m1 := xorb (center_flag g cidx) (center_flag g (add2 cidx neg)) in
  let m2 := xorb (center_flag g cidx) (center_flag g (add2 cidx off)) in
  [mkRd (d_val u1) (d_mask u1 || m1); mkRd (d_val u2) (d_mask u2 || m2)].
Definition masked_pair : list rd := [mkRd 0 true; mkRd 0 true].

Definition opt_all {A} (l : list (option A)) : bool :=
  forallb (fun o => match o with None => true | Some _ => false end) l.

Definition interpolate (g : sg) (pts : list (R * R)) (ind : list (option (Z * Z)))
  (located alphas_given : bool) (loc : string) (slices : option (list Z)) (v : nvar)
  : result (list rcell) :=
  if located && opt_all ind then Ok (map (fun _ => RMask) ind)
  else
    do os <- mapM (fun pi => offset g (fst pi) (snd pi)) (combine pts ind);
    do po <- padding_by_location (g_pads g) loc;
    match po with
    | None => Err TypeError                                   (* enumerate(None) *)
    | Some p =>
        do idxs <- mapM (shifted p) ind;
        do var <- select v slices;
        if isin loc center_names then
          Ok (map (fun i => match i with
                            | None => RMask
                            | Some ij => let d := variable_at var ij in if d_mask d then RMask else RVal (d_val d)
                            end) idxs)
        else if isin loc edge1_names || isin loc edge2_names then
          do cp <- face_padding (g_pads g);
          do cidxs <- mapM (shifted cp) ind;
          if alphas_given then Err UnboundLocalError
          else
            let e1 := isin loc edge1_names in
            let off := if e1 then (0, 1)%Z else (1, 0)%Z in
            let rows := map (fun ic => match ic with
                                       | (Some i, Some c) => edge_pair g var i c off
                                       | _ => masked_pair
                                       end) (combine idxs cidxs) in
            let alphas := map (fun o => match o with
                                        | OMask => AMask
                                        | OIn LNaN => ANaN
                                        | OIn LAny => AAny
                                        | OIn (LM l m) => let a := if e1 then l else m in ARow [1 - a; a]
                                        end) os in
            compute_interpolant (g_behavior g) rows 2 alphas
        else
          if alphas_given then Err UnboundLocalError
          else if existsb (fun o => match o with OIn LNaN => true | _ => false end) os then Err AssertionError
          else mapM (fun io => match io with
                               | (Some _, OIn LAny) => Ok RAny
                               | (Some ij, OIn (LM l m)) => do vs <- variable_by_index var ij; Ok (node_point vs l m)
                               | _ => Ok RMask
                               end) (combine idxs os)
    end.
