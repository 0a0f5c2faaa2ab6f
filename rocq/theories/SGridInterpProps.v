(** C41-C45: logical coordinates and interpolation on structured grids.
    Real arithmetic: the theorems here depend on the axioms of Coq's Reals. *)
From Coq Require Import Reals Lra String.
From Verif Require Import Common CommonProofs DepthModel MaskModel GridTypeModel SGridModel SGridSpec
  SGridInterpModel SGridInterpSpec SGridInterpProofs SGridInterpRun.
Open Scope R_scope.

(** A 3 x 3 grid of nodes: the first column of cells are trapezoids, the
    second parallelograms. *)
Definition ex_lon (r c : nat) : R := match c with O => 0 | S O => 2 - INR r / 4 | _ => 4 - INR r / 4 end.
Definition ex_lat (r c : nat) : R := INR r.
Definition ex_pads : sgrid_pads := mkPads (3, 3)%nat None None PSUnset PSUnset PSUnset.
Definition ex_g : sg := mkSg (mkArr 3 3 ex_lon) (mkArr 3 3 ex_lat) ex_pads None BZero.
Definition ex_ps : list located :=
  [((9/10, 1/5), Some (0%nat, 0%nat, (18/39, 1/5))); ((100, 100), None); ((11/4, 1), Some (1%nat, 1%nat, (1/2, 0)))].
Ltac geometry :=
  unfold Unit, Convex, ConvexCCW, ConvexCW, EastAlongColumns, place, bilin, turn, cell_quad, ex_g, ex_lon, ex_lat;
  cbn [q00 q01 q10 q11 fst snd g_lon g_lat a_at INR].
Lemma ex_placed : Forall (WellPlaced ex_g) ex_ps.
Proof.
  unfold ex_ps. repeat apply Forall_cons; [| | |apply Forall_nil]; unfold WellPlaced; cbn [snd fst]; [|exact I|];
    (split; [split; cbn; lia|]; split; [geometry; lra|]; split; [geometry; f_equal; field|]; split; geometry; left; repeat split; lra).
Qed.

(** ** C41 *)
(** The four node weights, in the order of the values they multiply. *)
Theorem c41_weights l m :
  w_aa l m + w_ab l m + w_ac l m + w_ad l m = 1 /\
  (Unit l m -> 0 <= w_aa l m <= 1 /\ 0 <= w_ab l m <= 1 /\ 0 <= w_ac l m <= 1 /\ 0 <= w_ad l m <= 1) /\
  (w_aa 0 0, w_ab 0 0, w_ac 0 0, w_ad 0 0) = (1, 0, 0, 0) /\ (w_aa 0 1, w_ab 0 1, w_ac 0 1, w_ad 0 1) = (0, 1, 0, 0) /\
  (w_aa 1 1, w_ab 1 1, w_ac 1 1, w_ad 1 1) = (0, 0, 1, 0) /\ (w_aa 1 0, w_ab 1 0, w_ac 1 0, w_ad 1 0) = (0, 0, 0, 1).
Proof.
  unfold w_aa, w_ab, w_ac, w_ad. split; [ring|]. split.
  - intros [Hl Hm].
    assert (0 <= l * m) by (apply Rmult_le_pos; lra). assert (0 <= l * (1 - m)) by (apply Rmult_le_pos; lra).
    assert (0 <= (1 - l) * m) by (apply Rmult_le_pos; lra). assert (0 <= (1 - l) * (1 - m)) by (apply Rmult_le_pos; lra).
    repeat split; lra.
  - repeat split; repeat (apply f_equal2); ring.
Qed.
Print Assumptions c41_weights.

(** Node data: the whole result, for any points whose place is known.  Points
    outside are masked; masked corner values count as 0, and a point with four
    masked corners is masked. *)
Theorem c41_node_values g ps located_ loc var : SameShape g -> Forall (WellPlaced g) ps ->
  isin loc node_names = true -> node_padding (g_pads g) = (PadNone, PadNone) ->
  a_r var = a_r (g_lon g) -> a_c var = a_c (g_lon g) ->
  interpolate g (map fst ps) (map where_ ps) located_ false loc (Some []) (flat2 var) = Ok (map (node_expected var) ps).
Proof. intros. apply run_node; assumption. Qed.
Print Assumptions c41_node_values.

(** Consequences for one placed point, with unmasked data. *)
Lemma node_unmasked var p r c l m : (forall i j, d_mask (a_at var i j) = false) ->
  node_expected var (p, Some (r, c, (l, m))) =
  RVal (bilin (d_val (a_at var r c)) (d_val (a_at var r (S c))) (d_val (a_at var (S r) c)) (d_val (a_at var (S r) (S c))) l m).
Proof. intros H. unfold node_expected, or0. cbn [snd]. rewrite !H. reflexivity. Qed.
Definition frac (b : bool) : R := if b then 1 else 0.
Definition step (b : bool) : nat := if b then 1 else 0.
Theorem c41_exact_at_nodes g located_ loc var r c (dr dc : bool) : SameShape g ->
  isin loc node_names = true -> node_padding (g_pads g) = (PadNone, PadNone) ->
  a_r var = a_r (g_lon g) -> a_c var = a_c (g_lon g) ->
  IsCell (a_r (g_lon g)) (a_c (g_lon g)) r c -> Convex (cell_quad g r c) -> EastAlongColumns (cell_quad g r c) ->
  d_mask (a_at var (r + step dr) (c + step dc)) = false ->
  interpolate g [(a_at (g_lon g) (r + step dr) (c + step dc), a_at (g_lat g) (r + step dr) (c + step dc))]
    [Some (Z.of_nat r, Z.of_nat c)] located_ false loc (Some []) (flat2 var)
  = Ok [RVal (d_val (a_at var (r + step dr) (c + step dc)))].
Proof.
  intros HS Hl Hn Hr Hc Hcell HC HE Hm.
  pose proof (c41_node_values g [((a_at (g_lon g) (r + step dr) (c + step dc), a_at (g_lat g) (r + step dr) (c + step dc)), Some (r, c, (frac dc, frac dr)))]
    located_ loc var HS) as T.
  assert (W : Forall (WellPlaced g) [((a_at (g_lon g) (r + step dr) (c + step dc), a_at (g_lat g) (r + step dr) (c + step dc)), Some (r, c, (frac dc, frac dr)))]).
  { constructor; [|constructor]. unfold WellPlaced. cbn [fst snd]. split; [exact Hcell|]. split; [destruct dr, dc; unfold Unit, frac; lra|].
    split; [|split; assumption]. unfold place, cell_quad, bilin. cbn [q00 q01 q10 q11 fst snd].
    destruct dr, dc; cbn [step frac]; rewrite ?Nat.add_0_r, ?Nat.add_1_r; f_equal; ring. }
  specialize (T W Hl Hn Hr Hc). cbn [map where_ snd fst] in T. rewrite T. f_equal. f_equal.
  unfold node_expected. cbn [snd].
  destruct dr, dc; cbn [step frac] in *; rewrite ?Nat.add_0_r, ?Nat.add_1_r in *; rewrite Hm; rewrite ?andb_false_r; cbn [andb]; rewrite ?andb_false_r; cbn [andb];
    f_equal; unfold bilin, or0; rewrite Hm; ring.
Qed.
Print Assumptions c41_exact_at_nodes.

(** A field that is affine in longitude and latitude is reproduced at every
    point inside the grid. *)
Theorem c41_affine_exact g ps located_ loc var k kx ky : SameShape g -> Forall (WellPlaced g) ps ->
  isin loc node_names = true -> node_padding (g_pads g) = (PadNone, PadNone) ->
  a_r var = a_r (g_lon g) -> a_c var = a_c (g_lon g) ->
  (forall i j, a_at var i j = mkRd (k + kx * a_at (g_lon g) i j + ky * a_at (g_lat g) i j) false) ->
  interpolate g (map fst ps) (map where_ ps) located_ false loc (Some []) (flat2 var) =
  Ok (map (fun x => match snd x with None => RMask | Some _ => RVal (k + kx * fst (fst x) + ky * snd (fst x)) end) ps).
Proof.
  intros HS HP Hl Hn Hr Hc Hv. rewrite c41_node_values by assumption. f_equal. apply map_ext_in. intros x Hx.
  rewrite Forall_forall in HP. specialize (HP x Hx). destruct x as [p [[[r c] [l m]]|]]; [|reflexivity].
  rewrite node_unmasked by (intros; rewrite Hv; reflexivity). cbn [snd fst]. rewrite !Hv. cbn [d_val].
  unfold WellPlaced in HP. cbn [snd fst] in HP. destruct HP as (_ & _ & <- & _). f_equal. unfold place, cell_quad, bilin. cbn [q00 q01 q10 q11 fst snd]. ring.
Qed.
Print Assumptions c41_affine_exact.

(** A field bilinear in the logical coordinates of the cell is reproduced, and
    values never leave the range of the four corners. *)
Theorem c41_bilinear_and_bounded var p r c l m : (forall i j, d_mask (a_at var i j) = false) ->
  (forall k0 k1 k2 k3,
     (forall dr dc, d_val (a_at var (r + step dr) (c + step dc)) = k0 + k1 * frac dc + k2 * frac dr + k3 * frac dc * frac dr) ->
     node_expected var (p, Some (r, c, (l, m))) = RVal (k0 + k1 * l + k2 * m + k3 * l * m)) /\
  (forall lo hi, Unit l m -> (forall dr dc, lo <= d_val (a_at var (r + step dr) (c + step dc)) <= hi) ->
     exists v, node_expected var (p, Some (r, c, (l, m))) = RVal v /\ lo <= v <= hi).
Proof.
  intros H. rewrite node_unmasked by exact H. split.
  - intros k0 k1 k2 k3 E. pose proof (E false false) as E1. pose proof (E false true) as E2. pose proof (E true false) as E3. pose proof (E true true) as E4.
    cbn [step frac] in *. rewrite ?Nat.add_0_r, ?Nat.add_1_r in *. rewrite E1, E2, E3, E4. f_equal. unfold bilin. ring.
  - intros lo hi [Hl Hm] E. pose proof (E false false) as E1. pose proof (E false true) as E2. pose proof (E true false) as E3. pose proof (E true true) as E4.
    cbn [step] in *. rewrite ?Nat.add_0_r, ?Nat.add_1_r in *. eexists. split; [reflexivity|]. unfold bilin.
    set (v1 := d_val (a_at var r c)) in *. set (v2 := d_val (a_at var r (S c))) in *. set (v3 := d_val (a_at var (S r) c)) in *. set (v4 := d_val (a_at var (S r) (S c))) in *.
    assert (M : forall t u v, 0 <= t <= 1 -> lo <= u <= hi -> lo <= v <= hi -> lo <= (1 - t) * u + t * v <= hi).
    { intros t u v Ht Hu Hv. assert (0 <= (1 - t) * (u - lo)) by (apply Rmult_le_pos; lra). assert (0 <= t * (v - lo)) by (apply Rmult_le_pos; lra).
      assert (0 <= (1 - t) * (hi - u)) by (apply Rmult_le_pos; lra). assert (0 <= t * (hi - v)) by (apply Rmult_le_pos; lra). lra. }
    apply M; [lra|apply M; lra|apply M; lra].
Qed.
Print Assumptions c41_bilinear_and_bounded.

(** Edge data: the two values on opposite sides of the cell, across the columns
    for edge1 and across the rows for edge2 (default behaviour "zero").  A value
    on an edge between land and water counts as 0. *)
Theorem c41_edge1_values g ps located_ loc var p cp : SameShape g -> Forall (WellPlaced g) ps ->
  isin loc edge1_names = true -> edge1_padding (g_pads g) = Ok p -> known2 p ->
  face_padding (g_pads g) = Ok cp -> known2 cp -> MaskCovers g cp ->
  (a_r var >= low_extra (fst p) + (a_r (g_lon g) - 1))%nat -> (a_c var >= low_extra (snd p) + a_c (g_lon g))%nat ->
  g_behavior g = BZero ->
  interpolate g (map fst ps) (map where_ ps) located_ false loc (Some []) (flat2 var) = Ok (map (edge1_expected g var p cp) ps).
Proof.
  intros HS HP Hl Hp Hk Hcp Hkc HM Hr Hc Hb. destruct (located_ && opt_all (map where_ ps)) eqn:E.
  { apply run_outside; [|exact E]. intros x Hx. unfold edge1_expected. rewrite Hx. reflexivity. }
  destruct (a_c (g_lon g)) as [|nc] eqn:Ec.
  { assert (N : forall x, In x ps -> snd x = None).
    { intros x Hx. rewrite Forall_forall in HP. specialize (HP x Hx). destruct x as [q [[[r c] [l m]]|]]; [|reflexivity].
      unfold WellPlaced in HP. cbn [snd] in HP. destruct HP as ((_ & H) & _). lia. }
    rewrite (run_edge g ps located_ loc var HS HP true p cp) by assumption. rewrite Hb. unfold compute_interpolant. f_equal. rewrite combine_same, map_map.
    apply map_ext_in. intros x Hx. cbn [fst snd]. unfold alpha_of, edge1_expected. rewrite (N x Hx). reflexivity. }
  rewrite (run_edge g ps located_ loc var HS HP true p cp) by assumption.
  apply (edge_zero g ps var HP true); try assumption; lia.
Qed.
Print Assumptions c41_edge1_values.
Theorem c41_edge2_values g ps located_ loc var p cp : SameShape g -> Forall (WellPlaced g) ps ->
  isin loc edge2_names = true -> edge2_padding (g_pads g) = Ok p -> known2 p ->
  face_padding (g_pads g) = Ok cp -> known2 cp -> MaskCovers g cp ->
  (a_r var >= low_extra (fst p) + a_r (g_lon g))%nat -> (a_c var >= low_extra (snd p) + (a_c (g_lon g) - 1))%nat ->
  g_behavior g = BZero ->
  interpolate g (map fst ps) (map where_ ps) located_ false loc (Some []) (flat2 var) = Ok (map (edge2_expected g var p cp) ps).
Proof.
  intros HS HP Hl Hp Hk Hcp Hkc HM Hr Hc Hb. destruct (located_ && opt_all (map where_ ps)) eqn:E.
  { apply run_outside; [|exact E]. intros x Hx. unfold edge2_expected. rewrite Hx. reflexivity. }
  destruct (a_r (g_lon g)) as [|nr] eqn:Er.
  { assert (N : forall x, In x ps -> snd x = None).
    { intros x Hx. rewrite Forall_forall in HP. specialize (HP x Hx). destruct x as [q [[[r c] [l m]]|]]; [|reflexivity].
      unfold WellPlaced in HP. cbn [snd] in HP. destruct HP as ((H & _) & _). lia. }
    rewrite (run_edge g ps located_ loc var HS HP false p cp) by assumption. rewrite Hb. unfold compute_interpolant. f_equal. rewrite combine_same, map_map.
    apply map_ext_in. intros x Hx. cbn [fst snd]. unfold alpha_of, edge2_expected. rewrite (N x Hx). reflexivity. }
  rewrite (run_edge g ps located_ loc var HS HP false p cp) by assumption.
  apply (edge_zero g ps var HP false); try assumption; lia.
Qed.
Print Assumptions c41_edge2_values.
(** Center data: the value of the cell itself. *)
Theorem c41_center_values g ps located_ loc var p : SameShape g -> Forall (WellPlaced g) ps ->
  isin loc center_names = true -> face_padding (g_pads g) = Ok p -> known2 p ->
  (a_r var >= low_extra (fst p) + (a_r (g_lon g) - 1))%nat -> (a_c var >= low_extra (snd p) + (a_c (g_lon g) - 1))%nat ->
  interpolate g (map fst ps) (map where_ ps) located_ false loc (Some []) (flat2 var) = Ok (map (center_expected var p) ps).
Proof. intros. apply run_center; assumption. Qed.
Print Assumptions c41_center_values.

(** Two documented ways of calling do not work: without [slices] every variable
    is refused, and with precomputed [alphas] node and edge data raise. *)
Theorem c41_default_slices g ps located_ loc var : SameShape g -> Forall (WellPlaced g) ps ->
  isin loc node_names = true -> node_padding (g_pads g) = (PadNone, PadNone) ->
  located_ && opt_all (map where_ ps) = false ->
  interpolate g (map fst ps) (map where_ ps) located_ false loc None var = Err ValueError.
Proof.
  intros HS HP Hl Hn E. unfold interpolate. rewrite E, (offsets_placed g ps HS HP). cbn [bind].
  unfold padding_by_location. rewrite Hl. cbn [bind]. rewrite Hn, shifted_all by (split; discriminate). reflexivity.
Qed.
Print Assumptions c41_default_slices.
Theorem c41_call_forms_refuted : exists g ps var,
  SameShape g /\ Forall (WellPlaced g) ps /\ a_r var = a_r (g_lon g) /\ a_c var = a_c (g_lon g) /\
  interpolate g (map fst ps) (map where_ ps) false false "node" None (flat2 var) = Err ValueError /\
  interpolate g (map fst ps) (map where_ ps) false true "node" (Some []) (flat2 var) = Err UnboundLocalError.
Proof.
  exists ex_g, ex_ps, (mkArr 3 3 (fun r c => mkRd (INR r) false)). split; [split; reflexivity|]. split; [apply ex_placed|].
  split; [reflexivity|]. split; [reflexivity|]. split.
  - apply c41_default_slices; [split; reflexivity|apply ex_placed|reflexivity|reflexivity|reflexivity].
  - unfold interpolate. cbn [andb]. rewrite (offsets_placed ex_g ex_ps (conj eq_refl eq_refl) ex_placed). reflexivity.
Qed.
Print Assumptions c41_call_forms_refuted.

Example c41_example :
  interpolate ex_g (map fst ex_ps) (map where_ ex_ps) false false "node" (Some [])
    (flat2 (mkArr 3 3 (fun r c => mkRd (1 + 10 * ex_lon r c + 2 * ex_lat r c) false))) = Ok [RVal (104/10); RMask; RVal (61/2)].
Proof.
  rewrite (c41_affine_exact ex_g ex_ps false "node" _ 1 10 2 (conj eq_refl eq_refl) ex_placed) by reflexivity.
  cbn [map ex_ps snd fst]. repeat (f_equal; try lra).
Qed.

(** ** C42 *)
(** The matrix whose inverse is taken, and its inverse. *)
Theorem c42_inverse_matrix v0 v1 v2 v3 :
  mat_vec A_matrix (mat_vec AI_matrix [v0; v1; v2; v3]) = [v0; v1; v2; v3] /\
  mat_vec AI_matrix (mat_vec A_matrix [v0; v1; v2; v3]) = [v0; v1; v2; v3].
Proof. unfold mat_vec, dotZ. cbn -[IZR]. split; repeat (apply f_equal2; [ring|]); reflexivity. Qed.
Print Assumptions c42_inverse_matrix.

(** Whatever is computed for a cell maps back to the point (no convexity
    needed). *)
Theorem c42_maps_back q p l m :
  x_to_l (fst p) (snd p) (cell_coef (quad_lon q)) (cell_coef (quad_lat q)) = LM l m -> place q l m = p.
Proof. apply quad_back. Qed.
Print Assumptions c42_maps_back.
(** In a convex cell every point has one place, and the code finds it. *)
Theorem c42_finds_the_place q p l0 m0 l m : Convex q -> Unit l0 m0 -> place q l0 m0 = p ->
  x_to_l (fst p) (snd p) (cell_coef (quad_lon q)) (cell_coef (quad_lat q)) = LM l m -> (l, m) = (l0, m0).
Proof. intros. destruct (quad_exact q p l0 m0 l m) as [-> ->]; auto. Qed.
Print Assumptions c42_finds_the_place.
Theorem c42_unique_place q l m l' m' : Convex q -> Unit l m -> Unit l' m' -> place q l m = place q l' m' -> (l, m) = (l', m').
Proof.
  intros HC Hu Hu' E. rewrite !place_ev in E. injection E as E1 E2.
  destruct (convex_inj q l m l' m' HC Hu Hu' E1 E2) as [-> ->]. reflexivity.
Qed.
Print Assumptions c42_unique_place.
(** It is defined when longitude varies along the columns. *)
Theorem c42_defined q p l0 m0 : Convex q -> EastAlongColumns q -> Unit l0 m0 -> place q l0 m0 = p ->
  x_to_l (fst p) (snd p) (cell_coef (quad_lon q)) (cell_coef (quad_lat q)) = LM l0 m0.
Proof. apply quad_defined. Qed.
Print Assumptions c42_defined.
(** For parallelograms the linear branch finds every point of the plane. *)
Theorem c42_parallelogram q x y l m :
  fst (q11 q) - fst (q10 q) = fst (q01 q) - fst (q00 q) -> snd (q11 q) - snd (q10 q) = snd (q01 q) - snd (q00 q) ->
  turn (q00 q) (q01 q) (q10 q) <> 0 -> fst (q01 q) <> fst (q00 q) -> place q l m = (x, y) ->
  x_to_l x y (cell_coef (quad_lon q)) (cell_coef (quad_lat q)) = LM l m.
Proof.
  intros Hx Hy Ht Hne Hp. unfold place in Hp. injection Hp as Px Py. unfold quad_lon, quad_lat. cbn [map]. rewrite !coef_of.
  unfold bilin in Px, Py. unfold turn in Ht.
  set (x0 := fst (q00 q)) in *. set (x1 := fst (q01 q)) in *. set (x2 := fst (q10 q)) in *. set (x3 := fst (q11 q)) in *.
  set (y0 := snd (q00 q)) in *. set (y1 := snd (q01 q)) in *. set (y2 := snd (q10 q)) in *. set (y3 := snd (q11 q)) in *.
  assert (X3 : x3 = x1 + x2 - x0) by lra. assert (Y3 : y3 = y1 + y2 - y0) by lra. clearbody x3 y3. subst x3 y3. clear Hx Hy.
  unfold x_to_l.
  match goal with |- (if Req_EM_T ?t 0 then _ else _) = _ => destruct (Req_EM_T t 0) as [_|Hn] end; [|exfalso; apply Hn; ring].
  match goal with |- (if Req_EM_T ?t 0 then _ else _) = _ => destruct (Req_EM_T t 0) as [H0|Hb] end; [exfalso; apply Ht; rewrite <- H0; ring|].
  cbv zeta. match goal with |- context [ratio _ _ _ ?t _ _] => assert (M : t = m) end.
  { match goal with |- - ?c / ?b = m => assert (E : - c = m * b) by (subst x y; ring); rewrite E; field; exact Hb end. }
  rewrite M. rewrite (ratio_ok _ _ _ _ _ _ l); [reflexivity| |].
  - replace (x1 - x0 + (x1 + x2 - x0 - x2 - x1 + x0) * m) with (x1 - x0) by ring. lra.
  - subst x. ring.
Qed.
Print Assumptions c42_parallelogram.

Example c42_example : let q := mkQuad (0, 0) (2, 0) (0, 1) (1, 1) in
  Convex q /\ EastAlongColumns q /\ place q (1/2) (1/2) = (3/4, 1/2) /\
  x_to_l (3/4) (1/2) (cell_coef (quad_lon q)) (cell_coef (quad_lat q)) = LM (1/2) (1/2).
Proof.
  assert (H : let q := mkQuad (0, 0) (2, 0) (0, 1) (1, 1) in Convex q /\ EastAlongColumns q /\ Unit (1/2) (1/2) /\ place q (1/2) (1/2) = (3/4, 1/2)).
  { cbv zeta. geometry. split; [left; repeat split; lra|]. split; [left; lra|]. split; [lra|]. f_equal; field. }
  destruct H as (H1 & H2 & H3 & H4). split; [exact H1|]. split; [exact H2|]. split; [exact H4|].
  apply (c42_defined _ (3/4, 1/2) (1/2) (1/2) H1 H2 H3 H4).
Qed.

(** ** C43 *)
Definition Between (t a b : R) : Prop := a <= t <= b \/ b <= t <= a.
(** Columns run east (or west): rectangle with opposite corners (x0, y0), (x1, y1). *)
Definition cols_east (x0 x1 y0 y1 : R) : quad := mkQuad (x0, y0) (x1, y0) (x0, y1) (x1, y1).
(** Rows run east. *)
Definition rows_east (x0 x1 y0 y1 : R) : quad := mkQuad (x0, y0) (x0, y1) (x1, y0) (x1, y1).
Theorem c43_columns_east_partial x0 x1 y0 y1 x y : x0 <> x1 -> y0 <> y1 -> Between x x0 x1 -> Between y y0 y1 ->
  let q := cols_east x0 x1 y0 y1 in
  exists l m, x_to_l x y (cell_coef (quad_lon q)) (cell_coef (quad_lat q)) = LM l m /\ Unit l m /\
    l = (x - x0) / (x1 - x0) /\ m = (y - y0) / (y1 - y0).
Proof.
  intros Hx Hy Bx By q. exists ((x - x0) / (x1 - x0)), ((y - y0) / (y1 - y0)). split; [|split; [|split; reflexivity]].
  - apply c42_parallelogram; unfold q, cols_east, turn, place, bilin; cbn [q00 q01 q10 q11 fst snd]; try lra.
    + intros E. replace ((x1 - x0) * (y1 - y0) - (y0 - y0) * (x0 - x0)) with ((x1 - x0) * (y1 - y0)) in E by ring.
      apply Rmult_integral in E. lra.
    + f_equal; field; lra.
  - assert (U : forall t a b, a <> b -> Between t a b -> 0 <= (t - a) / (b - a) <= 1).
    { intros t a b Hn [H|H].
      - assert (0 < b - a) by lra. assert (0 < / (b - a)) by (apply Rinv_0_lt_compat; lra). split.
        + apply Rmult_le_pos; lra.
        + apply Rmult_le_reg_r with (b - a); [lra|]. unfold Rdiv. rewrite Rmult_assoc, Rinv_l by lra. lra.
      - replace ((t - a) / (b - a)) with ((a - t) / (a - b)) by (field; lra).
        assert (0 < a - b) by lra. assert (0 < / (a - b)) by (apply Rinv_0_lt_compat; lra). split.
        + apply Rmult_le_pos; lra.
        + apply Rmult_le_reg_r with (a - b); [lra|]. unfold Rdiv. rewrite Rmult_assoc, Rinv_l by lra. lra. }
    split; apply U; auto.
Qed.
Print Assumptions c43_columns_east_partial.
(** With rows running east nothing is ever found: 0/0. *)
Theorem c43_rows_east x0 x1 y0 y1 x y : let q := rows_east x0 x1 y0 y1 in
  x_to_l x y (cell_coef (quad_lon q)) (cell_coef (quad_lat q)) = LNaN.
Proof.
  unfold quad_lon, quad_lat, rows_east. cbn [map fst snd q00 q01 q10 q11]. rewrite !coef_of. unfold x_to_l.
  match goal with |- (if Req_EM_T ?t 0 then _ else _) = _ => destruct (Req_EM_T t 0) as [_|Hn] end; [|exfalso; apply Hn; ring].
  match goal with |- (if Req_EM_T ?t 0 then _ else _) = _ => destruct (Req_EM_T t 0) as [_|Hb] end; [reflexivity|].
  cbv zeta. unfold ratio. match goal with |- context [Req_EM_T ?t 0] => destruct (Req_EM_T t 0) as [_|Hn] end; [reflexivity|].
  exfalso. apply Hn. ring.
Qed.
Print Assumptions c43_rows_east.
Theorem c43_either_axis_refuted : exists q p, Convex q /\ place q (1/2) (1/2) = p /\
  (exists x0 x1 y0 y1, x0 <> x1 /\ y0 <> y1 /\ q = rows_east x0 x1 y0 y1) /\
  x_to_l (fst p) (snd p) (cell_coef (quad_lon q)) (cell_coef (quad_lat q)) = LNaN.
Proof.
  exists (rows_east 0 2 0 1), (1, 1/2). unfold rows_east. split; [geometry; right; repeat split; lra|]. split; [geometry; f_equal; field|].
  split; [exists 0, 2, 0, 1; repeat split; lra|]. apply (c43_rows_east 0 2 0 1).
Qed.
Print Assumptions c43_either_axis_refuted.
(** So node interpolation on such a grid fails for every list of points with at
    least one point inside. *)
Theorem c43_rows_east_interpolation g pts cells var : SameShape g -> length pts = length cells ->
  node_padding (g_pads g) = (PadNone, PadNone) ->
  (forall r c, IsCell (a_r (g_lon g)) (a_c (g_lon g)) r c -> exists x0 x1 y0 y1, cell_quad g r c = rows_east x0 x1 y0 y1) ->
  Forall (fun o => match o with None => True | Some (r, c) => IsCell (a_r (g_lon g)) (a_c (g_lon g)) r c end) cells ->
  (exists rc, In (Some rc) cells) ->
  interpolate g pts (map (option_map (fun rc => (Z.of_nat (fst rc), Z.of_nat (snd rc)))) cells) true false "node" (Some []) (flat2 var)
  = Err AssertionError.
Proof.
  intros HS HL Hn HG HF (rc & Hin). set (ind := map _ cells).
  assert (E : opt_all ind = false).
  { apply Bool.not_true_is_false. unfold opt_all. rewrite forallb_forall. intros H.
    specialize (H _ (in_map _ _ _ Hin)). discriminate. }
  unfold interpolate. rewrite E. cbn [andb].
  assert (O : mapM (fun pi => offset g (fst pi) (snd pi)) (combine pts ind) =
              Ok (map (fun o : option (nat * nat) => match o with None => OMask | Some _ => OIn LNaN end) cells)).
  { unfold ind. clear E Hin ind. revert pts HL. induction cells as [|o cells IH]; intros [|p pts] HL; cbn [length] in HL; try lia; [reflexivity|].
    inversion HF as [|? ? Ho HF']; subst. cbn [map combine mapM fst snd].
    assert (F : offset g p (option_map (fun rc => (Z.of_nat (fst rc), Z.of_nat (snd rc))) o) = Ok (match o with None => OMask | Some _ => OIn LNaN end)).
    { destruct o as [[r c]|]; [|reflexivity]. cbn [option_map fst snd]. rewrite offset_cell by assumption.
      destruct (HG r c Ho) as (x0 & x1 & y0 & y1 & Eq). unfold qa, qb. rewrite Eq, c43_rows_east. reflexivity. }
    rewrite F. cbn [bind]. rewrite IH by (auto; lia). reflexivity. }
  rewrite O. cbn [bind]. unfold padding_by_location. cbn [isin]. change (isin "node" node_names) with true. cbn [bind]. rewrite Hn.
  assert (SH : mapM (shifted (PadNone, PadNone)) ind = Ok ind).
  { rewrite (mapM_pure _ (fun x => x)); [rewrite map_id; reflexivity|]. intros [[i j]|] _; reflexivity. }
  rewrite SH. cbn [bind select VariableModel.resolve flat2 nv_lead nv_at].
  change (isin "node" center_names) with false. change (isin "node" edge1_names) with false. change (isin "node" edge2_names) with false. cbn [orb].
  assert (X : existsb (fun o => match o with OIn LNaN => true | _ => false end)
                (map (fun o : option (nat * nat) => match o with None => OMask | Some _ => OIn LNaN end) cells) = true).
  { rewrite existsb_exists. exists (OIn LNaN). split; [|reflexivity].
    apply (in_map (fun o : option (nat * nat) => match o with None => OMask | Some _ => OIn LNaN end) _ _ Hin). }
  rewrite X. reflexivity.
Qed.
Print Assumptions c43_rows_east_interpolation.
Example c43_example : exists l m, x_to_l 3 7 (cell_coef (quad_lon (cols_east 2 6 10 5))) (cell_coef (quad_lat (cols_east 2 6 10 5))) = LM l m /\
  l = 1/4 /\ m = 3/5.
Proof.
  destruct (c43_columns_east_partial 2 6 10 5 3 7) as (l & m & E & _ & Hl & Hm); try lra; try (unfold Between; lra).
  exists l, m. split; [exact E|]. rewrite Hl, Hm. split; field.
Qed.

(** ** C44 *)
(** [place q l m] takes the column fraction first; the position (u, v) in index
    space, row first, should satisfy [place q (v - c) (u - r) = p].  What is
    returned has the two fractions exchanged. *)
Theorem c44_fractions_exchanged_partial g p r c u v : SameShape g -> IsCell (a_r (g_lon g)) (a_c (g_lon g)) r c ->
  geo_to_logical g p (Z.of_nat r, Z.of_nat c) = Ok (Some (u, v)) ->
  place (cell_quad g r c) (u - INR r) (v - INR c) = p.
Proof.
  intros HS Hc. unfold geo_to_logical. rewrite offset_cell by assumption. cbn [bind].
  destruct (x_to_l _ _ _ _) as [l m| |] eqn:E; intros H; try discriminate. injection H as <- <-. cbn [fst snd].
  rewrite <- !INR_IZR_INZ. replace (INR r + l - INR r) with l by ring. replace (INR c + m - INR c) with m by ring.
  apply (quad_back _ _ _ _ E).
Qed.
Print Assumptions c44_fractions_exchanged_partial.
Theorem c44_exact_value g p r c l m : SameShape g -> WellPlaced g (p, Some (r, c, (l, m))) ->
  geo_to_logical g p (Z.of_nat r, Z.of_nat c) = Ok (Some (INR r + l, INR c + m)).
Proof.
  intros HS HW. unfold geo_to_logical. pose proof (offset_placed g _ HS HW) as E. cbn [fst where_ snd offs_of] in E.
  unfold where_, offs_of in E. cbn [fst snd] in E. rewrite E. cbn [bind fst snd]. rewrite <- !INR_IZR_INZ. reflexivity.
Qed.
Print Assumptions c44_exact_value.
(** The node to the right of the first node of a cell is reported as the node
    above it. *)
Theorem c44_node_index_refuted : exists g r c, SameShape g /\ IsCell (a_r (g_lon g)) (a_c (g_lon g)) r c /\
  Convex (cell_quad g r c) /\ EastAlongColumns (cell_quad g r c) /\
  let p := (a_at (g_lon g) r (S c), a_at (g_lat g) r (S c)) in
  geo_to_logical g p (Z.of_nat r, Z.of_nat c) = Ok (Some (INR (S r), INR c)) /\
  place (cell_quad g r c) (INR c - INR c) (INR (S r) - INR r) <> p.
Proof.
  exists ex_g, 0%nat, 1%nat. split; [split; reflexivity|]. split; [split; cbn; lia|].
  split; [geometry; left; repeat split; lra|]. split; [geometry; left; lra|]. cbv zeta. split.
  - rewrite (c44_exact_value _ _ 0 1 1 0); [rewrite S_INR; f_equal; f_equal; f_equal; ring|split; reflexivity|].
    unfold WellPlaced. cbn [snd fst]. split; [split; cbn; lia|]. split; [geometry; lra|]. split; [geometry; f_equal; field|].
    split; geometry; left; repeat split; lra.
  - geometry. intros E. injection E as E1 E2. lra.
Qed.
Print Assumptions c44_node_index_refuted.

(** ** C45 *)
Definition Pairs (rows : list (list rd)) : Prop := Forall (fun row => length row = 2%nat) rows.
Definition plain (row : list rd) (a : alpha_row) : rcell := row_sum (map d_val row) a.

Lemma tiled_none rows w i : (forall row d, In row rows -> In d row -> d_mask d = false) -> tiled_mask rows w i = false.
Proof.
  intros H. unfold tiled_mask. apply Bool.not_true_is_false. rewrite existsb_exists. intros (j & _ & E).
  unfold any_masked in E. rewrite existsb_exists in E. destruct E as (d & Hd & E).
  destruct (Nat.lt_ge_cases ((w * i + j) mod length rows) (length rows)) as [L|L].
  - rewrite (H _ d (nth_In rows [] L) Hd) in E. discriminate.
  - rewrite nth_overflow in Hd by exact L. destruct Hd.
Qed.
Lemma seq_map_combine {A B} (f : A -> B) (l : list A) : forall s,
  map (fun ix => f (snd ix)) (combine (seq s (length l)) l) = map f l.
Proof. induction l as [|x l IH]; intros s; [reflexivity|]. cbn. rewrite IH. reflexivity. Qed.

(** Without masked values: the weighted sums, in every mode that accepts the
    input. *)
Theorem c45_no_masked_value rows alphas : Pairs rows -> length alphas = length rows ->
  (forall row d, In row rows -> In d row -> d_mask d = false) ->
  let expected := Ok (map (fun ra => plain (fst ra) (snd ra)) (combine rows alphas)) in
  compute_interpolant BZero rows 2 alphas = expected /\
  compute_interpolant BMask rows 2 alphas = expected /\
  ((length rows <= 2)%nat -> compute_interpolant BMirror rows 2 alphas = expected).
Proof.
  intros HP HL Hm expected. unfold expected, compute_interpolant, plain. split; [|split].
  - f_equal. apply map_ext_in. intros [row a] Hin. cbn [fst snd]. f_equal. unfold zero_fill. apply map_ext_in.
    intros d Hd. rewrite (Hm row d); [reflexivity|eapply in_combine_l; exact Hin|exact Hd].
  - f_equal. rewrite <- (seq_map_combine (fun ra => row_sum (map d_val (fst ra)) (snd ra)) (combine rows alphas) 0).
    rewrite combine_length, HL, Nat.min_id. apply map_ext_in. intros [i [row a]] _. cbn [fst snd]. rewrite tiled_none by exact Hm. reflexivity.
  - intros Hn. rewrite (proj2 (Nat.ltb_ge _ _)) by exact Hn. cbn [Nat.eqb]. f_equal. apply map_ext_in. intros [row a] Hin. cbn [fst snd]. f_equal.
    pose proof (in_combine_l _ _ _ _ Hin) as Hr. unfold Pairs in HP. rewrite Forall_forall in HP. pose proof (HP row Hr) as Hlen. pose proof (Hm row) as Hrow.
    destruct row as [|d1 [|d2 [|]]]; try discriminate. unfold mirror_row. cbn [rev app combine map fst snd].
    rewrite (Hrow d1), (Hrow d2) by (auto; cbn; auto). reflexivity.
Qed.
Print Assumptions c45_no_masked_value.

(** 'zero', any number of points. *)
Theorem c45_zero rows alphas i d1 d2 w1 w2 : length alphas = length rows ->
  nth_error rows i = Some [d1; d2] -> nth_error alphas i = Some (ARow [w1; w2]) ->
  exists out, compute_interpolant BZero rows 2 alphas = Ok out /\ length out = length rows /\
    nth_error out i = Some (RVal (wsum (or0 d1) (or0 d2) w1 w2)).
Proof.
  intros HL Hr Ha. unfold compute_interpolant. eexists. split; [reflexivity|]. split; [rewrite map_length, combine_length; lia|].
  erewrite map_nth_error; [|apply nth_combine; eassumption].
  cbn [fst snd zero_fill map row_sum combine fold_right]. unfold wsum, or0. do 2 f_equal. ring.
Qed.
Print Assumptions c45_zero.

(** 'mirror' as documented: a masked value of a pair is replaced by the negative
    of the other.  Holds for one or two points ... *)
Theorem c45_mirror_partial rows alphas i d1 d2 w1 w2 : length alphas = length rows -> (length rows <= 2)%nat ->
  nth_error rows i = Some [d1; d2] -> nth_error alphas i = Some (ARow [w1; w2]) ->
  exists out, compute_interpolant BMirror rows 2 alphas = Ok out /\ length out = length rows /\
    nth_error out i = Some (RVal (wsum (mirrored d1 d2) (mirrored d2 d1) w1 w2)).
Proof.
  intros HL Hn Hr Ha. unfold compute_interpolant. rewrite (proj2 (Nat.ltb_ge _ _)) by exact Hn. cbn [Nat.eqb].
  eexists. split; [reflexivity|]. split; [rewrite map_length, combine_length; lia|].
  erewrite map_nth_error; [|apply nth_combine; eassumption].
  cbn [fst snd mirror_row rev app combine map row_sum fold_right]. unfold wsum, mirrored. do 2 f_equal. ring.
Qed.
Print Assumptions c45_mirror_partial.
(** ... three or more points are refused (the length test looks at the number of
    points) ... *)
Theorem c45_mirror_many_points rows alphas w : (2 < length rows)%nat -> compute_interpolant BMirror rows w alphas = Err ValueError.
Proof. intros H. unfold compute_interpolant. rewrite (proj2 (Nat.ltb_lt _ _) H). reflexivity. Qed.
Print Assumptions c45_mirror_many_points.
(** ... and a pair with both values masked gives a number made of the hidden
    data. *)
Theorem c45_mirror_refuted :
  (exists rows alphas, Pairs rows /\ length alphas = length rows /\ compute_interpolant BMirror rows 2 alphas = Err ValueError) /\
  (exists h h' out out', h <> h' /\ out <> out' /\
     compute_interpolant BMirror [[mkRd h true; mkRd h true]] 2 [ARow [1/2; 1/2]] = Ok [RVal out] /\
     compute_interpolant BMirror [[mkRd h' true; mkRd h' true]] 2 [ARow [1/2; 1/2]] = Ok [RVal out']).
Proof.
  split.
  - exists [[mkRd 1 false; mkRd 2 true]; [mkRd 1 false; mkRd 2 false]; [mkRd 1 false; mkRd 2 false]],
           [ARow [1/2; 1/2]; ARow [1/2; 1/2]; ARow [1/2; 1/2]].
    split; [repeat constructor|]. split; reflexivity.
  - exists 1, 2. eexists. eexists. split; [lra|]. split; [|split; reflexivity]. cbn. lra.
Qed.
Print Assumptions c45_mirror_refuted.

(** 'mask': exactly which points come out masked. *)
Theorem c45_mask_exact rows alphas i row a : length alphas = length rows ->
  nth_error rows i = Some row -> nth_error alphas i = Some a ->
  exists out x, compute_interpolant BMask rows 2 alphas = Ok out /\ nth_error out i = Some x /\
    (x = RMask <-> a = AMask \/ any_masked rows ((2 * i) mod length rows) = true \/ any_masked rows ((2 * i + 1) mod length rows) = true) /\
    (x <> RMask -> x = plain row a).
Proof.
  intros HL Hr Ha. unfold compute_interpolant. eexists. eexists. split; [reflexivity|]. split.
  { erewrite map_nth_error; [reflexivity|]. apply nth_combine; [|apply nth_combine; eassumption].
    rewrite SGridProofs.nth_seq. rewrite (proj2 (Nat.ltb_lt _ _)); [reflexivity|]. eapply nth_error_Some_lt; eassumption. }
  cbn [Nat.add]. unfold tiled_mask. cbn [seq existsb]. rewrite orb_false_r, Nat.add_0_r.
  destruct (any_masked rows (2 * i mod length rows)) eqn:E1; destruct (any_masked rows ((2 * i + 1) mod length rows)) eqn:E2; cbn [orb];
    (split; [|intros H; try reflexivity; exfalso; apply H; reflexivity]); split; intros H; auto.
  - destruct a; cbn in H; try discriminate. auto.
  - destruct H as [->|[H|H]]; [reflexivity|discriminate|discriminate].
Qed.
Print Assumptions c45_mask_exact.
(** For a single point that is the point itself; for several points other points'
    masks are applied. *)
Theorem c45_mask_one_point_partial row a :
  exists x, compute_interpolant BMask [row] 2 [a] = Ok [x] /\
    (x = RMask <-> a = AMask \/ existsb d_mask row = true) /\ (x <> RMask -> x = plain row a).
Proof.
  destruct (c45_mask_exact [row] [a] 0 row a eq_refl eq_refl eq_refl) as (out & x & E & Hx & Hm & Hp).
  unfold compute_interpolant in E. cbn [length combine seq map] in E. injection E as <-. exists x.
  cbn [nth_error] in Hx. injection Hx as <-. split; [reflexivity|]. split; [|exact Hp]. rewrite Hm. cbn [length]. rewrite !Nat.mod_1_r.
  unfold any_masked. cbn [nth]. tauto.
Qed.
Print Assumptions c45_mask_one_point_partial.
Theorem c45_mask_refuted : exists rows alphas, Pairs rows /\ length alphas = length rows /\ Forall (fun a => a <> AMask) alphas /\
  exists out, compute_interpolant BMask rows 2 alphas = Ok out /\
    (exists i, nth_error out i = Some RMask /\ exists row, nth_error rows i = Some row /\ existsb d_mask row = false) /\
  exists rows' out', Pairs rows' /\ compute_interpolant BMask rows' 2 (alphas ++ alphas) = Ok out' /\
    exists i row v, nth_error out' i = Some (RVal v) /\ nth_error rows' i = Some row /\ existsb d_mask row = true.
Proof.
  exists [[mkRd 1 true; mkRd 2 false]; [mkRd 3 false; mkRd 4 false]], [ARow [1/2; 1/2]; ARow [1/2; 1/2]].
  split; [repeat constructor|]. split; [reflexivity|]. split; [repeat constructor; discriminate|].
  eexists. split; [reflexivity|]. split; [exists 1%nat; split; [reflexivity|]; eexists; split; reflexivity|].
  exists [[mkRd 1 false; mkRd 2 false]; [mkRd 1 true; mkRd 2 false]; [mkRd 3 false; mkRd 4 false]; [mkRd 3 false; mkRd 4 false]].
  eexists. split; [repeat constructor|]. split; [reflexivity|]. exists 1%nat. eexists. eexists. split; [reflexivity|]. split; reflexivity.
Qed.
Print Assumptions c45_mask_refuted.

(** Points outside (masked weights) stay masked in every mode; an unknown mode
    and four values with 'mirror' are refused. *)
Theorem c45_outside_and_errors rows alphas mode w i : nth_error alphas i = Some AMask -> length alphas = length rows ->
  (forall out, compute_interpolant mode rows w alphas = Ok out -> nth_error out i = Some RMask) /\
  compute_interpolant BOther rows w alphas = Err ValueError /\
  compute_interpolant BMirror rows 4 alphas = Err ValueError.
Proof.
  intros Ha HL. split; [|split; [reflexivity|unfold compute_interpolant; destruct (Nat.ltb 2 (length rows)); reflexivity]].
  destruct (nth_error rows i) as [row|] eqn:Hr; [|apply nth_error_None in Hr; apply nth_error_Some_lt in Ha; lia].
  intros out E. unfold compute_interpolant in E. destruct mode.
  - injection E as <-. erewrite map_nth_error; [|apply nth_combine; eassumption]. reflexivity.
  - destruct (Nat.ltb 2 (length rows)); [discriminate|]. destruct (Nat.eqb w 4); [discriminate|]. injection E as <-.
    erewrite map_nth_error; [|apply nth_combine; eassumption]. reflexivity.
  - injection E as <-. erewrite map_nth_error; [|apply nth_combine; [|apply nth_combine; eassumption]].
    + cbn. destruct (tiled_mask _ _ _); reflexivity.
    + rewrite SGridProofs.nth_seq. rewrite (proj2 (Nat.ltb_lt _ _)); [reflexivity|]. eapply nth_error_Some_lt; eassumption.
  - discriminate.
Qed.
Print Assumptions c45_outside_and_errors.
Example c45_example : exists u v, compute_interpolant BMirror [[mkRd 10 false; mkRd 99 true]] 2 [ARow [3/4; 1/4]] = Ok [RVal u] /\ u = 5 /\
  compute_interpolant BZero [[mkRd 10 false; mkRd 99 true]] 2 [ARow [3/4; 1/4]] = Ok [RVal v] /\ v = 15/2.
Proof. eexists. eexists. split; [reflexivity|]. split; [cbn; lra|]. split; [reflexivity|cbn; lra]. Qed.
