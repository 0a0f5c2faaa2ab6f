(** Reading a staggered grid by the names of its coordinates. *)
From Coq Require Import Reals String.
From Verif Require Import Common CommonProofs TimeModel TimeSpec VariableSpec GridTypeModel GridTypeSpec GridTypeProofs GridTypeProps MaskModel MaskSpec MaskProofs VariableModel DepthModel DepthSpec SGridModel SGridSpec SGridProps
  SGridInterpModel SGridInterpSpec TFileModel TFileSpec LoadModel LoadSpec LoadProofs LoadProps VLoadModel FMeshModel FMeshSpec FMeshProofs FRectSpec FRectProofs WholeProofs SWholeModel SWholeSpec SWholeProofs FStagModel FStagSpec.
Open Scope string_scope.
Open Scope list_scope.
Open Scope nat_scope.

Definition lower_pairs (names : list (string * string)) : Prop := Forall (fun p => is_lower (fst p) /\ is_lower (snd p)) names.
Lemma both_pair f p : BothIn f p <-> PairIn (as_grid f) p.
Proof. unfold BothIn, PairIn. rewrite !present_in. tauto. Qed.
Lemma called_named f n a v : Called f n a -> Named (as_grid f) n v -> exists x, v = to_grid (a, x) /\ In (a, x) (fi_vars f).
Proof.
  intros (_ & _ & Only) (pre & post & E & C & _).
  assert (I : In v (map to_grid (fi_vars f))) by (change (map to_grid (fi_vars f)) with (gf_vars (as_grid f)); rewrite E; apply in_app_iff; right; left; reflexivity).
  apply in_map_iff in I. destruct I as ([b u] & <- & I). pose proof (Only b u I C) as ->. eauto.
Qed.
Lemma pair_found f names o : lower_pairs names -> PairOf f names o ->
  match o with
  | None => find_pair (lower_vars (as_grid f)) names = None
  | Some p => exists x y, find_pair (lower_vars (as_grid f)) names = Some ((p_lon p, to_grid (p_x p, x)), (p_lat p, to_grid (p_y p, y))) /\
      In (p_x p, x) (fi_vars f) /\ In (p_y p, y) (fi_vars f)
  end.
Proof.
  intros L H. pose proof (find_pair_spec (as_grid f) names L) as Fp. destruct (find_pair (lower_vars (as_grid f)) names) as [[[n1 v1] [n2 v2]]|].
  - destruct Fp as (F & N1 & N2). destruct o as [p|].
    + destruct H as (F' & C1 & C2). assert (F'' : FirstWith (PairIn (as_grid f)) names (p_lon p, p_lat p)) by (eapply first_ext; [|exact F']; intros; apply both_pair).
      pose proof (first_unique _ _ _ _ F F'') as E. injection E as -> ->.
      destruct (called_named _ _ _ _ C1 N1) as (x & -> & I1). destruct (called_named _ _ _ _ C2 N2) as (y & -> & I2). exists x, y. auto.
    + exfalso. destruct F as (pre & post & -> & P & _). apply (H (n1, n2)); [apply in_app_iff; right; left; reflexivity|]. apply both_pair. exact P.
  - destruct o as [p|]; [|reflexivity]. destruct H as (F' & _). exfalso. destruct F' as (pre & post & -> & P & _). apply (Fp (p_lon p, p_lat p)); [apply in_app_iff; right; left; reflexivity|]. apply both_pair. exact P.
Qed.
Lemma one_found f n o : is_lower n -> OneOrNone f n o ->
  match o with None => dget (lower_vars (as_grid f)) n = None | Some a => exists x, dget (lower_vars (as_grid f)) n = Some (to_grid (a, x)) end.
Proof.
  intros L H. destruct o as [a|].
  - destruct (dget (lower_vars (as_grid f)) n) as [v|] eqn:E.
    + apply lower_vars_named in E; [|exact L]. destruct (called_named _ _ _ _ H E) as (x & -> & _). eauto.
    + exfalso. apply lower_vars_none in E; [|exact L]. apply E. apply present_in. destruct H as ((x & I) & C & _). exists a, x. auto.
  - apply lower_vars_none; [exact L|]. intros P. apply present_in in P. contradiction.
Qed.

(** ** The grid *)
Definition part_of (m : string) (mask : string) (k1 k2 : string) (o : option pair) (om : option string) : dict string :=
  match o with
  | None => []
  | Some p => match om with Some _ => [(m, mask)] | None => [] end ++ [(k1, p_lon p); (k2, p_lat p)]
  end.
Definition topo (y : layout) : dict string :=
  [("node_lon", p_lon (y_nodes y)); ("node_lat", p_lat (y_nodes y))] ++ part_of "center_mask" "mask_rho" "center_lon" "center_lat" (y_center y) (y_cmask y) ++
  part_of "edge1_mask" "mask_u" "edge1_lon" "edge1_lat" (y_edge1 y) (y_mask1 y) ++ part_of "edge2_mask" "mask_v" "edge2_lon" "edge2_lat" (y_edge2 y) (y_mask2 y) ++ [("node_mask", "mask_psi")].
Definition stag_of (s : sfile) (y : layout) : stag :=
  let lon := sf_nums s (p_x (y_nodes y)) in
  mkStag (mkSg lon (sf_nums s (p_y (y_nodes y)))
            (mkPads (shape2 lon) (option_map (fun p => shape2 (sf_nums s (p_x p))) (y_center y)) None PSUnset PSUnset PSUnset)
            (match y_center y, y_cmask y with Some _, Some m => Some (sf_flags s m) | _, _ => None end) BZero)
    (some (y_center y)) (some (y_edge1 y)) (some (y_edge2 y)) (topo y).
Lemma stag_read s y : StagFile (sf_file s) y -> open_stag s = Ok (stag_of s y).
Proof.
  intros (U & Decl & Top & Faces & Nodes & Dx & Dy & Ce & E1 & E2 & M0 & M1 & M2). set (f := sf_file s) in *.
  destruct (pair_found f axis_names (Some (y_nodes y)) coord_names_lower Nodes) as (x & v & Ef & Ix & Iv).
  assert (NT : NoneWith IsTopology (gf_vars (as_grid f))).
  { intros w Iw (r & Hr & M). apply in_map_iff in Iw. destruct Iw as ([n w'] & <- & Iw). exact (Top n w' r Iw Hr M). }
  assert (Base : find_base (as_grid f) None = Ok ([("node_lon", SVar (to_grid (p_x (y_nodes y), x))); ("node_lat", SVar (to_grid (p_y (y_nodes y), v)))],
                                                  [("node_lon", p_lon (y_nodes y)); ("node_lat", p_lat (y_nodes y))])).
  { unfold find_base. change node_coord_names with axis_names. rewrite Ef. reflexivity. }
  pose proof (find_topology_spec (as_grid f)) as Ft. destruct (find_topology_var (as_grid f)) eqn:Tv; [exfalso; eapply first_none; eauto|]. clear Ft.
  assert (Ty : get_grid_type (as_grid f) None None = Ok Grid_S).
  { assert (Probe : forall g, gf_grid_type (as_grid f) = Some g -> isin g (sgrid_names ++ ugrid_names) = true -> get_grid_type (as_grid f) None None = Ok Grid_S).
    { intros g Eg Ig. unfold get_grid_type. rewrite Eg, Ig. apply isin_in in Ig. apply in_app_iff in Ig. destruct Ig as [Ig|Ig]; [|exfalso; exact (Decl g Eg Ig)].
      cbn [sgrid_names In] in Ig. destruct Ig as [<-|[<-|[<-|[<-|[<-|[]]]]]]; reflexivity. }
    destruct (gf_grid_type (as_grid f)) as [g|] eqn:Eg; [destruct (isin g (sgrid_names ++ ugrid_names)) eqn:Ig; [exact (Probe g eq_refl Ig)|]|].
    all: assert (ND : NoDeclaration (as_grid f)) by
      (intros g' E' I'; rewrite Eg in E'; try discriminate E'; injection E' as <-; change (In g (sgrid_names ++ ugrid_names)) in I'; apply isin_in in I'; congruence).
    all: destruct (c35_by_variables (as_grid f) ND NT) as (_ & H & _);
      destruct (H (SVar (to_grid (p_x (y_nodes y), x))) (SVar (to_grid (p_y (y_nodes y), v)))) as [_ K];
      [pose proof (find_pair_spec (as_grid f) _ coord_names_lower) as Fp; change node_coord_names with axis_names in Fp; rewrite Ef in Fp; destruct Fp as (F1 & N1 & N2); eapply two; eauto
      |intros w Fv; inversion Fv as [n w' Ff Nm]; subst; destruct Ff as (pre & post & El & Pn & _); apply (Faces n); [rewrite El; apply in_app_iff; right; left; reflexivity|apply present_in; exact Pn]
      |apply K; intros [O1 _]; cbn [OneDim to_grid gv_shape snd] in O1; specialize (Dx x Ix); lia]. }
  unfold open_stag, grid_from_netcdf. fold f. rewrite Ty. cbn [bind]. rewrite Tv. unfold find_s. rewrite Base. cbn [bind].
  unfold s_names. cbn [fold_left]. unfold s_one at 1 2 3.
  assert (Lc : lower_pairs [("center_lon", "center_lat"); ("lon_rho", "lat_rho"); ("lonc", "latc")]) by (repeat constructor).
  assert (L1 : lower_pairs [("edge1_lon", "edge1_lat"); ("lon_u", "lat_u")]) by (repeat constructor).
  assert (L2 : lower_pairs [("edge2_lon", "edge2_lat"); ("lon_v", "lat_v")]) by (repeat constructor).
  pose proof (pair_found f _ _ Lc Ce) as Pc. pose proof (pair_found f _ _ L1 E1) as P1. pose proof (pair_found f _ _ L2 E2) as P2.
  pose proof (one_found f "mask_rho" _ eq_refl M0) as Q0. pose proof (one_found f "mask_u" _ eq_refl M1) as Q1. pose proof (one_found f "mask_v" _ eq_refl M2) as Q2.
  unfold stag_of, topo. clear - Dx Dy Ix Iv Pc P1 P2 Q0 Q1 Q2. specialize (Dx x Ix). specialize (Dy v Iv). clear Ix Iv.
  assert (Sh : (length (gv_shape (to_grid (p_x (y_nodes y), x))) =? 2) && (length (gv_shape (to_grid (p_y (y_nodes y), v))) =? 2) = true)
    by (cbn [to_grid gv_shape snd]; rewrite Dx, Dy; reflexivity). clear Dx Dy.
  revert Sh. assert (Nx : gv_name (to_grid (p_x (y_nodes y), x)) = p_x (y_nodes y)) by reflexivity. assert (Ny : gv_name (to_grid (p_y (y_nodes y), v)) = p_y (y_nodes y)) by reflexivity. revert Nx Ny.
  generalize (to_grid (p_x (y_nodes y), x)) (to_grid (p_y (y_nodes y), v)). intros gx gy Nx Ny Sh.
  destruct (dget (lower_vars (as_grid f)) "mask_psi") as [mp|];
  destruct (y_center y) as [pc|]; [destruct Pc as (cx & cy & -> & _); destruct (y_cmask y) as [m0|]; [destruct Q0 as (w0 & ->)|rewrite Q0]|rewrite Pc| |];
  try (destruct Pc as (cx & cy & -> & _); destruct (y_cmask y) as [m0|]; [destruct Q0 as (w0 & ->)|rewrite Q0]); try rewrite Pc;
  (destruct (y_edge1 y) as [p1|]; [destruct P1 as (x1 & y1 & -> & _); destruct (y_mask1 y) as [m1|]; [destruct Q1 as (w1 & ->)|rewrite Q1]|rewrite P1]);
  (destruct (y_edge2 y) as [p2|]; [destruct P2 as (x2 & y2 & -> & _); destruct (y_mask2 y) as [m2|]; [destruct Q2 as (w2 & ->)|rewrite Q2]|rewrite P2]);
  cbn [fst snd dset String.eqb Ascii.eqb Bool.eqb bind get_arg dget]; rewrite Sh, Nx, Ny; reflexivity.
Qed.
