(** Reading the topology variable. *)
From Coq Require Import Reals String Ascii.
From Verif Require Import Common CommonProofs VerdatModel SAttrModel SAttrSpec SAttrProps SVarModel SVarSpec SVarProofs SVarProps SSaveModel TimeModel TimeSpec VariableSpec GridTypeModel GridTypeSpec GridTypeProofs GridTypeProps
  MaskModel MaskSpec MaskProofs VariableModel DepthModel DepthSpec SGridModel SGridSpec SGridProps
  SGridInterpModel SGridInterpSpec TFileModel TFileSpec LoadModel LoadSpec LoadProofs LoadProps VLoadModel FMeshModel FMeshSpec FMeshProofs FRectSpec FRectProofs WholeProofs SWholeModel SWholeSpec SWholeProofs
  FStagModel FStagSpec FStagRead FSgridModel FSgridSpec.
Open Scope string_scope.
Open Scope list_scope.
Open Scope nat_scope.

(** ** The variables *)
Lemma vars_svars f : vars_of (as_sgrid f) = svars f.
Proof. unfold vars_of, svars, as_sgrid. cbn [nf_vars]. rewrite map_map. reflexivity. Qed.
Lemma svar_in f v : In v (svars f) <-> exists n u, In (n, u) (fi_vars f) /\ v = to_svar (n, u).
Proof. unfold svars. rewrite in_map_iff. split; [intros ([n u] & <- & I); eauto|intros (n & u & I & ->); eauto]. Qed.
Lemma find_svars {A} (F : string * mvar -> A) (nm : A -> string) (H : forall kv, nm (F kv) = fst kv) l n :
  find (fun d => String.eqb n (nm d)) (map F l) = option_map (fun v => F (n, v)) (dget l n).
Proof.
  induction l as [|[m u] l IH]; [reflexivity|]. cbn [map find dget]. rewrite H. cbn [fst]. destruct (String.eqb_spec n m) as [->|]; [reflexivity|exact IH].
Qed.
Section Reading.
  Context (f : file) (U : UniqueNames f).
  Lemma svar_get n v : In (n, v) (fi_vars f) -> lookup (svars f) n = Some (to_svar (n, v)).
  Proof. intros I. unfold lookup, svars. rewrite (find_svars to_svar sv_name) by reflexivity. rewrite (dget_unique _ _ _ U I). reflexivity. Qed.
  Lemma read_get n v : In (n, v) (fi_vars f) -> read (as_sgrid f) n = Ok (fm_shape v, []).
  Proof.
    intros I. unfold read, as_sgrid. cbn [nf_vars]. rewrite (find_svars (fun kv => mkFdata (to_svar kv) []) (fun d => sv_name (fd_var d))) by reflexivity.
    rewrite (dget_unique _ _ _ U I). reflexivity.
  Qed.
  Lemma read_none n : (forall v, ~ In (n, v) (fi_vars f)) -> read (as_sgrid f) n = Err IndexError.
  Proof.
    intros N. unfold read, as_sgrid. cbn [nf_vars]. rewrite (find_svars (fun kv => mkFdata (to_svar kv) []) (fun d => sv_name (fd_var d))) by reflexivity.
    destruct (dget (fi_vars f) n) as [v|] eqn:E; [|reflexivity]. exfalso. apply (N v). clear - E. revert E.
    induction (fi_vars f) as [|[k' v'] l IH]; [discriminate|]. cbn [dget]. destruct (String.eqb_spec n k') as [->|]; [intros E; injection E as ->; left; reflexivity|intros E; right; auto].
  Qed.
  Context (h : chart) (t : mvar).
  Let tv := to_svar (h_var h, t).
  (** ** What the topology variable says *)
  Definition two_words (o : option (string * string)) : option (list string) := option_map (fun xy => [fst xy; snd xy]) o.
  Lemma coordinates_found loc o : Every (fun c => c <> "_"%char) loc -> CoordinatesOf f t loc o -> get_attr_coordinates (svars f) tv (loc ++ "_coordinates") = Ok (two_words o).
  Proof.
    intros E H. destruct (c69_attr_coordinates (svars f) tv loc) as [A B]. destruct o as [[x y]|].
    - destruct H as (_ & [(At & Nx & Ny)|(Na & v & names & Fo & Co & Sp & Ns & Ex & Ey & Pr & Ox & Oy)]).
      + apply (A [x; y]); [discriminate|repeat constructor; assumption|exact At].
      + rewrite (B E Na). apply (c69_by_location (svars f) loc v names x y); auto. intros n I. destruct (Pr n I) as (u & Iu). rewrite (svar_get n u Iu). discriminate.
    - destruct H as (Na & No). rewrite (B E Na). apply c69_no_location. intros v Iv. apply svar_in in Iv. destruct Iv as (n & u & I & ->). exact (No n u I).
  Qed.
  Definition shapes_in (xy : string * string) (r : values * values) : Prop :=
    exists vx vy, In (fst xy, vx) (fi_vars f) /\ In (snd xy, vy) (fi_vars f) /\ r = ((fm_shape vx, []), (fm_shape vy, [])).
  Lemma lon_lat_found b o : match o with Some (x, y) => Exists2 f x y | None => True end ->
    match o with
    | Some xy => exists r, lon_lat b (as_sgrid f) (two_words o) = Ok (Some r) /\ shapes_in xy r
    | None => lon_lat b (as_sgrid f) (two_words o) = Ok None
    end.
  Proof.
    destruct o as [[x y]|]; [|reflexivity]. intros (vx & vy & Ix & Iy). exists ((fm_shape vx, []), (fm_shape vy, [])).
    split; [|exists vx, vy; auto]. cbn [two_words option_map fst snd lon_lat unpack2]. unfold lon_lat. cbn [unpack2]. rewrite (read_get _ _ Ix), (read_get _ _ Iy). reflexivity.
  Qed.
  Definition pads_in (l : list entry) : list padding := map (fun e => let '(a, n, w) := e in mkPadding a n w) l.
  Lemma dimension_found a l : PaddingsAre t a l -> exists text, get_dimension tv a = Ok (Some text, Some (pads_in l)).
  Proof.
    intros (text & At & N & C & _). exists text. unfold get_dimension. unfold attr. cbn [tv to_svar sv_attrs snd]. unfold Attr in At. rewrite At. rewrite (c60_entries l text N C). reflexivity.
  Qed.
  Lemma dimension_optional a o : PaddingsOf t a o -> exists text, get_dimension tv a = Ok (text, option_map pads_in o).
  Proof.
    destruct o as [l|]; intros H; [destruct (dimension_found a l H) as (text & ->); eauto|]. exists None. unfold get_dimension, attr. cbn [tv to_svar sv_attrs snd]. cbn in H. rewrite H. reflexivity.
  Qed.
  Lemma pads_known a l p : PaddingsAre t a l -> In p (pads_in l) -> KnownWord (pad_type p).
  Proof. intros (_ & _ & _ & _ & K) I. unfold pads_in in I. apply in_map_iff in I. destruct I as ([[x n] w] & <- & I). exact (K _ I). Qed.
  Lemma topology_found : In (h_var h, t) (fi_vars f) -> Attr t "cf_role" "grid_topology" -> fm_topology_dimension t = Some 2%Z ->
    (forall n v r, In (n, v) (fi_vars f) -> Attr v "cf_role" r -> Mentions "topology" r -> n = h_var h) -> find_grid_topology_var (svars f) = Ok (h_var h).
  Proof.
    intros I R D O. apply c69_topology_variable. exists tv. split; [|split; [exact D|reflexivity]].
    apply in_split in I. destruct I as (pre & post & E). exists (map to_svar pre), (map to_svar post). split; [unfold svars; rewrite E, map_app; reflexivity|]. split; [exact R|].
    intros y Iy A. rewrite <- map_app in Iy. apply in_map_iff in Iy. destruct Iy as ([n u] & <- & Iu).
    assert (X : n = h_var h). { apply (O n u "grid_topology"); [|exact A|exists "grid_", ""; reflexivity]. rewrite E. apply in_app_iff in Iu. apply in_app_iff. destruct Iu; [left|right; right]; assumption. }
    subst n. unfold UniqueNames in U. rewrite E, map_app in U. cbn [map fst] in U. apply NoDup_remove_2 in U. apply U. rewrite <- map_app. exact (in_map fst _ _ Iu).
  Qed.
End Reading.

Lemma first_of_unique {A} (P : A -> Prop) l x y : FirstOf P l x -> FirstOf P l y -> x = y.
Proof. exact (first_unique P l x y). Qed.
Lemma mask_unique l s m n : MaskOf l s m -> MaskOf l s n -> m = n.
Proof.
  assert (X : forall m n, MaskOf l s (Some m) -> MaskOf l s n -> n = Some m).
  { intros a [b|] (sh & v & -> & N & F & E) H.
    - destruct H as (sh' & v' & E' & _ & F' & <-). injection E' as <-. rewrite <- E, (first_of_unique _ _ _ _ F F'). reflexivity.
    - exfalso. destruct F as (pre & post & -> & (Mv & Sv) & _). exact (H sh v eq_refl N ltac:(apply in_app_iff; right; left; reflexivity) Mv Sv). }
  intros H K. destruct m as [m|]; [symmetry; apply X; assumption|]. destruct n as [n|]; [apply X; assumption|reflexivity].
Qed.

(** ** The grid *)
Definition sgrid_of (s : sfile) (h : chart) (t : mvar) : stag :=
  let lon := sf_nums s (fst (h_nodes h)) in
  mkStag (mkSg lon (sf_nums s (snd (h_nodes h)))
            (mkPads (shape2 lon) (option_map (fun p => shape2 (sf_nums s (fst p))) (h_faces h)) None
               (pads_of (Some (pads_in (h_pads h)))) (pads_of (option_map pads_in (h_pads1 h))) (pads_of (option_map pads_in (h_pads2 h))))
            (option_map (sf_flags s) (h_mask h)) BZero)
    (some (h_faces h)) (some (h_edges1 h)) (some (h_edges2 h)) (fm_attrs t ++ [("topology_dimension", "2")]).
Lemma variables_ok g l : (forall v, In v l -> exists d, create_variable g v = Ok d) -> exists vs, mapM_res (variable_of g) l = Ok vs.
Proof.
  induction l as [|v l IH]; intros H; [eexists; reflexivity|]. cbn [mapM_res]. destruct (H v (or_introl eq_refl)) as (d & E). unfold variable_of at 1. rewrite E. cbn [bind].
  destruct IH as (vs & ->); [intros w I; apply H; right; exact I|]. eexists. reflexivity.
Qed.
Lemma factory_reads f h t : SgridFile f h t -> grid_from_netcdf (as_grid f) None None = Ok (ReadWith Grid_S) /\ find_topology_var (as_grid f) = Some (to_grid (h_var h, t)).
Proof.
  intros F. assert (Fw : FirstWith IsTopology (gf_vars (as_grid f)) (to_grid (h_var h, t))).
  { pose proof (sf_topology _ _ _ F) as I. apply in_split in I. destruct I as (pre & post & E). exists (map to_grid pre), (map to_grid post).
    split; [cbn [as_grid gf_vars]; rewrite E, map_app; reflexivity|]. split; [exists "grid_topology"; split; [exact (sf_role _ _ _ F)|exists "grid_", ""; reflexivity]|].
    intros y Iy (r & Hr & M). apply in_map_iff in Iy. destruct Iy as ([n u] & <- & Iu).
    assert (X : n = h_var h) by (apply (sf_only _ _ _ F n u r); [rewrite E; apply in_app_iff; left; exact Iu|exact Hr|exact M]). subst n.
    pose proof (sf_unique _ _ _ F) as U. unfold UniqueNames in U. rewrite E, map_app in U. cbn [map fst] in U. apply NoDup_remove_2 in U. apply U. apply in_app_iff. left. exact (in_map fst _ _ Iu). }
  assert (Tv : find_topology_var (as_grid f) = Some (to_grid (h_var h, t))).
  { pose proof (find_topology_spec (as_grid f)) as K. destruct (find_topology_var (as_grid f)) as [w|]; [f_equal; eapply first_unique; eauto|exfalso; eapply first_none; eauto]. }
  split; [|exact Tv].
  assert (Ty : get_grid_type (as_grid f) None None = Ok Grid_S).
  { destruct (sf_dimensions _ _ _ F) as (nd & Nd).
    assert (Probe : NoDeclaration (as_grid f) -> get_grid_type (as_grid f) None None = Ok Grid_S).
    { intros ND. rewrite (c35_topology_variable _ _ ND Fw). cbn [to_grid gv_node_coordinates gv_node_dimensions snd]. unfold has at 2. unfold Attr in Nd. rewrite Nd. rewrite andb_false_r. reflexivity. }
    destruct (gf_grid_type (as_grid f)) as [g|] eqn:Eg; [destruct (isin g (sgrid_names ++ ugrid_names)) eqn:Ig|].
    - unfold get_grid_type. rewrite Eg, Ig. apply isin_in in Ig. apply in_app_iff in Ig. destruct Ig as [Ig|Ig]; [|exfalso; exact (sf_type _ _ _ F g Eg Ig)].
      cbn [sgrid_names In] in Ig. destruct Ig as [<-|[<-|[<-|[<-|[<-|[]]]]]]; reflexivity.
    - apply Probe. intros g' E' I'. rewrite Eg in E'. injection E' as <-. change (In g (sgrid_names ++ ugrid_names)) in I'. apply isin_in in I'. congruence.
    - apply Probe. intros g' E' I'. congruence. }
  unfold grid_from_netcdf. rewrite Ty. cbn [bind]. rewrite Tv. reflexivity.
Qed.
Lemma no_clash f names : (forall n v, In (n, v) (fi_vars f) -> ~ In n names) -> clash names f = false.
Proof.
  intros H. unfold clash. destruct (existsb (fun kv => isin (fst kv) names) (fi_vars f)) eqn:E; [|reflexivity]. apply existsb_exists in E. destruct E as ([n v] & I & J). apply isin_in in J. exfalso. exact (H n v I J).
Qed.
Lemma some_out {A B C} (o : option A) (c : option B) (x : C) (y : C) : (c = None <-> o = None) -> match c with Some _ => x | None => y end = if some o then x else y.
Proof. intros H. destruct o, c; cbn; auto; destruct H as [H1 H2]; exfalso; [discriminate (H1 eq_refl)|discriminate (H2 eq_refl)]. Qed.
Lemma sgrid_read s h t : SgridFile (sf_file s) h t -> open_sgrid s = Ok (sgrid_of s h t).
Proof.
  intros F. set (f := sf_file s) in *. destruct (factory_reads f h t F) as (Fa & Tv). unfold open_sgrid. fold f. rewrite Fa. cbn [bind]. rewrite Tv.
  pose proof (sf_unique _ _ _ F) as U. set (tv := to_svar (h_var h, t)).
  unfold load. rewrite vars_svars. rewrite (topology_found f U h t (sf_topology _ _ _ F) (sf_role _ _ _ F) (sf_two _ _ _ F) (sf_only _ _ _ F)). cbn [bind].
  rewrite (svar_get f U _ _ (sf_topology _ _ _ F)). fold tv.
  destruct (sf_dimensions _ _ _ F) as (nd & Nd). destruct (sf_nodes _ _ _ F) as ((An & Nx & Ny) & En & Tx & Ty).
  assert (Gn : get_node_coordinates (svars f) tv = Ok (nd, Some [fst (h_nodes h); snd (h_nodes h)])).
  { unfold get_node_coordinates, attr. cbn [tv to_svar sv_attrs snd]. unfold Attr in Nd, An. rewrite Nd, An.
    pose proof (split_spaced [fst (h_nodes h); snd (h_nodes h)] ltac:(discriminate) ltac:(repeat constructor; assumption)) as Sp. cbn [spaced] in Sp. rewrite Sp. reflexivity. }
  rewrite Gn. cbn [bind fst snd].
  destruct (dimension_optional h t "edge1_dimensions" _ (sf_pads1 _ _ _ F)) as (x1 & E1). destruct (dimension_optional h t "edge2_dimensions" _ (sf_pads2 _ _ _ F)) as (x2 & E2).
  destruct (dimension_found h t "vertical_dimensions" _ (sf_vertical _ _ _ F)) as (xv & Ev). destruct (sf_pads _ _ _ F) as (Pf & Lf). destruct (dimension_found h t "face_dimensions" _ Pf) as (xf & Ef).
  fold tv in E1, E2, Ev, Ef. rewrite E1, E2. cbn [bind].
  assert (Cc : forall loc o, CoordinatesOf f t loc o -> match o with Some (x, y) => Exists2 f x y | None => True end) by (intros loc [[x y]|]; [intros [H _]; exact H|auto]).
  pose proof (coordinates_found f U h t "edge1" _ ltac:(cbn; repeat split; discriminate) (sf_edges1 _ _ _ F)) as C1. pose proof (coordinates_found f U h t "edge2" _ ltac:(cbn; repeat split; discriminate) (sf_edges2 _ _ _ F)) as C2.
  pose proof (coordinates_found f U h t "face" _ ltac:(cbn; repeat split; discriminate) (sf_faces _ _ _ F)) as Cf. cbn [String.append] in C1, C2, Cf. fold tv in C1, C2, Cf.
  rewrite C1, C2, Cf. cbn [bind].
  pose proof (lon_lat_found f U false (h_faces h) (Cc _ _ (sf_faces _ _ _ F))) as Lc. pose proof (lon_lat_found f U true (h_edges1 h) (Cc _ _ (sf_edges1 _ _ _ F))) as L1. pose proof (lon_lat_found f U false (h_edges2 h) (Cc _ _ (sf_edges2 _ _ _ F))) as L2.
  pose proof (lon_lat_found f U false (Some (h_nodes h)) ltac:(destruct (h_nodes h); exact En)) as (rn & Ln & (vx & vy & Ix & Iy & Er)). cbn [two_words option_map] in Ln.
  assert (Lc' : exists c, lon_lat false (as_sgrid f) (two_words (h_faces h)) = Ok c /\ match h_faces h, c with Some xy, Some r => shapes_in f xy r | None, None => True | _, _ => False end).
  { destruct (h_faces h) as [xy|]; [destruct Lc as (r & -> & S0); exists (Some r); auto|exists None; auto]. }
  assert (L1' : exists c, lon_lat true (as_sgrid f) (two_words (h_edges1 h)) = Ok c /\ (c = None <-> h_edges1 h = None)).
  { destruct (h_edges1 h) as [xy|]; [destruct L1 as (r & -> & S0); exists (Some r)|exists None]; (split; [first [reflexivity|exact L1]|split; congruence]). }
  assert (L2' : exists c, lon_lat false (as_sgrid f) (two_words (h_edges2 h)) = Ok c /\ (c = None <-> h_edges2 h = None)).
  { destruct (h_edges2 h) as [xy|]; [destruct L2 as (r & -> & S0); exists (Some r)|exists None]; (split; [first [reflexivity|exact L2]|split; congruence]). }
  clear Lc L1 L2. destruct Lc' as (c & Lc & Sc). destruct L1' as (c1 & L1 & S1). destruct L2' as (c2 & L2 & S2). rewrite Lc. cbn [bind].
  assert (An' : exists a, get_angles paired (as_sgrid f) c = Ok a).
  { unfold get_angles. destruct (sf_angles _ _ _ F) as [(v & d & r & Iv & Sv)|(N & x & y & wx & wy & Hf & Iwx & Iwy & Sw)].
    - rewrite (read_get f U _ _ Iv), Sv. eauto.
    - rewrite (read_none f _ N). rewrite Hf in Sc. destruct c as [[lon lat]|]; [|contradiction]. destruct Sc as (ux & uy & Iux & Iuy & E). cbn [fst snd] in Iux, Iuy. injection E as -> ->.
      assert (ux = wx) as -> by (pose proof (dget_unique _ _ _ U Iux); pose proof (dget_unique _ _ _ U Iwx); congruence).
      assert (uy = wy) as -> by (pose proof (dget_unique _ _ _ U Iuy); pose proof (dget_unique _ _ _ U Iwy); congruence).
      unfold paired. cbn [fst]. rewrite (proj2 (shape_eqb_iff _ _) Sw). eauto. }
  destruct An' as (ang & ->). cbn [bind]. rewrite Ev, Ln. cbn [bind]. rewrite L1, L2. cbn [bind]. rewrite Ef. cbn [bind fst snd].
  set (sg := mkSgrid nd (Some (pads_in (h_pads h))) (option_map pads_in (h_pads1 h)) (option_map pads_in (h_pads2 h)) (Some (pads_in (h_vertical h)))).
  assert (Vs : exists vs, mapM_res (variable_of sg) (svars f) = Ok vs).
  { apply variables_ok. destruct (c70_loads_partial sg (svars f)) as (ds & _ & _ & K).
    - split; [|discriminate]. cbn [sg sg_face]. destruct (h_pads h) as [|e1 [|e2 r]]; [cbn in Lf; lia|cbn in Lf; lia|]. cbn [pads_in map]. eauto.
    - intros p I. cbn [sg sg_face sg_edge1 sg_edge2 sg_vertical entries] in I. apply in_app_iff in I. destruct I as [I|I]; [eapply pads_known; eauto|].
      apply in_app_iff in I. destruct I as [I|I]; [pose proof (sf_pads1 _ _ _ F) as P; destruct (h_pads1 h) as [l|]; [eapply pads_known; eauto|destruct I]|].
      apply in_app_iff in I. destruct I as [I|I]; [pose proof (sf_pads2 _ _ _ F) as P; destruct (h_pads2 h) as [l|]; [eapply pads_known; eauto|destruct I]|].
      eapply pads_known; [exact (sf_vertical _ _ _ F)|exact I].
    - intros v Iv A. apply svar_in in Iv. destruct Iv as (n & u & I & ->). cbn [to_svar sv_dims snd]. unfold attr in A. cbn [to_svar sv_attrs snd] in A.
      destruct (dget (fm_attrs u) "grid") as [g|] eqn:Eg; [|congruence]. exact (sf_gridded _ _ _ F n u g I Eg).
    - intros v Iv. destruct (K v Iv) as (d & E & _). eauto. }
  destruct Vs as (vs & ->). cbn [bind g_node_coordinates g_node g_center g_face_coordinates g_edge1 g_edge2 g_face_dims g_edge1_dims g_edge2_dims g_masks snd fst].
  rewrite (no_clash f read_only) by (intros n v I; exact (proj1 (sf_free _ _ _ F n v I))). rewrite (no_clash f attributes) by (intros n v I; exact (proj2 (sf_free _ _ _ F n v I))).
  assert (Td : two_dim (Some rn) = true) by (rewrite Er; cbn [two_dim fst snd]; rewrite (Tx _ Ix), (Ty _ Iy); reflexivity). rewrite Td.
  destruct (get_masks (svars f) (SSaveModel.shape_of (Some rn)) (SSaveModel.shape_of c) (SSaveModel.shape_of c1) (SSaveModel.shape_of c2)) as [[[mn mc] m1] m2] eqn:Em.
  assert (Mc : mc = h_mask h).
  { destruct (c69_masks _ _ _ _ _ _ _ _ _ Em) as (_ & M & _). pose proof (sf_mask _ _ _ F) as K. unfold MaskIs in K. destruct (h_faces h) as [[x y]|].
    - destruct c as [r|]; [|contradiction]. destruct Sc as (ux & uy & Iux & _ & ->). cbn [SSaveModel.shape_of option_map fst] in M. eapply mask_unique; [exact M|]. exact (K ux Iux).
    - destruct c as [r|]; [contradiction|]. rewrite K. cbn [SSaveModel.shape_of option_map] in M. destruct mc as [m|]; [|reflexivity]. destruct M as (s0 & v & E & _). discriminate E. }
  subst mc. unfold sgrid_of. cbv zeta. rewrite (some_out (h_edges1 h) c1 true false S1), (some_out (h_edges2 h) c2 true false S2).
  assert (To : topology_of f (to_grid (h_var h, t)) = fm_attrs t ++ [("topology_dimension", "2")]).
  { unfold topology_of. cbn [to_grid gv_name fst]. rewrite (dget_unique _ _ _ U (sf_topology _ _ _ F)), (sf_two _ _ _ F). reflexivity. }
  rewrite To. destruct (h_faces h) as [[x y]|]; (destruct c as [r|]; [|]); try contradiction; cbn [two_words option_map some fst]; destruct (some (h_edges1 h)), (some (h_edges2 h)); reflexivity.
Qed.
