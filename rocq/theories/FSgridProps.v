(** C108: from a file with an SGRID topology variable to the answers of its
    variables. *)
From Coq Require Import Reals String Ascii Lra.
From Verif Require Import Common CommonProofs VerdatModel SAttrModel SAttrSpec SAttrProofs SAttrProps SVarModel SVarSpec SVarProofs SVarProps TimeModel TimeSpec VariableSpec GridTypeModel GridTypeSpec GridTypeProofs MaskModel MaskSpec VariableModel DepthModel DepthSpec SGridModel SGridSpec
  SGridInterpModel SGridInterpSpec SGridInterpProps TFileModel TFileSpec TFileProps LoadModel LoadSpec LoadProofs VLoadModel FMeshModel FMeshSpec FMeshProofs FMeshProps FRectSpec FRectProofs WholeSpec WholeProofs WholeProps
  SWholeModel SWholeSpec SWholeProofs SWholeProps FStagModel FStagSpec FStagRead FStagProofs FStagProps FSgridModel FSgridSpec FSgridRead FSgridProofs.
Open Scope string_scope.
Open Scope list_scope.
Open Scope nat_scope.

(** The grid: the arrays that the topology variable names. *)
Theorem c108_grid :
  forall s h t, SgridFile (sf_file s) h t -> exists g, open_sgrid s = Ok g /\ sgrid_in s h (st_grid g) /\ forall k, GridName (stag_api g) k <-> TopologyWord t k.
Proof. intros s h t F. exists (sgrid_of s h t). split; [apply sgrid_read; exact F|]. split; [repeat split|]. intros k. apply sgrid_grid_name. Qed.
Print Assumptions c108_grid.

Section Nodes.
  Context (dateutil : string -> dparse) (cftime : string -> option (Z * Z * Z)).
  Context (s : sfile) (h : chart) (t : mvar).
  Let nr := a_r (sf_nums s (fst (h_nodes h))).
  Let nc := a_c (sf_nums s (fst (h_nodes h))).

  (** It opens, when every variable is mentioned by the topology variable, has no
      place on the grid, or is properly sampled. *)
  Theorem c108_opens : SgridFile (sf_file s) h t -> SgridSound cftime (sf_file s) h t nr nc ->
    exists g vs, open_sgrid_dataset dateutil cftime s = Ok (g, vs) /\ sgrid_in s h (st_grid g).
  Proof. intros F H. destruct (sgrid_opens dateutil cftime s h t F H) as (vs & E). exists (sgrid_of s h t), vs. split; [exact E|repeat split]. Qed.
  (** What has no place on the grid is left out, whatever else is in the file. *)
  Theorem c108_left_out p k w : SgridFile (sf_file s) h t -> open_sgrid_dataset dateutil cftime s = Ok p -> In (k, w) (fi_vars (sf_file s)) ->
    Nowhere nr nc (places h) w -> dget (snd p) k = None.
  Proof. intros F O I N. exact (sgrid_left_out dateutil cftime s h t F p O k w I N). Qed.
  (** The variables opened, with their place and the instants of their samples. *)
  Theorem c108_variable p k w a b loc ts levels : SgridFile (sf_file s) h t -> open_sgrid_dataset dateutil cftime s = Ok p -> In (k, w) (fi_vars (sf_file s)) -> ~ TopologyWord t k ->
    SitsAt nr nc (places h) w a b loc -> InstantsIn cftime (sf_file s) w ts -> LevelsIn (sf_file s) levels -> fm_shape w = [length ts] ++ axis_shape levels ++ [a; b] ->
    exists v tm nm, dget (snd p) k = Some v /\ va_loc v = loc /\ va_varname v = k /\ va_shape v = fm_shape w /\
      va_time v = TimeRead tm nm /\ t_data tm = ts /\ va_depth v = match levels with Some _ => DepthRead | None => DepthNone end.
  Proof. intros F O I NG Si In_ Lv Sh. exact (sgrid_opened dateutil cftime s h t F p O k w I NG a b loc Si ts levels In_ Lv Sh). Qed.

  Context (F : SgridFile (sf_file s) h t).
  Lemma chart_in p dims : open_sgrid_dataset dateutil cftime s = Ok p -> forall loc a b col expct,
    OnChart (st_grid (fst p)) h dims loc a b col expct -> fst p = sgrid_of s h t /\ Sits (st_grid (sgrid_of s h t)) loc a b col expct.
  Proof.
    intros O loc a b col expct H. destruct (sgrid_open_inv dateutil cftime s h t F p O) as (E & _). split; [exact E|]. rewrite E in H. apply (chart_sits s h t dims). exact H.
  Qed.
End Nodes.
Print Assumptions c108_opens.
Print Assumptions c108_left_out.
Print Assumptions c108_variable.

(** Data over time, on any of the points: what the grid answers for the data of
    the time asked.  Missing: land masks that change with time, paddings listed in the other order (below). *)
Theorem c108_times_partial :
  forall dateutil cftime now find s h t p k w a b loc ts place_of col expct f m q q' ex pts,
  SgridFile (sf_file s) h t -> open_sgrid_dataset dateutil cftime s = Ok p -> In (k, w) (fi_vars (sf_file s)) -> ~ TopologyWord t k ->
  SitsAt (a_r (sf_nums s (fst (h_nodes h)))) (a_c (sf_nums s (fst (h_nodes h)))) (places h) w a b loc ->
  InstantsIn cftime (sf_file s) w ts -> fm_shape w = [length ts; a; b] ->
  let g := st_grid (fst p) in
  SameShape g -> OnChart g h (fm_dims w) loc a b col expct -> Finds g find place_of (map fst pts) ->
  Holds (sf_data s k) (Some ts) None a b (fun u _ => f u) (fun _ => m) -> TimeOk (Some ts) ex q q' ->
  ask_sgrid dateutil cftime now find s k q ex pts = Ok (map (fun x => expct (snap a b (f q') m) (fst x, place_of (fst x))) pts).
Proof.
  intros dateutil cftime now find s h t p k w a b loc ts place_of col expct f m q q' ex pts F O I NG Si In_ Sh g SS An Fi Ho TO.
  destruct (chart_in dateutil cftime s h t F p _ O loc a b col expct An) as (Ep & St). unfold g in *. rewrite Ep in *.
  destruct (sgrid_asked dateutil cftime s h t F p O k w I NG a b loc Si ts None In_ Logic.I Sh now find) as (tm & Td & E). rewrite E. subst ts. cbn [option_map].
  exact (c98_times_partial (st_grid (sgrid_of s h t)) find place_of loc a b col expct (sf_data s k) (Some tm) f m q q' ex pts None SS St Fi Ho TO).
Qed.
Print Assumptions c108_times_partial.

(** On levels, at points other than the centers. *)
Theorem c108_levels_partial :
  forall dateutil cftime now find s h t p k w a b loc ts ls place_of expct f m q q' ex pts z,
  SgridFile (sf_file s) h t -> open_sgrid_dataset dateutil cftime s = Ok p -> In (k, w) (fi_vars (sf_file s)) -> ~ TopologyWord t k ->
  SitsAt (a_r (sf_nums s (fst (h_nodes h)))) (a_c (sf_nums s (fst (h_nodes h)))) (places h) w a b loc ->
  InstantsIn cftime (sf_file s) w ts -> LevelsIn (sf_file s) (Some ls) -> fm_shape w = [length ts; length ls; a; b] ->
  let g := st_grid (fst p) in
  SameShape g -> OnChart g h (fm_dims w) loc a b false expct -> Finds g find place_of (map fst pts) ->
  Holds (sf_data s k) (Some ts) (Some (length ls)) a b (fun u j => f u (nth j ls 0%Q)) (fun _ => m) ->
  (forall u r c, m r c = false -> RLinearInDepth ls (fun d => f u d r c)) -> TimeOk (Some ts) ex q q' ->
  (forall x, In x pts -> DepthAsked ls default_sbc default_bbc (snd x) (z x)) ->
  ask_sgrid dateutil cftime now find s k q ex pts = Ok (map (fun x => expct (snap a b (f q' (z x)) m) (fst x, place_of (fst x))) pts).
Proof.
  intros dateutil cftime now find s h t p k w a b loc ts ls place_of expct f m q q' ex pts z F O I NG Si In_ Lv Sh g SS An Fi Ho LD TO DA.
  destruct (chart_in dateutil cftime s h t F p _ O loc a b false expct An) as (Ep & St). unfold g in *. rewrite Ep in *.
  destruct (sgrid_asked dateutil cftime s h t F p O k w I NG a b loc Si ts (Some ls) In_ Lv Sh now find) as (tm & Td & E). rewrite E. subst ts. cbn [option_map].
  destruct (levels_read (sf_file s) ls (sf_unique _ _ _ F) Lv) as (_ & L2 & Mo).
  exact (c98_levels_partial (st_grid (sgrid_of s h t)) find place_of loc a b expct (sf_data s k) (Some tm) ls f m q q' ex pts default_sbc default_bbc z SS St Fi Ho LD TO L2 Mo DA).
Qed.
Print Assumptions c108_levels_partial.
(** On levels, at any of the points, one point at a time. *)
Theorem c108_one_point_partial :
  forall dateutil cftime now find s h t p k w a b loc ts ls place_of col expct f m q q' ex x z,
  SgridFile (sf_file s) h t -> open_sgrid_dataset dateutil cftime s = Ok p -> In (k, w) (fi_vars (sf_file s)) -> ~ TopologyWord t k ->
  SitsAt (a_r (sf_nums s (fst (h_nodes h)))) (a_c (sf_nums s (fst (h_nodes h)))) (places h) w a b loc ->
  InstantsIn cftime (sf_file s) w ts -> LevelsIn (sf_file s) (Some ls) -> fm_shape w = [length ts; length ls; a; b] ->
  let g := st_grid (fst p) in
  SameShape g -> OnChart g h (fm_dims w) loc a b col expct -> Finds g find place_of [fst x] ->
  Holds (sf_data s k) (Some ts) (Some (length ls)) a b (fun u j => f u (nth j ls 0%Q)) (fun _ => m) ->
  (forall u r c, m r c = false -> RLinearInDepth ls (fun d => f u d r c)) -> TimeOk (Some ts) ex q q' ->
  DepthAsked ls default_sbc default_bbc (snd x) z ->
  ask_sgrid dateutil cftime now find s k q ex [x] = Ok [expct (snap a b (f q' z) m) (fst x, place_of (fst x))].
Proof.
  intros dateutil cftime now find s h t p k w a b loc ts ls place_of col expct f m q q' ex x z F O I NG Si In_ Lv Sh g SS An Fi Ho LD TO DA.
  destruct (chart_in dateutil cftime s h t F p _ O loc a b col expct An) as (Ep & St). unfold g in *. rewrite Ep in *.
  destruct (sgrid_asked dateutil cftime s h t F p O k w I NG a b loc Si ts (Some ls) In_ Lv Sh now find) as (tm & Td & E). rewrite E. subst ts. cbn [option_map].
  destruct (levels_read (sf_file s) ls (sf_unique _ _ _ F) Lv) as (_ & L2 & Mo).
  exact (c98_one_point_partial (st_grid (sgrid_of s h t)) find place_of loc a b col expct (sf_data s k) (Some tm) ls f m q q' ex x default_sbc default_bbc z SS St Fi Ho LD TO L2 Mo DA).
Qed.
Print Assumptions c108_one_point_partial.
(** Data without a time axis, as a bathymetry: at all times the same. *)
Theorem c108_fixed :
  forall dateutil cftime now find s h t p k w a b loc place_of col expct f m q ex pts,
  SgridFile (sf_file s) h t -> open_sgrid_dataset dateutil cftime s = Ok p -> In (k, w) (fi_vars (sf_file s)) -> ~ TopologyWord t k ->
  SitsAt (a_r (sf_nums s (fst (h_nodes h)))) (a_c (sf_nums s (fst (h_nodes h)))) (places h) w a b loc ->
  Timeless (sf_file s) w -> fm_shape w = [a; b] ->
  let g := st_grid (fst p) in
  SameShape g -> OnChart g h (fm_dims w) loc a b col expct -> Finds g find place_of (map fst pts) ->
  Holds (sf_data s k) None None a b (fun _ _ => f) (fun _ => m) ->
  ask_sgrid dateutil cftime now find s k q ex pts = Ok (map (fun x => expct (snap a b f m) (fst x, place_of (fst x))) pts).
Proof.
  intros dateutil cftime now find s h t p k w a b loc place_of col expct f m q ex pts F O I NG Si Tl Sh g SS An Fi Ho.
  destruct (chart_in dateutil cftime s h t F p _ O loc a b col expct An) as (Ep & St). unfold g in *. rewrite Ep in *.
  rewrite (sgrid_fixed dateutil cftime s h t F p O k w I NG a b loc Si Tl Sh now find q ex pts).
  refine (c98_times_partial (st_grid (sgrid_of s h t)) find place_of loc a b col expct (sf_data s k) None (fun _ => f) m q q ex pts None SS St Fi Ho _).
  intros l H. discriminate H.
Qed.
Print Assumptions c108_fixed.
(** A field, bilinear over the cells and linear between the instants, sampled at
    the nodes: answered without distortion wherever the tree finds the point. *)
Theorem c108_fields_partial :
  forall dateutil cftime now find s h t p k w ts place_of (f : Z -> R * R -> R) q q' ex pts,
  SgridFile (sf_file s) h t -> open_sgrid_dataset dateutil cftime s = Ok p -> In (k, w) (fi_vars (sf_file s)) -> ~ TopologyWord t k ->
  let x := sf_nums s (fst (h_nodes h)) in let v := sf_nums s (snd (h_nodes h)) in
  SitsAt (a_r x) (a_c x) (places h) w (a_r x) (a_c x) "node" -> InstantsIn cftime (sf_file s) w ts -> fm_shape w = [length ts; a_r x; a_c x] ->
  SameShape (st_grid (fst p)) -> Finds (st_grid (fst p)) find place_of (map fst pts) ->
  Holds (sf_data s k) (Some ts) None (a_r x) (a_c x) (fun u _ i j => f u (a_at x i j, a_at v i j)) (fun _ _ _ => false) ->
  (forall u, BilinearInCells (st_grid (fst p)) (f u)) -> TimeOk (Some ts) ex q q' ->
  ask_sgrid dateutil cftime now find s k q ex pts =
  Ok (map (fun u => match place_of (fst u) with Some _ => RVal (f q' (fst u)) | None => RMask end) pts).
Proof.
  intros dateutil cftime now find s h t p k w ts place_of f q q' ex pts F O I NG x v Si In_ Sh SS Fi Ho HB TO.
  destruct (sgrid_open_inv dateutil cftime s h t F p O) as (Ep & _).
  rewrite (c108_times_partial dateutil cftime now find s h t p k w (a_r x) (a_c x) "node" ts place_of false node_expected (fun u i j => f u (a_at x i j, a_at v i j)) (fun _ _ => false) q q' ex pts); auto.
  - f_equal. apply map_ext_in. intros u Hu. destruct (Fi (fst u)) as (_ & W); [now apply in_map|]. destruct (place_of (fst u)) as [[[r c] [l mm]]|]; [|reflexivity].
    unfold node_expected. cbn [snd snap a_at d_mask andb]. f_equal. unfold or0. cbn [d_mask d_val].
    unfold WellPlaced in W. cbn [snd fst] in W. destruct W as (Cell & Un & Pl & _). rewrite <- Pl. symmetry. rewrite Ep in *. exact (HB q' r c l mm Cell Un).
  - rewrite Ep. exact (ChartNodes (st_grid (sgrid_of s h t)) h (fm_dims w)).
Qed.
Print Assumptions c108_fields_partial.

(** ** What goes wrong on the way *)
(** Faces with the paddings [rows] and [cols] by the names of the dimensions, but
    listed as the convention has it, the dimension of the columns first: the
    answers are those of the paddings in the other order. *)
Lemma columns_first s h t dr dc n1 w1 n2 w2 rows cols a b loc : h_pads h = [(dc, n2, w2); (dr, n1, w1)] -> Word w1 rows -> Word w2 cols -> In loc ["face"; "center"] ->
  let g := st_grid (sgrid_of s h t) in
  a >= low_extra cols + (a_r (g_lon g) - 1) -> b >= low_extra rows + (a_c (g_lon g) - 1) ->
  Sits g loc a b true (fun var => center_expected var (cols, rows)).
Proof.
  intros Hp W1 W2 L g Ha Hb. apply word_pad in W1. apply word_pad in W2. destruct W1 as [E1 K1], W2 as [E2 K2].
  apply OnCenters; [destruct L as [<-|[<-|[]]]; reflexivity| |split; assumption|assumption..].
  unfold face_padding. cbn [g sgrid_of st_grid g_pads sp_face pads_of]. rewrite Hp. cbn [pads_in map pad_type]. rewrite E1, E2. reflexivity.
Qed.
Theorem c108_columns_first :
  forall dateutil cftime now find s h t p k w a b loc dr dc n1 w1 n2 w2 rows cols place_of f m q ex pts,
  SgridFile (sf_file s) h t -> open_sgrid_dataset dateutil cftime s = Ok p -> In (k, w) (fi_vars (sf_file s)) -> ~ TopologyWord t k ->
  SitsAt (a_r (sf_nums s (fst (h_nodes h)))) (a_c (sf_nums s (fst (h_nodes h)))) (places h) w a b loc -> In loc ["face"; "center"] ->
  Timeless (sf_file s) w -> fm_shape w = [a; b] -> h_pads h = [(dc, n2, w2); (dr, n1, w1)] -> Word w1 rows -> Word w2 cols ->
  let g := st_grid (fst p) in
  a >= low_extra cols + (a_r (g_lon g) - 1) -> b >= low_extra rows + (a_c (g_lon g) - 1) ->
  SameShape g -> Finds g find place_of (map fst pts) -> Holds (sf_data s k) None None a b (fun _ _ => f) (fun _ => m) ->
  ask_sgrid dateutil cftime now find s k q ex pts = Ok (map (fun x => center_expected (snap a b f m) (cols, rows) (fst x, place_of (fst x))) pts).
Proof.
  intros dateutil cftime now find s h t p k w a b loc dr dc n1 w1 n2 w2 rows cols place_of f m q ex pts F O I NG Si L Tl Sh Hp W1 W2 g Ha Hb SS Fi Ho.
  destruct (sgrid_open_inv dateutil cftime s h t F p O) as (Ep & _). unfold g in *. rewrite Ep in *.
  pose proof (columns_first s h t dr dc n1 w1 n2 w2 rows cols a b loc Hp W1 W2 L Ha Hb) as St.
  rewrite (sgrid_fixed dateutil cftime s h t F p O k w I NG a b loc Si Tl Sh now find q ex pts).
  refine (c98_times_partial (st_grid (sgrid_of s h t)) find place_of loc a b true _ (sf_data s k) None (fun _ => f) m q q ex pts None SS St Fi Ho _).
  intros l H. discriminate H.
Qed.
Print Assumptions c108_columns_first.
(** A variable with the name of a property of the grid object: nothing opens. *)
Theorem c108_read_only_refuted :
  forall dateutil cftime s g k v, grid_from_netcdf (as_grid (sf_file s)) None None = Ok (ReadWith Grid_S) -> find_topology_var (as_grid (sf_file s)) <> None ->
  SSaveModel.load paired (as_sgrid (sf_file s)) = Ok g -> In (k, v) (fi_vars (sf_file s)) -> In k ["shape"; "info"; "non_grid_variables"; "nodes"; "centers"] ->
  open_sgrid_dataset dateutil cftime s = Err AttributeError.
Proof.
  intros dateutil cftime s g k v A T L I K. unfold open_sgrid_dataset, open_sgrid. rewrite A. cbn [bind]. destruct (find_topology_var (as_grid (sf_file s))); [|contradiction]. rewrite L. cbn [bind].
  assert (C : clash read_only (sf_file s) = true); [|rewrite C; reflexivity].
  apply existsb_exists. exists (k, v). split; [exact I|]. cbn [fst]. cbn [In] in K. destruct K as [<-|[<-|[<-|[<-|[<-|[]]]]]]; reflexivity.
Qed.
Print Assumptions c108_read_only_refuted.
(** Without vertical dimensions, which the convention does not ask for: nothing
    opens. *)
Theorem c108_no_vertical_refuted :
  forall dateutil cftime s k t l p, let f := sf_file s in
  UniqueNames f -> In (k, t) (fi_vars f) -> Attr t "cf_role" "grid_topology" -> fm_topology_dimension t = Some 2%Z ->
  (forall n v r, In (n, v) (fi_vars f) -> Attr v "cf_role" r -> Mentions "topology" r -> n = k) ->
  PaddingsAre t "face_dimensions" l -> length l >= 2 -> dget (fm_attrs t) "vertical_dimensions" = None -> fm_dims t = [] -> dget (fm_attrs t) "grid" = None ->
  open_sgrid_dataset dateutil cftime s <> Ok p.
Proof.
  intros dateutil cftime s k t l p f U I R D On P L V Di G O. unfold open_sgrid_dataset in O. apply bind_ok in O. destruct O as (st & O & _).
  unfold open_sgrid in O. apply bind_ok in O. destruct O as (a & _ & O). destruct a as [[]|]; try discriminate O. destruct (find_topology_var (as_grid (sf_file s))) as [tv|]; [|discriminate O].
  apply bind_ok in O. destruct O as (g & O & _). fold f in O.
  set (h := mkChart k ("", "") None None None l None None [] None).
  unfold SSaveModel.load in O. rewrite vars_svars, (topology_found f U h t I R D On) in O. cbn [bind] in O. change (h_var h) with k in O. rewrite (svar_get f U _ _ I) in O.
  do 8 (apply bind_ok in O; destruct O as (? & _ & O)). apply bind_ok in O. destruct O as (vd & Hv & O). do 3 (apply bind_ok in O; destruct O as (? & _ & O)). apply bind_ok in O. destruct O as (fd & Hf & O).
  apply bind_ok in O. destruct O as (vars & Hm & _).
  unfold SSaveModel.get_dimension, attr in Hv. cbn [to_svar sv_attrs snd] in Hv. rewrite V in Hv. injection Hv as <-.
  destruct (dimension_found h t "face_dimensions" l P) as (text & E). change (h_var h) with k in E, Hf. cbn [h h_var] in Hf. rewrite E in Hf. injection Hf as <-. cbn [snd] in Hm.
  match type of Hm with mapM_res (SSaveModel.variable_of ?g) _ = _ => set (sg := g) in Hm end.
  destruct (c70_no_vertical_refuted sg (svars f) (to_svar (k, t))) as (e & Ee).
  - cbn [sg sg_face]. destruct l as [|e1 [|e2 r]]; [cbn in L; lia|cbn in L; lia|]. cbn [pads_in map]. eauto.
  - reflexivity.
  - unfold svars. exact (in_map to_svar _ _ I).
  - exact Di.
  - exact G.
  - unfold SVarModel.load_variables in Ee. clear - Ee Hm. revert vars Hm. induction (svars f) as [|v r IH]; [discriminate Ee|]. intros vars Hm. cbn [mapM_res] in Ee, Hm.
    apply bind_ok in Hm. destruct Hm as (u & Hx & Hm). unfold SSaveModel.variable_of in Hx. apply bind_ok in Hx. destruct Hx as (d & Hd & _). rewrite Hd in Ee. cbn [bind] in Ee.
    apply bind_ok in Hm. destruct Hm as (us & Hxs & _). destruct (mapM_res (fun v => do d <- create_variable sg v; Ok (sv_name v, d)) r) as [ys|e']; cbn [bind] in Ee; [discriminate Ee|]. injection Ee as ->. exact (IH eq_refl us Hxs).
Qed.
Print Assumptions c108_no_vertical_refuted.

(** ** Files *)
(** [ft]: the paddings of the faces; the faces have [n] rows and columns. *)
Definition c108_topology (ft : string) (vertical : dict string) : mvar :=
  mkMvar [] [] ([("cf_role", "grid_topology"); ("node_dimensions", "xi_psi eta_psi"); ("node_coordinates", "lon_psi lat_psi");
    ("face_dimensions", ft); ("face_coordinates", "lon_rho lat_rho"); ("edge1_dimensions", "eta_u: eta_psi (padding: both)"); ("edge1_coordinates", "lon_u lat_u")] ++ vertical)
    (Some 2%Z) None None [] [] [] (fun _ => []).
Definition c108_vertical : dict string := [("vertical_dimensions", "s_rho: s_w (padding: none)")].
Definition c108_rho (n : nat) : mvar := c105_xy "rho" n n.
Definition c108_grid_vars (ft : string) (vertical : dict string) (n : nat) : dict mvar :=
  [("grid", c108_topology ft vertical); ("lon_psi", c105_xy "psi" 3 3); ("lat_psi", c105_xy "psi" 3 3); ("lon_rho", c108_rho n); ("lat_rho", c108_rho n);
   ("lon_u", c105_xy "u" 4 3); ("lat_u", c105_xy "u" 4 3); ("mask_rho", c108_rho n)].
Definition c108_file (ft : string) (vertical : dict string) (n : nat) (data : dict mvar) : file := c105_file (c108_grid_vars ft vertical n) data.
Definition c108_chart (l : list entry) : chart :=
  mkChart "grid" ("lon_psi", "lat_psi") (Some ("lon_rho", "lat_rho")) (Some ("lon_u", "lat_u")) None l (Some [("eta_u", "eta_psi", "both")]) None [("s_rho", "s_w", "none")] (Some "mask_rho").
Lemma legal f n w : VerdatText.all_chars is_word f = true -> f <> "" -> VerdatText.all_chars is_word n = true -> n <> "" -> VerdatText.all_chars is_alpha w = true -> w <> "" -> LegalEntry (f, n, w).
Proof.
  intros A1 N1 A2 N2 A3 N3. split; [|split].
  - split; auto. now apply (every_iff _ _ word_iff).
  - split; auto. now apply (every_iff _ _ word_iff).
  - split; auto. now apply (every_iff _ _ alpha_iff).
Qed.
Ltac one_legal := apply legal; (reflexivity || discriminate).
Lemma one_clean e : LegalEntry e -> Clean [e] (entry_text e).
Proof.
  intros L. assert (E : (entry_text e = "" ++ entry_text e ++ "")%string) by (cbn [append]; induction (entry_text e) as [|c r IH]; [reflexivity|cbn [append]; congruence]).
  rewrite E. apply clean_entry; [split; [exact Logic.I|left; reflexivity]|exact L|apply clean_end; exact Logic.I].
Qed.
Lemma two_clean e1 e2 : LegalEntry e1 -> LegalEntry e2 -> Clean [e1; e2] (entry_text e1 ++ " " ++ entry_text e2)%string.
Proof.
  intros L1 L2. assert (E : forall u : string, (u ++ "" = u)%string) by (induction u as [|c r IH]; [reflexivity|cbn [append]; congruence]).
  replace (entry_text e1 ++ " " ++ entry_text e2)%string with ("" ++ entry_text e1 ++ (" " ++ entry_text e2 ++ ""))%string by (rewrite E; reflexivity).
  apply clean_entry; [split; [exact Logic.I|left; reflexivity]|exact L1|]. apply clean_entry; [|exact L2|apply clean_end; exact Logic.I].
  split; [cbn; split; [discriminate|exact Logic.I]|]. right. exists "", " "%char. split; [reflexivity|]. intros H. apply word_not in H. tauto.
Qed.
Lemma c108_sgrid ft e1 e2 n data : ft = (entry_text e1 ++ " " ++ entry_text e2)%string -> LegalEntry e1 -> LegalEntry e2 -> KnownWord (snd e1) -> KnownWord (snd e2) ->
  UniqueNames (c108_file ft c108_vertical n data) ->
  Forall (fun x => dget (fm_attrs (snd x)) "cf_role" = None /\ dget (fm_attrs (snd x)) "grid" = None /\ dget (fm_attrs (snd x)) "location" <> Some "edge2" /\
                   ~ In (fst x) read_only /\ ~ In (fst x) attributes /\ fst x <> "angle") data ->
  SgridFile (c108_file ft c108_vertical n data) (c108_chart [e1; e2]) (c108_topology ft c108_vertical).
Proof.
  intros Ef L1 L2 K1 K2 U Da. rewrite Forall_forall in Da.
  assert (Vars : forall k v, In (k, v) (fi_vars (c108_file ft c108_vertical n data)) -> (k, v) = ("grid", c108_topology ft c108_vertical) \/ In (k, v) (tl (c108_grid_vars ft c108_vertical n)) \/
    In (k, v) [("time", c102_time); ("depth", c102_depth)] \/ In (k, v) data).
  { intros k v. cbn [c108_file c105_file c108_grid_vars tl fi_vars app In]. intuition. }
  assert (P : forall P : string -> mvar -> Prop, P "grid" (c108_topology ft c108_vertical) -> (forall k v, In (k, v) (tl (c108_grid_vars ft c108_vertical n)) -> P k v) ->
    P "time" c102_time -> P "depth" c102_depth -> (forall k v, In (k, v) data -> P k v) -> forall k v, In (k, v) (fi_vars (c108_file ft c108_vertical n data)) -> P k v).
  { intros P H1 H2 H3 H4 H5 k v I. apply Vars in I. destruct I as [I|[I|[[I|[I|[]]]|I]]]; auto; (injection I as <- <- || injection I as -> ->); assumption. }
  assert (X : forall x y vx vy, In (x, vx) (c108_grid_vars ft c108_vertical n) -> In (y, vy) (c108_grid_vars ft c108_vertical n) -> Exists2 (c108_file ft c108_vertical n data) x y).
  { intros x y vx vy Ix Iy. exists vx, vy. split; apply in_or_app; left; assumption. }
  assert (G : forall x vx v, In (x, vx) (c108_grid_vars ft c108_vertical n) -> In (x, v) (fi_vars (c108_file ft c108_vertical n data)) -> v = vx).
  { intros x vx v Ix I. assert (J : In (x, vx) (fi_vars (c108_file ft c108_vertical n data))) by (apply in_or_app; left; exact Ix).
    pose proof (dget_unique _ _ _ U I). pose proof (dget_unique _ _ _ U J). congruence. }
  assert (NS : forall x y, (forall c, In c [x; y] -> NoSpace c) -> NoSpace x /\ NoSpace y) by (intros x y H; split; apply H; cbn; auto).
  constructor.
  - exact U.
  - intros g H. discriminate H.
  - left. reflexivity.
  - reflexivity.
  - reflexivity.
  - intros k v r I A _. revert k v I A. apply (P (fun k v => Attr v "cf_role" r -> k = "grid")).
    + reflexivity.
    + intros k v I A. exfalso. cbn [c108_grid_vars tl In] in I. repeat (destruct I as [I|I]; [injection I as <- <-; discriminate A|]). destruct I.
    + discriminate.
    + discriminate.
    + intros k v I A. exfalso. destruct (Da (k, v) I) as (R & _). unfold Attr in A. cbn [snd] in R. congruence.
  - eexists. reflexivity.
  - split; [split; [reflexivity|split; cbn; repeat split; discriminate]|]. split; [eapply X; [right; left; reflexivity|right; right; left; reflexivity]|]. split; intros v I.
    + rewrite (G "lon_psi" (c105_xy "psi" 3 3) v); [reflexivity|right; left; reflexivity|exact I].
    + rewrite (G "lat_psi" (c105_xy "psi" 3 3) v); [reflexivity|right; right; left; reflexivity|exact I].
  - split; [eapply X; [do 3 right; left; reflexivity|do 4 right; left; reflexivity]|]. left. split; [reflexivity|split; cbn; repeat split; discriminate].
  - split; [eapply X; [do 5 right; left; reflexivity|do 6 right; left; reflexivity]|]. left. split; [reflexivity|split; cbn; repeat split; discriminate].
  - split; [reflexivity|]. apply (P (fun _ v => ~ Attr v "location" "edge2")).
    + discriminate.
    + intros k v I A. cbn [c108_grid_vars tl In] in I. repeat (destruct I as [I|I]; [injection I as <- <-; discriminate A|]). destruct I.
    + discriminate.
    + discriminate.
    + intros k v I A. destruct (Da (k, v) I) as (_ & _ & R & _). exact (R A).
  - split; [|cbn; lia]. exists ft. split; [reflexivity|]. split; [discriminate|]. split; [rewrite Ef; apply two_clean; assumption|]. intros e [<-|[<-|[]]]; assumption.
  - exists "eta_u: eta_psi (padding: both)". split; [reflexivity|]. split; [discriminate|]. split; [apply (one_clean ("eta_u", "eta_psi", "both")); one_legal|]. intros e [<-|[]]. repeat eexists. apply pw_both.
  - reflexivity.
  - exists "s_rho: s_w (padding: none)". split; [reflexivity|]. split; [discriminate|]. split; [apply (one_clean ("s_rho", "s_w", "none")); one_legal|]. intros e [<-|[]]. repeat eexists. apply pw_none.
  - intros k v g I A. revert k v I g A. apply (P (fun k v => forall g, Attr v "grid" g -> fm_dims v <> [])).
    + discriminate.
    + intros k v I g A. cbn [c108_grid_vars tl In] in I. repeat (destruct I as [I|I]; [injection I as <- <-; discriminate A|]). destruct I.
    + discriminate.
    + discriminate.
    + intros k v I g A. destruct (Da (k, v) I) as (_ & R & _). unfold Attr in A. cbn [snd] in R. congruence.
  - right. split.
    + intros v I. enough (H : forall k u, In (k, u) (fi_vars (c108_file ft c108_vertical n data)) -> k <> "angle") by exact (H _ _ I eq_refl). apply (P (fun k _ => k <> "angle")); try discriminate.
      * intros k u J. cbn [c108_grid_vars tl In] in J. repeat (destruct J as [J|J]; [injection J as <- <-; discriminate|]). destruct J.
      * intros k u J. apply (Da (k, u) J).
    + exists "lon_rho", "lat_rho", (c108_rho n), (c108_rho n). split; [reflexivity|]. split; [do 3 right; left; reflexivity|]. split; [do 4 right; left; reflexivity|reflexivity].
  - intros k v I. revert k v I. apply (P (fun k _ => ~ In k read_only /\ ~ In k attributes)).
    + split; intros H; cbn [read_only attributes In] in H; repeat (destruct H as [H|H]; [discriminate H|]); exact H.
    + intros k v J. cbn [c108_grid_vars tl In] in J. repeat (destruct J as [J|J]; [injection J as <- <-; split; intros H; cbn [read_only attributes In] in H; repeat (destruct H as [H|H]; [discriminate H|]); exact H|]). destruct J.
    + split; intros H; cbn [read_only attributes In] in H; repeat (destruct H as [H|H]; [discriminate H|]); exact H.
    + split; intros H; cbn [read_only attributes In] in H; repeat (destruct H as [H|H]; [discriminate H|]); exact H.
    + intros k v J. destruct (Da (k, v) J) as (_ & _ & _ & A & B & _). auto.
  - intros vx I. rewrite (G "lon_rho" (c108_rho n) vx); [|do 3 right; left; reflexivity|exact I]. exists [n; n], (to_svar ("mask_rho", c108_rho n)).
    split; [reflexivity|]. split; [discriminate|]. split; [|reflexivity].
    unfold svars, c108_file, c105_file, fi_vars. rewrite map_app. exists (map to_svar (removelast (c108_grid_vars ft c108_vertical n))), (map to_svar ([("time", c102_time); ("depth", c102_depth)] ++ data)).
    split; [reflexivity|]. split; [split; [left; apply contains_spec; reflexivity|reflexivity]|].
    intros y Iy [Hm _]. apply mask_candidate_iff in Hm. apply in_map_iff in Iy. destruct Iy as ([k u] & <- & Iu). cbn [c108_grid_vars removelast In] in Iu.
    repeat (destruct Iu as [Iu|Iu]; [injection Iu as <- <-; discriminate Hm|]). destruct Iu.
Qed.
Definition c108_pads : list entry := [("eta_rho", "eta_psi", "both"); ("xi_rho", "xi_psi", "both")].
Definition c108_data_vars : dict mvar := [("bath", c108_rho 4); ("temp", c105_temp); ("ubar", c105_u)].
Definition c108_faces : string := "eta_rho: eta_psi (padding: both) xi_rho: xi_psi (padding: both)".
Definition c108_t : mvar := c108_topology c108_faces c108_vertical.
Definition c108_f : file := c108_file c108_faces c108_vertical 4 c108_data_vars.
Definition c108_s : sfile := mkSfile c108_f (c105_nums c105_sizes) (fun _ => (MPlain, mkArr 4 4 (fun _ _ => mkM 1 false))) c105_data.
Definition c108_h : chart := c108_chart c108_pads.
Lemma c108_plain data : forallb (fun x => match dget (fm_attrs (snd x)) "cf_role", dget (fm_attrs (snd x)) "grid" with None, None => true | _, _ => false end &&
    negb (match dget (fm_attrs (snd x)) "location" with Some l => String.eqb l "edge2" | None => false end) && negb (isin (fst x) ("angle" :: read_only ++ attributes))) data = true ->
  Forall (fun x => dget (fm_attrs (snd x)) "cf_role" = None /\ dget (fm_attrs (snd x)) "grid" = None /\ dget (fm_attrs (snd x)) "location" <> Some "edge2" /\
                   ~ In (fst x) read_only /\ ~ In (fst x) attributes /\ fst x <> "angle") data.
Proof.
  intros H. rewrite forallb_forall in H. apply Forall_forall. intros x I. specialize (H x I). apply andb_prop in H. destruct H as [H H3]. apply andb_prop in H. destruct H as [H1 H2].
  apply negb_true_iff in H2. apply negb_true_iff in H3. destruct (dget (fm_attrs (snd x)) "cf_role"); [discriminate|]. destruct (dget (fm_attrs (snd x)) "grid"); [discriminate|].
  split; [reflexivity|]. split; [reflexivity|]. split; [intros E; rewrite E in H2; discriminate H2|].
  assert (N : ~ In (fst x) ("angle" :: read_only ++ attributes)) by (intros J; apply isin_in in J; congruence).
  split; [intros J; apply N; right; apply in_app_iff; left; exact J|]. split; [intros J; apply N; right; apply in_app_iff; right; exact J|]. intros E. apply N. left. auto.
Qed.
Lemma c108_sgrid_file : SgridFile c108_f c108_h c108_t.
Proof.
  apply (c108_sgrid c108_faces ("eta_rho", "eta_psi", "both") ("xi_rho", "xi_psi", "both")); [reflexivity|one_legal|one_legal|repeat eexists; apply pw_both|repeat eexists; apply pw_both| |apply c108_plain; reflexivity].
  unfold UniqueNames. cbn [c108_file c105_file c108_grid_vars c108_data_vars fi_vars app map fst]. distinct.
Qed.
Lemma not_word t k : k <> "2" -> forallb (fun x => negb (isin k (split (snd x)))) (fm_attrs t) = true -> ~ TopologyWord t k.
Proof.
  intros N H [E|(a & text & words & I & W & K)]; [exact (N E)|]. rewrite forallb_forall in H. specialize (H _ I). cbn [snd] in H. rewrite (MaskProofs.split_unique _ _ W) in H.
  apply isin_in in K. rewrite K in H. discriminate H.
Qed.
Lemma is_word_of t k a text : In (a, text) (fm_attrs t) -> isin k (split text) = true -> TopologyWord t k.
Proof. intros I K. right. exists a, text, (split text). split; [exact I|]. split; [apply MaskProofs.split_words|apply isin_in; exact K]. Qed.
Lemma c108_level : LevelsIn c108_f (Some c94_levels).
Proof.
  destruct c105_levels as (_ & dv & Lv & Y). split.
  - intros n v I. cbn [c108_f c108_file c105_file c108_grid_vars c108_data_vars fi_vars app In] in I.
    repeat (destruct I as [I|I]; [injection I as <- <-; (split; [discriminate|]); intros a l [<-|[<-|[]]] A; vm_compute in A; try discriminate; injection A as <-; cbn [In]; intros H; repeat (destruct H as [H|H]; [discriminate H|]); exact H|]). destruct I.
  - exists c102_depth. split; [exists "depth", [], ["depth_levels"; "Depth"]; split; [reflexivity|]; split; [do 9 right; left; reflexivity|intros m []]|].
    split; [|split; [cbn; lia|split; [left; exact c102_ascending|]]].
    + split; [reflexivity|]. exists 0, 0%Q. split; [reflexivity|]. split; [reflexivity|]. intros [|[|[|[|i]]]] x H N; cbn in H; try congruence; try lia; injection H as <-; (split; reflexivity).
    + intros x [<-|[<-|[<-|[]]]]; discriminate.
Qed.
Lemma c108_bath_sits : SitsAt 3 3 (places c108_h) (c108_rho 4) 4 4 "center".
Proof. right. split; [apply no_location; reflexivity|]. apply OnRho; [discriminate|reflexivity|reflexivity]. Qed.
Lemma c108_temp_sits : SitsAt 3 3 (places c108_h) c105_temp 3 3 "node".
Proof. right. split; [apply no_location; reflexivity|]. apply OnNode; reflexivity. Qed.
Lemma c108_u_sits : SitsAt 3 3 (places c108_h) c105_u 4 3 "edge1".
Proof. right. split; [apply no_location; reflexivity|]. apply OnU; [discriminate|reflexivity|reflexivity]. Qed.
Lemma c108_words ft v k : In k ["lon_psi"; "lat_psi"; "lon_rho"; "lat_rho"; "lon_u"; "lat_u"] -> TopologyWord (c108_topology ft v) k.
Proof.
  intros H. cbn [In] in H. destruct H as [<-|[<-|[<-|[<-|[<-|[<-|[]]]]]]].
  1, 2: apply (is_word_of _ _ "node_coordinates" "lon_psi lat_psi"); [do 2 right; left; reflexivity|reflexivity].
  1, 2: apply (is_word_of _ _ "face_coordinates" "lon_rho lat_rho"); [do 4 right; left; reflexivity|reflexivity].
  all: apply (is_word_of _ _ "edge1_coordinates" "lon_u lat_u"); [do 6 right; left; reflexivity|reflexivity].
Qed.
Lemma c108_sound : SgridSound demo_cftime c108_f c108_h c108_t 3 3.
Proof.
  intros k w I. cbn [c108_f c108_file c105_file c108_grid_vars c108_data_vars fi_vars app In] in I.
  destruct I as [I|I]; [injection I as <- <-; right; left; split; [apply no_location; reflexivity|left; cbn; lia]|].
  do 6 (destruct I as [I|I]; [injection I as <- <-; left; apply c108_words; cbn [In]; tauto|]).
  destruct I as [I|I]; [injection I as <- <-; right; right; exists 4, 4, "center"; split; [exact c108_bath_sits|]; left; split; [eapply c105_timeless; reflexivity|reflexivity]|].
  do 2 (destruct I as [I|I]; [injection I as <- <-; right; left; split; [apply no_location; reflexivity|left; cbn; lia]|]).
  destruct I as [I|[I|[I|[]]]]; injection I as <- <-; right; right.
  - exists 4, 4, "center". split; [exact c108_bath_sits|]. left. split; [eapply c105_timeless; reflexivity|reflexivity].
  - exists 3, 3, "node". split; [exact c108_temp_sits|]. right. exists c102_times, (Some c94_levels). split; [apply c105_instants; [eexists; reflexivity|reflexivity]|]. split; [exact c108_level|reflexivity].
  - exists 4, 3, "edge1". split; [exact c108_u_sits|]. right. exists c102_times, None. split; [apply c105_instants; [eexists; reflexivity|reflexivity]|]. split; [exact Logic.I|reflexivity].
Qed.
Lemma c108_placed : c98_place (9/10, 1/5)%R = Some (0, 0, (18/39, 1/5)%R) /\ c98_place (100, 100)%R = None /\ c98_place (11/4, 1)%R = Some (1, 1, (1/2, 0)%R).
Proof.
  unfold c98_place. cbn [fst]. destruct (Req_EM_T (9/10) (9/10)) as [_|NN]; [|exfalso; apply NN; reflexivity].
  destruct (Req_EM_T 100 (9/10)) as [?|?]; [exfalso; Lra.lra|]. destruct (Req_EM_T 100 (11/4)) as [?|?]; [exfalso; Lra.lra|].
  destruct (Req_EM_T (11/4) (9/10)) as [?|?]; [exfalso; Lra.lra|]. destruct (Req_EM_T (11/4) (11/4)) as [_|NN]; [|exfalso; apply NN; reflexivity]. auto.
Qed.
Lemma c108_padded : FacesPadded c108_h "eta_rho" "xi_rho" PadBoth PadBoth.
Proof. exists "eta_psi", "both", "xi_psi", "both". split; [constructor|]. split; [constructor|]. left. reflexivity. Qed.
Definition c108_ask := ask_sgrid demo_dateutil demo_cftime c105_now c98_find c108_s.
(** The temperature over time, levels and nodes, the bathymetry at the faces and
    the velocity on the edges. *)
Example c108_example :
  (exists g vs, open_sgrid_dataset demo_dateutil demo_cftime c108_s = Ok (g, vs) /\ sgrid_in c108_s c108_h (st_grid g)) /\
  c108_ask "temp" (hour + 1800000000)%Z false c98_pts = Ok [RVal (88 / 10)%R; RMask; RVal (61 / 4)%R] /\
  c108_ask "bath" 0%Z false c98_pts = Ok [RVal 11%R; RMask; RVal 22%R] /\
  c108_ask "ubar" (hour + 1800000000)%Z false c98_pts = Ok [RVal 1%R; RMask; RVal 2%R].
Proof.
  destruct (c108_opens demo_dateutil demo_cftime c108_s c108_h c108_t c108_sgrid_file c108_sound) as (t & vs & O & Gi). split; [exists t, vs; auto|].
  destruct (sgrid_open_inv demo_dateutil demo_cftime c108_s c108_h c108_t c108_sgrid_file _ O) as (Et & _). cbn [fst] in Et. destruct c108_placed as (P1 & P2 & P3). split; [|split].
  - unfold c108_ask. rewrite (c108_levels_partial demo_dateutil demo_cftime c105_now c98_find c108_s c108_h c108_t (t, vs) "temp" c105_temp 3 3 "node" c102_times c94_levels c98_place node_expected
      (fun t d i j => c105_field t d (ex_lon i j, ex_lat i j)) (fun _ _ => false) (hour + 1800000000)%Z (hour + 1800000000)%Z false c98_pts snd); auto; try exact c108_sgrid_file.
    + cbn [map c98_pts fst snd]. rewrite P1, P2, P3.
      unfold node_expected. cbn [snd]. unfold or0, snap. cbn [a_at d_mask d_val andb]. assert (Eh : (IZR (hour + 1800000000) / IZR hour = 3 / 2)%R) by (unfold hour; cbn; Lra.lra). unfold c105_field. rewrite !Eh. unfold bilin, ex_lon, ex_lat. cbn [fst snd INR Nat.add].
      assert (E2 : Q2R 2 = 2%R) by (unfold Q2R; cbn; field). assert (E3 : Q2R 3 = 3%R) by (unfold Q2R; cbn; field). rewrite E2, E3.
      repeat (f_equal; try Lra.lra).
    + do 11 right. left. reflexivity.
    + apply not_word; [discriminate|reflexivity].
    + exact c108_temp_sits.
    + apply c105_instants; [eexists; reflexivity|reflexivity].
    + exact c108_level.
    + cbn [fst]. rewrite Et. split; reflexivity.
    + cbn [fst]. rewrite Et. exact (ChartNodes (st_grid (sgrid_of c108_s c108_h c108_t)) c108_h _).
    + cbn [fst]. rewrite Et. exact c98_found.
    + split; [reflexivity|]. split.
      * intros ix u j (i & -> & Hi & Hj). split; [reflexivity|]. split; [reflexivity|]. intros r c. split; [reflexivity|]. intros _. cbn [c108_s sf_data c105_data String.eqb nv_at a_at d_val nth].
        destruct i as [|[|i]]; [injection Hi as <-; reflexivity|injection Hi as <-; reflexivity|destruct i; discriminate].
      * intros l r c k E _. injection E as <-. intros i t0 t1 q _ _ _. unfold c105_field, Rdiv. ring.
    + intros u r c _. apply (c98_linear _ (IZR u / IZR hour + ex_lon r c + 2 * ex_lat r c)%R 3%R). intros d. unfold c105_field. cbn [fst snd]. ring.
    + exact c105_time_ok.
    + intros x Hx. exists 0%Q, 10%Q. split; [reflexivity|split; [reflexivity|left]]. split; [exact c102_ascending|].
      destruct Hx as [<-|[<-|[<-|[]]]]; (split; [split; [discriminate|reflexivity]|reflexivity]).
  - unfold c108_ask. rewrite (c108_fixed demo_dateutil demo_cftime c105_now c98_find c108_s c108_h c108_t (t, vs) "bath" (c108_rho 4) 4 4 "center" c98_place true (fun var => center_expected var (PadBoth, PadBoth))
      (fun i j => (10 * INR i + INR j)%R) (fun i _ => Nat.eqb i 0) 0%Z false c98_pts); auto; try exact c108_sgrid_file.
    + cbn [map c98_pts fst snd]. rewrite P1, P2, P3. unfold center_expected, snap. cbn [snd fst a_at d_mask d_val low_extra Nat.add Nat.eqb INR]. repeat (f_equal; try Lra.lra).
    + do 10 right. left. reflexivity.
    + apply not_word; [discriminate|reflexivity].
    + exact c108_bath_sits.
    + eapply c105_timeless; reflexivity.
    + cbn [fst]. rewrite Et. split; reflexivity.
    + cbn [fst]. rewrite Et. exact (ChartFaces (st_grid (sgrid_of c108_s c108_h c108_t)) c108_h ["eta_rho"; "xi_rho"] "center" [] "eta_rho" "xi_rho" PadBoth PadBoth ltac:(right; left; reflexivity) eq_refl c108_padded).
    + cbn [fst]. rewrite Et. exact c98_found.
    + split; [reflexivity|]. split; [|discriminate]. intros ix u j E. cbn in E. subst ix. split; [reflexivity|]. split; [reflexivity|]. intros r c. split; reflexivity.
  - unfold c108_ask. rewrite (c108_times_partial demo_dateutil demo_cftime c105_now c98_find c108_s c108_h c108_t (t, vs) "ubar" c105_u 4 3 "edge1" c102_times c98_place false
      (fun var => edge1_expected (st_grid (sgrid_of c108_s c108_h c108_t)) var (PadBoth, PadNone) (PadBoth, PadBoth))
      (fun _ i j => INR i) (fun _ _ => false) (hour + 1800000000)%Z (hour + 1800000000)%Z false c98_pts); auto; try exact c108_sgrid_file.
    + cbn [map c98_pts fst snd]. rewrite P1, P2, P3. unfold edge1_expected, snap, edge_val. cbn. repeat (f_equal; try Lra.lra).
    + do 12 right. left. reflexivity.
    + apply not_word; [discriminate|reflexivity].
    + exact c108_u_sits.
    + apply c105_instants; [eexists; reflexivity|reflexivity].
    + cbn [fst]. rewrite Et. split; reflexivity.
    + cbn [fst]. rewrite Et. refine (ChartEdges1 (st_grid (sgrid_of c108_s c108_h c108_t)) c108_h ["time"; "eta_u"; "xi_u"] ["time"] "eta_u" "xi_u" PadBoth "eta_rho" "xi_rho" PadBoth PadBoth eq_refl c108_padded _ _).
      * exists "eta_psi", "both", []. split; [reflexivity|constructor].
      * cbn. lia.
    + cbn [fst]. rewrite Et. exact c98_found.
    + split; [reflexivity|]. split.
      * intros ix u j (i & -> & Hi). split; [reflexivity|]. split; [reflexivity|]. intros r c. split; reflexivity.
      * intros l r c k E _. intros i t0 t1 q _ _ _. ring.
    + exact c105_time_ok.
Qed.

(** *** The order of the paddings *)
(** Faces one more row before and one more column after those of the cells; the
    same file lists the columns first. *)
Definition c108_turned : string := "xi_rho: xi_psi (padding: high) eta_rho: eta_psi (padding: low)".
Definition c108_turned_pads : list entry := [("xi_rho", "xi_psi", "high"); ("eta_rho", "eta_psi", "low")].
Definition c108_bath : mvar := c102_var ["eta_rho"; "xi_rho"] [3; 3] [("location", "face")] (fun _ => []).
Definition c108_turned_f : file := c108_file c108_turned c108_vertical 3 [("bath", c108_bath)].
Definition c108_turned_sizes (n : string) : nat * nat := if String.eqb n "lon_u" then (4, 3) else if String.eqb n "lat_u" then (4, 3) else (3, 3).
Definition c108_turned_s : sfile := mkSfile c108_turned_f (c105_nums c108_turned_sizes) (fun _ => (MPlain, mkArr 3 3 (fun _ _ => mkM 1 false)))
  (fun _ => mkNvar [] (fun _ => mkArr 3 3 (fun i j => mkRd (10 * INR i + INR j)%R false))).
Lemma c108_turned_file : SgridFile c108_turned_f (c108_chart c108_turned_pads) (c108_topology c108_turned c108_vertical).
Proof.
  apply (c108_sgrid c108_turned ("xi_rho", "xi_psi", "high") ("eta_rho", "eta_psi", "low")); [reflexivity|one_legal|one_legal|repeat eexists; apply pw_high|repeat eexists; apply pw_low| |apply c108_plain; reflexivity].
  unfold UniqueNames. cbn [c108_file c105_file c108_grid_vars fi_vars app map fst]. distinct.
Qed.
Lemma c108_turned_sits : SitsAt 3 3 (places (c108_chart c108_turned_pads)) c108_bath 3 3 "face".
Proof. left. split; [reflexivity|]. unfold ValidLocation. tauto. Qed.
Lemma c108_turned_sound : SgridSound demo_cftime c108_turned_f (c108_chart c108_turned_pads) (c108_topology c108_turned c108_vertical) 3 3.
Proof.
  intros k w I. cbn [c108_turned_f c108_file c105_file c108_grid_vars fi_vars app In] in I.
  destruct I as [I|I]; [injection I as <- <-; right; left; split; [apply no_location; reflexivity|left; cbn; lia]|].
  do 6 (destruct I as [I|I]; [injection I as <- <-; left; apply c108_words; cbn [In]; tauto|]).
  destruct I as [I|I]; [injection I as <- <-; right; right; exists 3, 3, "node"; split; [right; split; [apply no_location; reflexivity|apply OnNode; reflexivity]|]; left; split; [eapply c105_timeless; reflexivity|reflexivity]|].
  do 2 (destruct I as [I|I]; [injection I as <- <-; right; left; split; [apply no_location; reflexivity|left; cbn; lia]|]).
  destruct I as [I|[]]. injection I as <- <-. right. right. exists 3, 3, "face". split; [exact c108_turned_sits|]. left. split; [eapply c105_timeless; reflexivity|reflexivity].
Qed.
Theorem c108_padding_order_refuted :
  exists s h t p w n1 n2, SgridFile (sf_file s) h t /\ open_sgrid_dataset demo_dateutil demo_cftime s = Ok p /\ In ("bath", w) (fi_vars (sf_file s)) /\ ~ TopologyWord t "bath" /\
  Attr w "location" "face" /\ fm_dims w = ["eta_rho"; "xi_rho"] /\ h_pads h = [("xi_rho", n2, "high"); ("eta_rho", n1, "low")] /\
  fm_shape w = [padded PadLow (a_r (g_lon (st_grid (fst p))) - 1); padded PadHigh (a_c (g_lon (st_grid (fst p))) - 1)] /\
  SameShape (st_grid (fst p)) /\ Finds (st_grid (fst p)) c98_find c98_place (map fst c98_pts) /\
  Holds (sf_data s "bath") None None 3 3 (fun _ _ i j => 10 * INR i + INR j)%R (fun _ _ _ => false) /\
  ask_sgrid demo_dateutil demo_cftime c105_now c98_find s "bath" 0%Z false c98_pts = Ok [RVal 1%R; RMask; RVal 12%R] /\
  map (fun x => center_expected (snap 3 3 (fun i j => 10 * INR i + INR j)%R (fun _ _ => false)) (PadLow, PadHigh) (fst x, c98_place (fst x))) c98_pts = [RVal 10%R; RMask; RVal 21%R].
Proof.
  destruct (c108_opens demo_dateutil demo_cftime c108_turned_s _ _ c108_turned_file c108_turned_sound) as (t & vs & O & Gi).
  destruct (sgrid_open_inv demo_dateutil demo_cftime c108_turned_s _ _ c108_turned_file _ O) as (Et & _). cbn [fst] in Et. destruct c108_placed as (P1 & P2 & P3).
  exists c108_turned_s, (c108_chart c108_turned_pads), (c108_topology c108_turned c108_vertical), (t, vs), c108_bath, "eta_psi", "xi_psi".
  assert (I : In ("bath", c108_bath) (fi_vars (sf_file c108_turned_s))) by (do 10 right; left; reflexivity).
  assert (N : ~ TopologyWord (c108_topology c108_turned c108_vertical) "bath") by (apply not_word; [discriminate|reflexivity]).
  assert (SS : SameShape (st_grid t)) by (rewrite Et; split; reflexivity).
  assert (Fi : Finds (st_grid t) c98_find c98_place (map fst c98_pts)) by (rewrite Et; exact c98_found).
  assert (Ho : Holds (sf_data c108_turned_s "bath") None None 3 3 (fun _ _ i j => 10 * INR i + INR j)%R (fun _ _ _ => false)).
  { split; [reflexivity|]. split; [|discriminate]. intros ix u j E. cbn in E. subst ix. split; [reflexivity|]. split; [reflexivity|]. intros r c. split; reflexivity. }
  split; [exact c108_turned_file|]. split; [exact O|]. split; [exact I|]. split; [exact N|]. split; [reflexivity|]. split; [reflexivity|]. split; [reflexivity|].
  split; [cbn [fst]; rewrite Et; reflexivity|]. split; [exact SS|]. split; [exact Fi|]. split; [exact Ho|]. split.
  - rewrite (c108_columns_first demo_dateutil demo_cftime c105_now c98_find c108_turned_s _ _ (t, vs) "bath" c108_bath 3 3 "face" "eta_rho" "xi_rho" "eta_psi" "low" "xi_psi" "high" PadLow PadHigh c98_place
      (fun i j => 10 * INR i + INR j)%R (fun _ _ => false) 0%Z false c98_pts c108_turned_file O I N c108_turned_sits); auto.
    + cbn [map c98_pts fst snd]. rewrite P1, P2, P3. unfold center_expected, snap. cbn [snd fst a_at d_mask d_val low_extra Nat.add INR]. repeat (f_equal; try Lra.lra).
    + left. reflexivity.
    + eapply c105_timeless; reflexivity.
    + constructor.
    + constructor.
    + cbn [fst]. rewrite Et. cbn. lia.
    + cbn [fst]. rewrite Et. cbn. lia.
  - cbn [map c98_pts fst snd]. rewrite P1, P2, P3. unfold center_expected, snap. cbn [snd fst a_at d_mask d_val low_extra Nat.add INR]. repeat (f_equal; try Lra.lra).
Qed.
Print Assumptions c108_padding_order_refuted.
(** *** The other two *)
Example c108_no_vertical_ex : forall p, open_sgrid_dataset demo_dateutil demo_cftime (mkSfile (c108_file c108_faces [] 4 []) (c105_nums c105_sizes) (sf_flags c108_s) c105_data) <> Ok p.
Proof. intros p H. vm_compute in H. discriminate H. Qed.
Example c108_read_only_ex : open_sgrid_dataset demo_dateutil demo_cftime (mkSfile (c108_file c108_faces c108_vertical 4 [("info", c108_rho 4)]) (c105_nums c105_sizes) (sf_flags c108_s) c105_data) = Err AttributeError.
Proof. vm_compute. reflexivity. Qed.
