(** Lemmas about the way from a file with a regular grid to the answers. *)
From Coq Require Import String Lqa.
From Verif Require Import Common CommonProofs TimeModel TimeSpec TimeProofs GridTypeModel GridTypeSpec GridTypeProofs GridTypeProps MaskModel MaskSpec MaskProofs VariableModel VariableSpec DepthModel DepthSpec DepthProofs
  RGridModel TFileModel TFileSpec TFileProofs TFileProps LoadModel LoadSpec LoadProofs LoadProps VLoadModel WholeModel WholeSpec WholeProofs FMeshModel FMeshSpec FMeshProofs FRectModel FRectSpec.
Open Scope string_scope.
Open Scope list_scope.
Open Scope nat_scope.

(** ** The grid *)
Lemma present_in f n : InFile (as_grid f) n <-> Present f n.
Proof.
  split.
  - intros (v & I & E). apply in_map_iff in I. destruct I as ([a w] & <- & I). exists a, w. auto.
  - intros (a & w & I & E). exists (to_grid (a, w)). split; [apply in_map; exact I|exact E].
Qed.
Lemma first_ext {A} (P R : A -> Prop) l x : (forall y, P y <-> R y) -> FirstWith P l x -> FirstWith R l x.
Proof. intros H (pre & post & E & Hx & N). exists pre, post. split; [exact E|]. split; [apply H; exact Hx|]. intros y Hy Ry. apply (N y Hy). apply H. exact Ry. Qed.
Lemma named_one f n x v : UniqueNames f -> OneNamed f n x -> Named (as_grid f) n v -> exists a, v = to_grid (a, x) /\ In (a, x) (fi_vars f).
Proof.
  intros U (a & Ia & _ & Only) (pre & post & E & C & _).
  assert (I : In v (map to_grid (fi_vars f))) by (change (map to_grid (fi_vars f)) with (gf_vars (as_grid f)); rewrite E; apply in_app_iff; right; left; reflexivity).
  apply in_map_iff in I. destruct I as ([b u] & <- & I). pose proof (Only b u I C) as ->. exists a. split; [|exact Ia].
  pose proof (dget_unique _ _ _ U I) as G. rewrite (dget_unique _ _ _ U Ia) in G. congruence.
Qed.

Definition rect_of (ln la : string) (lon lat : list Q) : rect := mkRect (rg_new lon lat (Some (la, ln))) [("node_lon", ln); ("node_lat", la)].
Lemma rect_read f ln la lon lat : RectFile f ln la lon lat -> open_rect f = Ok (rect_of ln la lon lat).
Proof.
  intros (U & Decl & Top & Faces & First & x & y & Nx & Ny & Ex & Ey & Sx & Sy).
  assert (First' : FirstWith (PairIn (as_grid f)) axis_names (ln, la)).
  { eapply first_ext; [|exact First]. intros [p q]. unfold PairIn. cbn [fst snd]. rewrite !present_in. tauto. }
  pose proof (find_pair_spec (as_grid f) _ coord_names_lower) as Fp. change node_coord_names with axis_names in Fp.
  destruct (find_pair (lower_vars (as_grid f)) axis_names) as [[[n1 v1] [n2 v2]]|] eqn:E; [|exfalso; eapply first_none; eauto].
  destruct Fp as (F1 & N1 & N2). pose proof (first_unique _ _ _ _ F1 First') as En. injection En as -> ->.
  destruct (named_one f ln x v1 U Nx N1) as (a1 & -> & I1). destruct (named_one f la y v2 U Ny N2) as (a2 & -> & I2).
  assert (NT : NoneWith IsTopology (gf_vars (as_grid f))).
  { intros v Iv (r & Hr & M). apply in_map_iff in Iv. destruct Iv as ([n w] & <- & Iv). exact (Top n w r Iv Hr M). }
  assert (Base : find_base (as_grid f) None = Ok ([("node_lon", SVar (to_grid (a1, x))); ("node_lat", SVar (to_grid (a2, y)))], [("node_lon", ln); ("node_lat", la)])).
  { unfold find_base. change node_coord_names with axis_names. rewrite E. reflexivity. }
  assert (Ty : get_grid_type (as_grid f) None None = Ok Grid_R).
  { destruct (c35_by_variables (as_grid f) Decl NT) as (_ & H & _).
    destruct (H (SVar (to_grid (a1, x))) (SVar (to_grid (a2, y)))) as [K _].
    - eapply two; eauto.
    - intros v Fv. inversion Fv as [n v' Ff Nm]; subst. destruct Ff as (pre & post & El & Pn & _). apply (Faces n); [rewrite El; apply in_app_iff; right; left; reflexivity|].
      apply present_in. exact Pn.
    - apply K. cbn [OneDim to_grid gv_shape snd]. rewrite Sx, Sy. split; reflexivity. }
  unfold open_rect, grid_from_netcdf. rewrite Ty. cbn [bind].
  pose proof (find_topology_spec (as_grid f)) as Ft. destruct (find_topology_var (as_grid f)); [exfalso; eapply first_none; eauto|].
  unfold find_r. rewrite Base. cbn [bind get_arg dget String.eqb Ascii.eqb Bool.eqb ndim to_grid gv_shape snd]. rewrite Sx, Sy. cbn [length Nat.eqb negb bind fst snd dget String.eqb Ascii.eqb Bool.eqb get_arg].
  cbn [bind axis_values to_grid gv_name fst snd]. rewrite (dget_unique _ _ _ U I1). cbn [bind]. rewrite (dget_unique _ _ _ U I2). cbn [bind]. rewrite Ex, Ey. reflexivity.
Qed.

Lemma axis_name_cases f ln la lon lat : RectFile f ln la lon lat -> In (ln, la) axis_names.
Proof. intros (_ & _ & _ & _ & (pre & post & E & _) & _). rewrite E. apply in_app_iff. right. left. reflexivity. Qed.
Lemma axis_words f ln la lon lat : RectFile f ln la lon lat -> split ln = [ln] /\ split la = [la] /\ ln <> la.
Proof.
  intros H. apply axis_name_cases in H. cbn [axis_names In] in H.
  destruct H as [H|[H|[H|[H|[]]]]]; injection H as <- <-; repeat split; discriminate.
Qed.
Lemma rect_grid_name f ln la lon lat k : RectFile f ln la lon lat -> GridName (rect_api (rect_of ln la lon lat)) k <-> k = ln \/ k = la.
Proof.
  intros H. destruct (axis_words _ _ _ _ _ H) as (A & B & _). rewrite <- grid_name_iff. unfold is_grid_name. cbn [rect_api rect_of ga_topology re_topology existsb snd].
  rewrite A, B. unfold isin. cbn [existsb]. rewrite !orb_false_r, orb_true_iff, !String.eqb_eq. tauto.
Qed.

(** ** Loading *)
Lemma location_of_attr g w loc : Attr w "location" loc -> ValidLocation loc -> LocationOf g (to_load w) loc.
Proof. intros A V. left. split; [exact A|exact V]. Qed.

Section Load.
  Context (dateutil : string -> dparse) (cftime : string -> option (Z * Z * Z)) (rd : result unit) (g : grid_api).
  Context (f : file) (U : UniqueNames f).
  Lemma load_vars : lf_vars (as_load f) = map (fun kv => (fst kv, to_load (snd kv))) (fi_vars f).
  Proof. reflexivity. Qed.
  Lemma load_get k w : In (k, w) (fi_vars f) -> dget (lf_vars (as_load f)) k = Some (to_load w).
  Proof. intros I. rewrite load_vars, dget_map, (dget_unique _ _ _ U I). reflexivity. Qed.
  (** The axis of a variable, as read. *)
  Lemma axis_read w ts n aw : TimeAxisOf (as_load f) (to_load w) n -> In (n, aw) (fi_vars f) ->
    FileInstants cftime (mkTvar (fm_dims aw) None (dget (fm_attrs aw) "units") (fm_ints aw)) ts ->
    (exists u, dget (fm_attrs aw) "units" = Some u /\ Mentions "since" u) -> StrictlyIncreasing ts ->
    exists t nm, time_from_netCDF dateutil cftime (tfile_of (as_load f)) (Some n) DVNone TzNone None None None None = Ok (Axis t nm) /\ t_data t = ts.
  Proof.
    intros Ax Ia FIn SO SI. unfold time_from_netCDF. cbn [bind tfile_of tf_vars]. rewrite load_vars, map_map. cbn [fst snd].
    rewrite (dget_map (fun x => tvar_of (to_load x))), (dget_unique _ _ _ U Ia). cbn [option_map].
    destruct SO as (u & Hu & Hs). destruct (since_axis dateutil cftime (tvar_of (to_load aw)) u ts FIn Hu Hs SI) as (t' & nm & Et' & Hm). rewrite Et'. eauto.
  Qed.
  Lemma loaded vs k w loc ts : load_variables dateutil cftime rd g (as_load f) = Ok vs ->
    In (k, w) (fi_vars f) -> ~ GridName g k -> LocationOf g (to_load w) loc -> InstantsIn cftime f w ts ->
    exists v t nm, dget vs k = Some v /\ va_loc v = loc /\ va_varname v = k /\ va_shape v = fm_shape w /\
      va_time v = TimeRead t nm /\ t_data t = ts /\ va_depth v = if length (fm_shape w) =? GridDimensions (ga_kind g) + 2 then DepthRead else DepthNone.
  Proof.
    intros Hv I NG HL (an & aw & Ax & Ia & FIn & SO & SI).
    assert (Ik : In (k, to_load w) (lf_vars (as_load f))) by (rewrite load_vars; apply in_map_iff; exists (k, w); auto).
    destruct (loads_get _ _ _ _ (c78_loaded _ _ _ _ _ _ Hv) ltac:(rewrite load_vars, map_map; exact U) k (to_load w) loc Ik NG HL) as (v & l' & G & (a & Ha & An & Al & At & Az & Ad & Au & Ao & Ap & _) & HL').
    assert (l' = loc) as -> by (apply find_location_iff in HL, HL'; congruence).
    pose proof (load_get k w I) as Gw.
    destruct (c77_fields _ _ _ _ _ _ _ _ Ha) as (w1 & W1 & Fn & _ & Fs & _). rewrite An in *. assert (w1 = to_load w) by congruence. subst w1.
    destruct (c77_location _ _ _ _ _ _ _ _ Ha) as (_ & _ & _ & Fl & _).
    destruct (c77_time _ _ _ _ _ _ _ _ Ha) as (w2 & W2 & _ & Ft). rewrite An in W2. assert (w2 = to_load w) by congruence. subst w2.
    destruct (proj1 (Ft At) an Ax) as (t & nm & Er & Ev). rewrite Az, Ao, Ap in Er.
    destruct (axis_read w ts an aw Ax Ia FIn SO SI) as (t' & nm' & Er' & Td). rewrite Er' in Er. injection Er as -> ->.
    exists v, t, nm. split; [exact G|]. split; [apply Fl; exact Al|]. split; [exact Fn|]. split; [exact Fs|]. split; [exact Ev|]. split; [exact Td|].
    destruct (c77_depth_partial _ _ _ _ _ _ _ _ Ha At) as (w3 & W3 & _ & Fd). rewrite An in W3. assert (w3 = to_load w) by congruence. subst w3.
    destruct (Fd Ad) as (F1 & _ & F3). specialize (F1 an Ax). cbn [to_load lv_shape] in F1. destruct (Nat.eqb_spec (length (fm_shape w)) (GridDimensions (ga_kind g) + 2)) as [E|E].
    - apply F1. exact E.
    - apply F3. intros X. apply F1 in X. contradiction.
  Qed.

  (** One that loads. *)
  Lemma load_ok k w loc ts rest : In (k, w) (fi_vars f) -> ValidLocation loc -> InstantsIn cftime f w ts ->
    fm_shape w = length ts :: rest -> (length rest = GridDimensions (ga_kind g) + 1 -> rd = Ok tt) ->
    exists v, load_variable dateutil cftime rd g (as_load f) 0 (plain_args k (to_load w) loc) = Ok v.
  Proof.
    intros I VL (an & aw & Ax & Ia & FIn & SO & SI) Sh D. unfold load_variable. cbn [plain_args la_varname]. rewrite (load_get k w I).
    unfold load_time. cbn [plain_args la_time la_tz la_origin la_disp]. destruct (locate_iff (as_load f) (to_load w)) as (L1 & _ & _). rewrite (proj2 (L1 an) Ax). cbn [bind].
    destruct (axis_read w ts an aw Ax Ia FIn SO SI) as (t & nm & -> & Td). cbn [bind fst snd]. unfold load_depth. cbn [plain_args la_depth].
    assert (exists d, (if length (lv_shape (to_load w)) =? LoadModel.horizontal (ga_kind g) + 1 + 1 then do _ <- rd; Ok DepthRead else Ok DepthNone) = Ok d) as (d & ->).
    { destruct (Nat.eqb_spec (length (lv_shape (to_load w))) (LoadModel.horizontal (ga_kind g) + 1 + 1)) as [E|E]; [|eauto].
      cbn [to_load lv_shape] in E. rewrite Sh in E. cbn [length] in E. rewrite D; [cbn; eauto|]. destruct (ga_kind g); cbn in *; lia. }
    cbn [bind plain_args la_loc]. unfold construct. cbn [check_location]. rewrite (proj2 (valid_iff loc) VL). cbn [bind to_load lv_shape]. rewrite Sh. cbn [times]. rewrite Td, Nat.eqb_refl. cbn [negb andb bind]. eauto.
  Qed.
  Lemma load_all vs : (forall k w, In (k, w) vs -> In (k, w) (fi_vars f)) ->
    (forall k w, In (k, w) vs -> GridName g k \/ find_location g (to_load w) = Ok None \/
       exists loc v, find_location g (to_load w) = Ok (Some loc) /\ load_variable dateutil cftime rd g (as_load f) 0 (plain_args k (to_load w) loc) = Ok v) ->
    exists xs, load_each dateutil cftime rd g (as_load f) (map (fun kv => (fst kv, to_load (snd kv))) vs) = Ok xs.
  Proof.
    clear U. induction vs as [|[k w] vs IH]; intros Sub H; [eexists; reflexivity|]. cbn [map load_each fst snd].
    destruct IH as (xs & Hx); [intros; apply Sub; right; auto|intros; apply H; right; auto|].
    destruct (is_grid_name g k) eqn:G; [eauto|]. destruct (H k w (or_introl eq_refl)) as [K|[-> |(loc & v & Ef & Ev)]].
    - apply grid_name_iff in K. congruence.
    - cbn [bind]. eauto.
    - rewrite Ef. cbn [bind]. rewrite Ev. cbn [bind]. rewrite Hx. cbn. eauto.
  Qed.
  Lemma load_breaks k w : In (k, w) (fi_vars f) -> ~ GridName g k ->
    (forall l, find_location g (to_load w) = Ok l -> exists loc, l = Some loc /\ ~ ValidLocation loc) ->
    forall xs, load_variables dateutil cftime rd g (as_load f) <> Ok xs.
  Proof.
    clear U. intros I NG H. unfold load_variables. rewrite load_vars. generalize I. generalize (fi_vars f) at 1 2 as vs. induction vs as [|[k' w'] vs IH]; intros Iv xs E; [destruct Iv|].
    cbn [map load_each fst snd] in E. destruct Iv as [Ei|Iv].
    - injection Ei as -> ->. destruct (is_grid_name g k) eqn:G; [apply grid_name_iff in G; contradiction|].
      apply bind_ok in E. destruct E as (l & El & E). destruct (H l El) as (loc & -> & NV). apply bind_ok in E. destruct E as (v & Ev & _).
      unfold load_variable in Ev. destruct (dget (lf_vars (as_load f)) _) as [w1|]; [|discriminate]. apply bind_ok in Ev. destruct Ev as (t & _ & Ev). apply bind_ok in Ev. destruct Ev as (d & _ & Ev).
      apply bind_ok in Ev. destruct Ev as (l & Ec & _). unfold construct in Ec. cbn [plain_args la_loc check_location] in Ec.
      destruct (isin loc valid_locations) eqn:V; [apply valid_iff in V; contradiction|discriminate].
    - destruct (is_grid_name g k'); [exact (IH Iv xs E)|]. apply bind_ok in E. destruct E as (l & El & E). destruct l as [l|]; [|exact (IH Iv xs E)].
      apply bind_ok in E. destruct E as (v & _ & E). apply bind_ok in E. destruct E as (ys & Ey & _). exact (IH Iv ys Ey).
  Qed.
End Load.

(** ** Where a variable is *)
Lemma ends_last shape a b : Ends shape a b -> map Z.of_nat (last2 shape) = [Z.of_nat a; Z.of_nat b] \/ (a = b /\ map Z.of_nat (last2 shape) = [Z.of_nat a]).
Proof.
  intros [[-> ->]|(pre & ->)]; [right; auto|left]. unfold last2. rewrite app_length. cbn [length]. rewrite Nat.add_sub, skipn_app, skipn_all, Nat.sub_diag. reflexivity.
Qed.
Definition infer_by (g : rgrid) (shape : list nat) (a b : nat) : Prop :=
  forall P : result (option string) -> Prop,
  P (let is u v := ((Z.of_nat a - Z.of_nat (length (rg_lat g)) =? u) && (Z.of_nat b - Z.of_nat (length (rg_lon g)) =? v))%Z in
     if is 1%Z 1%Z || is (-1)%Z (-1)%Z then Ok (Some "center"%string)
     else if is 1%Z 0%Z then Err AttributeError else if is 0%Z 1%Z then Err AttributeError else if is 0%Z 0%Z then Ok (Some "node"%string) else Ok None) ->
  P (rg_infer g None shape).
Lemma infer_ends g shape a b : Ends shape a b -> infer_by g shape a b.
Proof.
  intros H P K. unfold rg_infer. destruct (ends_last _ _ _ H) as [->|[-> ->]]; cbn [bind fst snd]; exact K.
Qed.
Lemma eqb2_false x y u v : ~ (x = u /\ y = v) -> ((x =? u) && (y =? v))%Z = false.
Proof. intros N. apply andb_false_iff. destruct (Z.eqb_spec x u); [right|left; reflexivity]. apply Z.eqb_neq. tauto. Qed.
Lemma infer_node g pre : rg_infer g None (pre ++ [length (rg_lat g); length (rg_lon g)]) = Ok (Some "node").
Proof.
  apply (infer_ends g _ (length (rg_lat g)) (length (rg_lon g))); [right; eauto|]. cbv beta zeta. rewrite !Z.sub_diag. reflexivity.
Qed.
Lemma infer_elsewhere g shape a b : Ends shape a b -> let ny := length (rg_lat g) in let nx := length (rg_lon g) in
  ~ (a = ny /\ b = nx) -> ~ (a = ny + 1 /\ b = nx + 1) -> ~ (a + 1 = ny /\ b + 1 = nx) -> ~ (a = ny + 1 /\ b = nx) -> ~ (a = ny /\ b = nx + 1) ->
  rg_infer g None shape = Ok None.
Proof.
  intros E ny nx N1 N2 N3 N4 N5. apply (infer_ends g _ a b E). cbv beta zeta. fold ny nx.
  rewrite !eqb2_false by lia. reflexivity.
Qed.
Lemma infer_edge g shape a b : Ends shape a b -> (a = length (rg_lat g) + 1 /\ b = length (rg_lon g)) \/ (a = length (rg_lat g) /\ b = length (rg_lon g) + 1) ->
  rg_infer g None shape = Err AttributeError.
Proof.
  intros E H. apply (infer_ends g _ a b E). cbv beta zeta.
  destruct H as [[-> ->]|[-> ->]]; rewrite !Nat2Z.inj_add; [rewrite (Z.add_comm _ (Z.of_nat 1)), Z.add_simpl_r || rewrite Z.add_simpl_l|]; rewrite ?Z.add_simpl_l, ?Z.add_simpl_r, ?Z.sub_diag; reflexivity.
Qed.

(** ** The whole way *)
Section Opened.
  Context (dateutil : string -> dparse) (cftime : string -> option (Z * Z * Z)).
  Context (f : file) (ln la : string) (lon lat : list Q) (R : RectFile f ln la lon lat).
  Let r := rect_of ln la lon lat.

  Lemma placed_location w sw loc nt levels : Placed w sw loc -> OnAxes w ln la (length lon) (length lat) nt levels sw ->
    LocationOf (rect_api r) (to_load w) loc /\ ValidLocation loc.
  Proof.
    clear R. intros [[A V]|(N & -> & ->)] (_ & Sh); [split; [apply location_of_attr; auto|exact V]|]. split; [|unfold ValidLocation; auto 10]. right. cbn [to_load lv_attrs lv_shape]. rewrite N. split; [discriminate|].
    cbn [rect_api ga_infer]. unfold r_infer. cbn [option_map]. rewrite Sh. cbn [Over]. rewrite app_assoc. apply infer_node.
  Qed.
  Lemma elsewhere_none w : Elsewhere w (length lat) (length lon) -> find_location (rect_api r) (to_load w) = Ok None.
  Proof.
    clear R. intros (N & a & b & E & H1 & H2 & H3 & H4 & H5). unfold find_location. cbn [to_load lv_attrs lv_shape]. rewrite N. cbn [rect_api ga_infer]. unfold r_infer. cbn [option_map].
    apply (infer_elsewhere _ _ a b E); auto.
  Qed.
  Lemma open_inv p : open_rect_dataset dateutil cftime f = Ok p -> fst p = r /\
    load_variables dateutil cftime (do _ <- read_depth f; Ok tt) (rect_api r) (as_load f) = Ok (snd p).
  Proof.
    unfold open_rect_dataset. rewrite (rect_read _ _ _ _ _ R). cbn [bind]. fold r. intros H. apply bind_ok in H. destruct H as (vs & Hv & H). injection H as <-. auto.
  Qed.
  Lemma breaking w l : Breaking w (length lat) (length lon) -> find_location (rect_api r) (to_load w) = Ok l -> exists loc, l = Some loc /\ ~ ValidLocation loc.
  Proof.
    clear R. unfold find_location. cbn [to_load lv_attrs lv_shape rect_api ga_infer]. unfold r_infer. intros [(a & A & NV)|(N & S)] H.
    - unfold Attr in A. rewrite A in H. destruct (isin a valid_locations) eqn:V; [apply valid_iff in V; contradiction|]. cbn [option_map rg_infer] in H. injection H as <-. eauto.
    - rewrite N in H. cbn [option_map] in H. exfalso. destruct S as [E|[E|E]].
      + rewrite E in H. discriminate.
      + rewrite (infer_edge _ _ _ _ E) in H; [discriminate|left; auto].
      + rewrite (infer_edge _ _ _ _ E) in H; [discriminate|right; auto].
  Qed.
  Lemma opens : Sound cftime f ln la (length lon) (length lat) -> exists vs, open_rect_dataset dateutil cftime f = Ok (r, vs).
  Proof.
    intros H. unfold open_rect_dataset. rewrite (rect_read _ _ _ _ _ R). cbn [bind]. fold r. unfold load_variables. rewrite load_vars.
    assert (U : UniqueNames f) by apply R.
    destruct (load_all dateutil cftime (do _ <- read_depth f; Ok tt) (rect_api r) f (fi_vars f)) as (xs & E); [auto| |rewrite E; cbn; eauto].
    intros k w I. destruct (string_dec k ln) as [->|N1]; [left; apply (rect_grid_name _ _ _ _ _ _ R); auto|].
    destruct (string_dec k la) as [->|N2]; [left; apply (rect_grid_name _ _ _ _ _ _ R); auto|].
    right. destruct (H k w I N1 N2) as [El|(sw & loc & ts & levels & Pl & In_ & Lv & Ox)]; [left; apply elsewhere_none; exact El|right].
    destruct (placed_location _ _ _ _ _ Pl Ox) as [HL VL]. destruct Ox as (_ & Sh).
    destruct (load_ok dateutil cftime (do _ <- read_depth f; Ok tt) (rect_api r) f U k w loc ts (match levels with Some ls => [length ls] | None => [] end ++ Over sw (length lat) (length lon)) I VL In_ Sh) as (v & Ev).
    - cbn [rect_api ga_kind GridDimensions]. destruct levels as [ls|].
      + intros _. destruct (levels_read f ls U Lv) as (-> & _). reflexivity.
      + destruct sw; cbn [app Over length]; intros X; discriminate X.
    - exists loc, v. split; [apply find_location_iff; exact HL|exact Ev].
  Qed.
End Opened.

(** ** The answers *)
Lemma last2_app {A} (pre : list A) a b : last2 (pre ++ [a; b]) = [a; b].
Proof. unfold last2. rewrite app_length. cbn [length]. rewrite Nat.add_sub, skipn_app, skipn_all, Nat.sub_diag. reflexivity. Qed.
Lemma on_axes_yx w ln la lon lat nt levels sw : ln <> la -> OnAxes w ln la (length lon) (length lat) nt levels sw ->
  lonlat_to_yx (rg_new lon lat (Some (la, ln))) (Some (fm_dims w)) (fm_shape w) = Ok sw.
Proof.
  intros Ne ((pre & Ed) & Es). unfold lonlat_to_yx. cbn [rg_new rg_dims rg_lon rg_lat fst snd]. rewrite Ed, Es, app_assoc.
  assert (E1 : last2 (pre ++ Over sw la ln) = Over sw la ln) by (destruct sw; apply last2_app).
  assert (E2 : forall p, last2 (p ++ Over sw (length lat) (length lon)) = Over sw (length lat) (length lon)) by (intros p; destruct sw; apply last2_app).
  rewrite E1, E2. unfold memb. destruct sw; cbn [Over forallb existsb fst snd andb orb]; rewrite ?String.eqb_refl, ?Nat.eqb_refl, ?orb_true_r; cbn [orb andb negb bind py_get]; unfold py_get; cbn; rewrite ?String.eqb_refl; [reflexivity|].
  destruct (String.eqb_spec la ln); [congruence|reflexivity].
Qed.
Section Asked.
  Context (dateutil : string -> dparse) (cftime : string -> option (Z * Z * Z)) (now : time_obj).
  Context (f : file) (ln la : string) (lon lat : list Q) (R : RectFile f ln la lon lat).
  Let r := rect_of ln la lon lat.
  Context (p : rect * dict variable) (O : open_rect_dataset dateutil cftime f = Ok p).
  Context (k : string) (w : mvar) (ts : list Z) (levels : option (list Q)) (loc : string).
  Context (I : In (k, w) (fi_vars f)) (N1 : k <> ln) (N2 : k <> la) (HL : LocationOf (rect_api r) (to_load w) loc).
  Context (In_ : InstantsIn cftime f w ts) (Lv : LevelsIn f levels).
  Context (a b : nat) (Sh : fm_shape w = [length ts] ++ match levels with Some ls => [length ls] | None => [] end ++ [a; b]).

  Lemma rect_opened : exists v t nm, dget (snd p) k = Some v /\ va_loc v = loc /\ va_varname v = k /\ va_shape v = fm_shape w /\
    va_time v = TimeRead t nm /\ t_data t = ts /\ va_depth v = match levels with Some _ => DepthRead | None => DepthNone end.
  Proof.
    clear now. destruct (open_inv _ _ _ _ _ _ _ R p O) as (_ & Hv).
    destruct (loaded dateutil cftime _ _ f ltac:(apply R) (snd p) k w loc ts Hv I) as (v & t & nm & G & Vl & Vk & Vs & Vt & Td & Vd); auto.
    - intros G. apply (rect_grid_name _ _ _ _ _ _ R) in G. destruct G; contradiction.
    - exists v, t, nm. split; [exact G|]. split; [exact Vl|]. split; [exact Vk|]. split; [exact Vs|]. split; [exact Vt|]. split; [exact Td|].
      rewrite Vd, Sh. cbn [rect_api ga_kind GridDimensions]. destruct levels; reflexivity.
  Qed.
  Lemma rect_asked : exists t, t_data t = ts /\ LevelsOk levels /\ forall q ex pts,
    ask_rect dateutil cftime now f k q ex pts =
    at_grid (rect_interp (rg_new lon lat (Some (la, ln))) (Some (fm_dims w)) (shape_of (Some t) levels [a; b]) (table_of w))
      (order_of (some (Some t)) (some levels) GStructured) (shape_of (Some t) levels [a; b]) (Some t)
      (option_map (fun ls => l_view deep ls (Some (length ls)) default_sbc default_bbc) levels) q ex pts.
  Proof.
    destruct rect_opened as (v & t & nm & G & Vl & Vk & Vs & Vt & Td & Vd). exists t. split; [exact Td|]. split.
    { intros l ->. destruct (levels_read f l ltac:(apply R) Lv) as (_ & A & B). auto. }
    intros q ex pts. unfold ask_rect. rewrite O. cbn [bind]. rewrite G. destruct (open_inv _ _ _ _ _ _ _ R p O) as (-> & _). unfold rect_answer.
    rewrite Vk, (dget_unique _ _ _ (proj1 R) I), Vs, Vt, Sh. unfold depth_of. rewrite Vd, <- Td. destruct levels as [ls|].
    - destruct (levels_read f ls (proj1 R) Lv) as (-> & _). cbn [bind fst snd app length]. reflexivity.
    - reflexivity.
  Qed.
End Asked.
