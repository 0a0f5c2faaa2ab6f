(** Lemmas about the way from a file of FVCOM to the answers. *)
From Coq Require Import String Lqa.
From Verif Require Import Common CommonProofs TimeModel TimeSpec VariableModel VariableSpec VariableInterpProofs VariableAtProofs GridTypeModel GridTypeSpec DepthModel DepthSpec DepthProofs DepthProps DepthAtProofs
  UGridGeomModel UGridGeomSpec UGridLocProofs SearchModel SearchSpec SearchProofs SearchProps TFileModel TFileSpec LoadModel LoadSpec LoadProofs LoadProps SLoadModel SLoadSpec SLoadProofs SLoadProps VLoadModel UFileSpec
  WholeModel WholeSpec WholeProofs TerrModel TerrSpec TerrProofs FMeshModel FMeshSpec FMeshProofs FRectSpec FRectProofs FStagSpec FStagProofs FRomsModel FRomsSpec FRomsProofs FFvcomModel FFvcomSpec FFvcomRead.
Open Scope string_scope.
Open Scope list_scope.
Open Scope nat_scope.

(** ** What is found *)
Lemma fvcom_found_get f k : dget (found_fvcom f) k = option_map (fun o => match o with
    | Some v => option_map (fun w => mkFref (as_load f) (v_name v) (to_load w)) (dget (fi_vars f) (v_name v)) | None => None end) (finds fvcom_names fvcom_cf (as_names f) k).
Proof. unfold found_fvcom, finds. apply (dget_map (fun o : option SearchModel.nvar => match o with
    | Some v => option_map (fun w => mkFref (as_load f) (v_name v) (to_load w)) (dget (fi_vars f) (v_name v)) | None => None end)). Qed.
Lemma fvcom_found_nodup f : NoDup (keys (found_fvcom f)).
Proof. unfold keys, found_fvcom. rewrite map_map. cbn [fst]. apply (c55_roles fvcom_names fvcom_cf (as_names f) (as_names f) fvcom_nodup fvcom_cf_nodup). Qed.
Lemma fvcom_found_by f role n w : UniqueNames f -> In (n, w) (fi_vars f) -> finds fvcom_names fvcom_cf (as_names f) role = Some (Some (to_name (n, w))) ->
  Found (found_fvcom f) role (mkFref (as_load f) n (to_load w)).
Proof. intros U I E. unfold Found. rewrite fvcom_found_get, E. cbn [option_map to_name v_name fst]. rewrite (dget_unique _ _ _ U I). reflexivity. Qed.
Lemma fvcom_finds_role f role name labels w : UniqueNames f -> In (role, name, labels) fvcom_convention -> Labelled f name labels w ->
  finds fvcom_names fvcom_cf (as_names f) role = Some (Some (to_name (name, w))).
Proof. intros U R L. exact (c87_fvcom_partial _ role name labels _ R (labelled_found f name labels w U L)). Qed.
(** The levels and the layers. *)
Lemma first_wearing f a label n (get : SearchModel.nvar -> option string) : (forall x, get (to_name x) = dget (fm_attrs (snd x)) a) -> FirstWearing f a label n ->
  exists w, In (n, w) (fi_vars f) /\ FirstOf (fun x => get x = Some label) (f_vars (as_names f)) (to_name (n, w)).
Proof.
  intros G (pre & w & post & E & A & N). exists w. split; [rewrite E; apply in_app_iff; right; left; reflexivity|].
  exists (map to_name pre), (map to_name post). split; [cbn [as_names f_vars]; rewrite E, map_app; reflexivity|]. split; [rewrite G; exact A|].
  intros x Ix Gx. apply in_map_iff in Ix. destruct Ix as ([m v] & <- & Iv). rewrite G in Gx. exact (N m v Iv Gx).
Qed.
Lemma none_wearing f a label (get : SearchModel.nvar -> option string) : (forall x, get (to_name x) = dget (fm_attrs (snd x)) a) -> NoneWearing f a label ->
  NoneOf (fun x => get x = Some label) (f_vars (as_names f)).
Proof. intros G N x Ix Gx. destruct (as_names_in f x Ix) as (m & v & Iv & ->). rewrite G in Gx. exact (N m v Iv Gx). Qed.
Lemma label_taken f n w : LongAnswer (as_names f) sigma_label (to_name (n, w)) ->
  finds fvcom_names fvcom_cf (as_names f) "siglev" = Some (Some (to_name (n, w))) /\ finds fvcom_names fvcom_cf (as_names f) "siglay" = Some (Some (to_name (n, w))).
Proof.
  intros W.
  assert (B : forall q, Best (as_names f) (as_names f) [fvcom_label] [q] (Some (to_name (n, w)))).
  { intros q. left. exists fvcom_label. split; [|exact W]. exists [], []. repeat split; auto. now exists (to_name (n, w)). }
  assert (G : forall k q, In (k, [q]) fvcom_names -> In (k, [fvcom_label]) fvcom_cf -> finds fvcom_names fvcom_cf (as_names f) k = Some (Some (to_name (n, w)))).
  { intros k q Hk1 Hk2. destruct (finds_best fvcom_names fvcom_cf (as_names f) k _ _ fvcom_nodup fvcom_cf_nodup Hk1 Hk2) as (r & -> & R). f_equal.
    exact (c55_precedence_unique _ _ _ _ _ _ R (B q)). }
  split; [apply (G _ "siglev")|apply (G _ "siglay")]; cbn; auto.
Qed.
Lemma sigma_taken f lev lay wl wy : UniqueNames f -> SigmaVars f lev lay -> In (lev, wl) (fi_vars f) -> In (lay, wy) (fi_vars f) ->
  finds fvcom_names fvcom_cf (as_names f) "siglev" = Some (Some (to_name (lev, wl))) /\ finds fvcom_names fvcom_cf (as_names f) "siglay" = Some (Some (to_name (lay, wy))).
Proof.
  intros U V Il Iy.
  assert (Same : forall n a b, In (n, a) (fi_vars f) -> In (n, b) (fi_vars f) -> a = b) by (intros n a b A B; pose proof (dget_unique _ _ _ U A); pose proof (dget_unique _ _ _ U B); congruence).
  destruct V as [N1 N2|n F|n N F].
  - assert (L : forall name w, In (name, w) (fi_vars f) -> Labelled f name [sigma_label] w).
    { intros name w I. split; [exact I|]. intros m v a l Im Ia At [<-|[]]. exfalso. destruct Ia as [<-|[<-|[]]]; [exact (N1 m v Im At)|exact (N2 m v Im At)]. }
    split; (eapply fvcom_finds_role; [exact U| |apply L; eassumption]); [right; left; reflexivity|left; reflexivity].
  - destruct (first_wearing f "long_name" sigma_label n v_long ltac:(reflexivity) F) as (w & Iw & FO).
    rewrite (Same _ _ _ Il Iw), (Same _ _ _ Iy Iw). apply label_taken. left. exact FO.
  - destruct (first_wearing f "standard_name" sigma_label n v_std ltac:(reflexivity) F) as (w & Iw & FO).
    rewrite (Same _ _ _ Il Iw), (Same _ _ _ Iy Iw). apply label_taken. right. split; [apply (none_wearing f "long_name"); [reflexivity|exact N]|exact FO].
Qed.

(** ** Which depth *)
Lemma fvcom_makes f np g : UniqueNames f -> FvcomWater f np g -> depth_factory sd_ld_types (can_make f) = Ok (Some FVCOM_Depth).
Proof.
  intros U ((lev & lay & V & (wl & Il & _) & (wy & Iy & _)) & OS & (h & Lh & _) & _).
  destruct (sigma_taken f lev lay wl wy U V Il Iy) as [T1 T2].
  assert (Clean : forall v, In v (f_vars (as_names f)) -> ~ In (v_name v) ["s_rho"; "depth"; "depth_levels"; "Depth"] /\
     forall l, In l ["S-coordinate at RHO-points"; "d"; "e"; "p"; "t"; "h"] -> ~ Carries v l).
  { intros v Iv. destruct (as_names_in f v Iv) as (a & w & Iw & ->). destruct (OS a w Iw) as [Nh K]. split; [exact Nh|].
    intros l Il' C. destruct (carries_attr _ _ _ C) as (at_ & Ia & At). exact (K at_ l Ia At Il'). }
  assert (R1 : can_make f FVCOM_Depth = true).
  { apply (all_found (fun _ => True)); [apply (c55_roles fvcom_names fvcom_cf _ _ fvcom_nodup fvcom_cf_nodup)|]. intros k Ik Nz.
    assert (Ik' : In k (map (fun c => fst (fst c)) fvcom_convention)).
    { destruct c87_roles as (_ & C & _). apply (C (as_names f)). unfold finds. rewrite dget_key. exact Ik. }
    cbn [fvcom_convention map fst In] in Ik'. destruct Ik' as [<-|[<-|[<-|[<-|[]]]]].
    - eexists. exact T2.
    - eexists. exact T1.
    - eexists. exact (fvcom_finds_role f "bathymetry" "h" _ h U ltac:(do 2 right; left; reflexivity) Lh).
    - congruence. }
  assert (R2 : can_make f ROMS_Depth = false).
  { assert (E : finds roms_names roms_cf (as_names f) "s_rho" = Some None).
    { refine (role_unfound _ _ _ _ ["s_rho"] ["S-coordinate at RHO-points"] roms_nodup roms_cf_nodup _ _ _).
      - do 2 right. left. reflexivity.
      - do 2 right. left. reflexivity.
      - intros v Iv. destruct (Clean v Iv) as [A B]. split; [intros [X|[]]; apply A; left; exact X|]. intros l [<-|[]]. apply B. left. reflexivity. }
    unfold finds in E. apply SearchProofs.dget_in in E. unfold can_make, sigma_can. destruct (can_create_sigma _) eqn:C; [|reflexivity]. exfalso.
    apply c51_sigma_support with (k := "s_rho") (b := false) in C; [discriminate| |discriminate]. apply in_map_iff. exists ("s_rho", None). auto. }
  assert (R3 : can_make f L_Depth = false).
  { destruct (c87_levels_partial (as_names f)) as (r & Fr & Rr).
    { intros x l Ix C Il'. destruct (Clean x Ix) as [_ B]. apply (B l); [right; exact Il'|exact C]. }
    destruct r as [v|].
    - exfalso. destruct Rr as (q & (pre & post & E & _) & (p1 & p2 & Ev & En & _)).
      assert (Iv : In v (f_vars (as_names f))) by (rewrite Ev; apply in_app_iff; cbn; auto). destruct (Clean v Iv) as [A _]. apply A. right. rewrite En, E. apply in_app_iff. right. left. reflexivity.
    - cbn [can_make]. unfold can_create. destruct (forallb _ _) eqn:Fb; [|reflexivity]. exfalso. rewrite forallb_forall in Fb. unfold finds in Fr. apply SearchProofs.dget_in in Fr. specialize (Fb _ Fr). discriminate Fb. }
  unfold depth_factory, sd_ld_types. cbn [map]. rewrite R1, R2, R3. reflexivity.
Qed.

(** ** The depth *)
Definition fdepth_made (f : file) (sf : option nat) (t : time_obj) : sdepth :=
  mkSdepth "FVCOM_Depth_0" (TimeGiven t) (FromFile "h") (Some "node") (match sf with Some _ => FromFile "zeta" | None => Zero end) (match sf with Some _ => Some "node" | None => None end)
    (s_terms (found_fvcom f) (depth_args t)) 2 "extrapolate" "mask".
Definition fterr (f : file) (g : water) (h z : mvar) (t : time_obj) : TerrModel.terrain :=
  mkTerr (wa_levels g) (wa_layers g) (fm_part h []) (match wa_surface g with Some _ => Some (t, fm_part z) | None => None end) false.

Section Depth.
  Context (dateutil : string -> dparse) (cftime : string -> option (Z * Z * Z)) (now : time_obj).
  Context (f : file) (p : pair) (n : string) (nodes : list point) (faces : list (list Z)) (g : water).
  Context (U : UniqueNames f) (W : FvcomWater f (length nodes) g).
  Let api := api (fmesh p n nodes faces).
  Lemma at_nodes att lead : ga_infer api att (lead ++ [length nodes]) = Ok (Some "node").
  Proof. unfold api. rewrite infers, Nat.eqb_refl. reflexivity. Qed.
  Lemma fdepth_read t : (forall nt, wa_surface g = Some nt -> nt = length (t_data t) \/ length (t_data t) <= 1) ->
    read_sigma dateutil cftime f api t = Ok (Sigma (fdepth_made f (wa_surface g) t)).
  Proof.
    intros Ht. unfold read_sigma. rewrite (fvcom_makes f _ g U W). cbn [bind].
    destruct W as ((lev & lay & V & _ & _) & OS & (h & Lh & Sh) & Wz).
    pose proof (fvcom_found_by f "bathymetry" "h" h U (proj1 Lh) (fvcom_finds_role f "bathymetry" "h" _ h U ltac:(do 2 right; left; reflexivity) Lh)) as Fh.
    unfold load_sdepth. cbn [depth_args sa_name]. unfold s_time. cbn [depth_args sa_time bind]. unfold s_bathy. cbn [depth_args sa_bathy].
    rewrite (proj2 (get_found_iff _ _ _) Fh). cbn [fr_var fr_name].
    assert (Hi : forall att, ga_infer api att (lv_shape (to_load h)) = Ok (Some "node")) by (intros att; cbn [to_load lv_shape]; rewrite Sh; exact (at_nodes att [])).
    assert (Hb : on_nodes api (to_load h) = Ok true) by (unfold on_nodes; rewrite Hi; reflexivity).
    rewrite Hb. cbn [bind]. unfold construct_plain. rewrite Hi. cbn [bind check_location]. change (isin "node" valid_locations) with true. cbn [bind]. unfold s_zeta. cbn [depth_args sa_zeta].
    destruct (wa_surface g) as [nt|].
    - destruct Wz as (z & Lz & Sz).
      pose proof (fvcom_found_by f "zeta" "zeta" z U (proj1 Lz) (fvcom_finds_role f "zeta" "zeta" _ z U ltac:(do 3 right; left; reflexivity) Lz)) as Fz.
      rewrite (proj2 (get_found_iff _ _ _) Fz). cbn [fr_var fr_name]. rewrite Hb. cbn [bind]. unfold construct. cbn [check_location bind].
      assert (Hz : ga_infer api (own_location (to_load z)) (lv_shape (to_load z)) = Ok (Some "node")) by (cbn [to_load lv_shape]; rewrite Sz; exact (at_nodes _ [nt])).
      rewrite Hz. cbn [check_location bind]. change (isin "node" valid_locations) with true. cbn [bind to_load lv_shape]. rewrite Sz. cbn [times].
      assert (negb (length (t_data t) =? nt) && (1 <? length (t_data t)) = false) as ->; [|reflexivity].
      destruct (Ht nt eq_refl) as [-> |L]; [rewrite Nat.eqb_refl; reflexivity|]. destruct (Nat.ltb_spec 1 (length (t_data t))); [lia|]. apply andb_false_r.
    - assert (Nz : get_found (found_fvcom f) "zeta" = None).
      { unfold get_found. rewrite fvcom_found_get.
        assert (finds fvcom_names fvcom_cf (as_names f) "zeta" = Some None) as ->; [|reflexivity].
        refine (role_unfound _ _ _ _ ["zeta"] ["sea_surface_height_above_geoid"] fvcom_nodup fvcom_cf_nodup _ _ _).
        - do 3 right. left. reflexivity.
        - do 3 right. left. reflexivity.
        - intros v Iv. destruct (as_names_in _ v Iv) as (a & w & Iw & ->). destruct (Wz a w Iw) as [A B]. split; [intros [X|[]]; cbn [to_name v_name fst] in X; congruence|].
          intros l [<-|[]] C. destruct (carries_attr _ _ _ C) as (at_ & Ia & At). exact (B at_ Ia At). }
      rewrite Nz. reflexivity.
  Qed.
  Lemma table_of_rows w np rows : fm_shape w = [length rows; np] -> (forall k row, nth_error rows k = Some row -> fm_part w [k] = map CVal row) -> table_of w = Ok rows.
  Proof.
    clear. intros Sh H. unfold table_of. rewrite Sh. cbn [hd].
    assert (G : forall l m, (forall k row, nth_error l k = Some row -> fm_part w [m + k] = map CVal row) -> mapM (fun k => mapM TerrModel.number (fm_part w [k])) (seq m (length l)) = Ok l).
    { induction l as [|r l IH]; intros m K; [reflexivity|]. cbn [length seq mapM]. pose proof (K 0 r eq_refl) as K0. rewrite Nat.add_0_r in K0. rewrite K0.
      assert (mapM TerrModel.number (map CVal r) = Ok r) as ->. { clear. induction r as [|x r IH]; [reflexivity|]. cbn [map mapM TerrModel.number bind]. now rewrite IH. }
      cbn [bind]. rewrite (IH (S m)); [reflexivity|]. intros k row Hk. rewrite <- (K (S k) row Hk). f_equal. f_equal. lia. }
    apply (G rows 0). intros k row Hk. exact (H k row Hk).
  Qed.
  Lemma fterrain t : exists h z, In ("h", h) (fi_vars f) /\ (wa_surface g <> None -> In ("zeta", z) (fi_vars f)) /\
    fvcom_terrain now f (fdepth_made f (wa_surface g) t) = Ok (fterr f g h z t).
  Proof.
    destruct W as ((lev & lay & V & (wl & Il & Sl & Pl) & (wy & Iy & Sy & Py)) & OS & (h & Lh & Sh) & Wz).
    destruct (sigma_taken f lev lay wl wy U V Il Iy) as [T1 T2].
    assert (Tm : forall role name w rows, role <> "bathymetry" -> role <> "zeta" -> In (name, w) (fi_vars f) -> fm_shape w = [length rows; length nodes] ->
      (forall k row, nth_error rows k = Some row -> fm_part w [k] = map CVal row) -> finds fvcom_names fvcom_cf (as_names f) role = Some (Some (to_name (name, w))) ->
      sigma_term f (fdepth_made f (wa_surface g) t) role = Ok rows).
    { intros role name w rows N1 N2 I Shw Pw Fi. pose proof (fvcom_found_by f role name w U I Fi) as Fr. unfold sigma_term. cbn [fdepth_made sd_terms].
      rewrite (proj2 (terms_get dateutil cftime (found_fvcom f) (fvcom_found_nodup _) (depth_args t) eq_refl role (Values name))).
      - rewrite (dget_unique _ _ _ U I). exact (table_of_rows w _ rows Shw Pw).
      - split; [exact N1|]. split; [exact N2|]. eexists. split; [exact Fr|reflexivity]. }
    assert (Fh : from_file f (FromFile "h") (Some "node") 1 = Ok h).
    { unfold from_file. rewrite (dget_unique _ _ _ U (proj1 Lh)), Sh. reflexivity. }
    unfold fvcom_terrain. rewrite (Tm "siglev" lev wl _ ltac:(discriminate) ltac:(discriminate) Il Sl Pl T1). cbn [bind].
    rewrite (Tm "siglay" lay wy _ ltac:(discriminate) ltac:(discriminate) Iy Sy Py T2). cbn [bind fdepth_made sd_bathy sd_bathy_loc sd_zeta sd_zeta_loc sd_time time_value]. rewrite Fh. cbn [bind].
    unfold fterr. destruct (wa_surface g) as [nt|].
    - destruct Wz as (z & Lz & Sz). exists h, z. split; [apply Lh|]. split; [intros _; apply Lz|]. unfold from_file. rewrite (dget_unique _ _ _ U (proj1 Lz)), Sz. reflexivity.
    - exists h, h. split; [apply Lh|]. split; [congruence|]. reflexivity.
  Qed.
End Depth.

(** ** Loading *)
Lemma placed_on p n nodes faces w lead len loc : fm_shape w = lead ++ [len] -> On (length nodes) (length faces) w len loc ->
  LocationOf (api (fmesh p n nodes faces)) (to_load w) loc /\ ValidLocation loc.
Proof.
  intros Sh [[A V]|[N Z]]; [split; [left; split; [exact A|exact V]|exact V]|]. split; [|destruct Z; unfold ValidLocation; auto 10]. right. split; [exact N|].
  cbn [to_load lv_shape]. rewrite Sh. apply sized_infers. exact Z.
Qed.
Lemma off_none p n nodes faces w : Off (length nodes) (length faces) w -> find_location (api (fmesh p n nodes faces)) (to_load w) = Ok None.
Proof.
  intros (NV & Sh).
  assert (Inf : forall att, ga_infer (api (fmesh p n nodes faces)) att (fm_shape w) = Ok None).
  { intros att. destruct Sh as [-> |(lead & len & -> & Nn & Nf)]; [reflexivity|]. rewrite infers. apply Nat.eqb_neq in Nn, Nf. now rewrite Nn, Nf. }
  unfold find_location. cbn [to_load lv_attrs lv_shape]. destruct (dget (fm_attrs w) "location") as [l|] eqn:A; [|apply Inf].
  destruct (isin l valid_locations) eqn:V; [apply valid_iff in V; exfalso; exact (NV l A V)|apply Inf].
Qed.
Section Loading.
  Context (dateutil : string -> dparse) (cftime : string -> option (Z * Z * Z)) (now : time_obj) (f : file) (g : grid_api).
  Lemma fvcom_plain vs : forall xs, fvcom_each dateutil cftime now f g vs = Ok xs -> load_each dateutil cftime (Ok tt) g (as_load f) vs = Ok xs.
  Proof.
    induction vs as [|[k v] vs IH]; intros xs; [auto|]. cbn [fvcom_each load_each]. destruct (is_grid_name g k); [apply IH|].
    destruct (find_location g v) as [[l|]|e]; cbn [bind]; [|apply IH|auto]. intros H. apply bind_ok in H. destruct H as (x & Ex & H). apply bind_ok in H. destruct H as (r & Er & H).
    unfold fvcom_load in Ex. rewrite (read_free dateutil cftime f g _ _ _ _ Ex). cbn [bind]. rewrite (IH r Er). exact H.
  Qed.
  Lemma fvcom_all (U : UniqueNames f) vs : (forall k w, In (k, w) vs -> In (k, w) (fi_vars f)) ->
    (forall k w, In (k, w) vs -> GridName g k \/ find_location g (to_load w) = Ok None \/
       exists loc v, find_location g (to_load w) = Ok (Some loc) /\ fvcom_load dateutil cftime now f g k (to_load w) loc = Ok v) ->
    exists xs, fvcom_each dateutil cftime now f g (map (fun kv => (fst kv, to_load (snd kv))) vs) = Ok xs.
  Proof.
    induction vs as [|[k w] vs IH]; intros Sub H; [eexists; reflexivity|]. cbn [map fvcom_each fst snd].
    destruct IH as (xs & Hx); [intros; apply Sub; right; auto|intros; apply H; right; auto|].
    destruct (is_grid_name g k) eqn:G; [eauto|]. destruct (H k w (or_introl eq_refl)) as [K|[-> |(loc & v & Ef & Ev)]].
    - apply grid_name_iff in K. congruence.
    - cbn [bind]. eauto.
    - rewrite Ef. cbn [bind]. rewrite Ev. cbn [bind]. rewrite Hx. cbn. eauto.
  Qed.
  (** Without a time axis; with one more dimension than the grid's the depth is read. *)
  Lemma timeless_ok rd (U : UniqueNames f) k w loc : In (k, w) (fi_vars f) -> ValidLocation loc -> Timeless f w -> fm_shape w <> [] -> rd = Ok tt ->
    exists v, load_variable dateutil cftime rd g (as_load f) 0 (plain_args k (to_load w) loc) = Ok v.
  Proof.
    intros I VL (Nd & NT) L R. unfold load_variable. cbn [plain_args la_varname]. rewrite (load_get f U k w I).
    unfold load_time. cbn [plain_args la_time la_tz la_origin la_disp]. destruct (locate_iff (as_load f) (to_load w)) as (_ & L2 & _). rewrite (proj2 (L2 Nd) NT). cbn [bind fst snd].
    unfold load_depth. cbn [plain_args la_depth to_load lv_shape]. rewrite R. cbn [bind].
    assert (E : exists d, (if length (fm_shape w) =? LoadModel.horizontal (ga_kind g) + 1 + 0 then Ok DepthRead else Ok DepthNone) = Ok d) by (destruct (_ =? _); eauto).
    destruct E as (d & ->). cbn [bind plain_args la_loc]. unfold construct. cbn [check_location]. rewrite (proj2 (valid_iff loc) VL). cbn [bind]. destruct (fm_shape w) as [|d0 r]; [congruence|].
    cbn [times]. change (1 <? 1) with false. rewrite andb_false_r. cbn [bind]. eauto.
  Qed.
End Loading.

(** ** The whole way *)
Section Opened.
  Context (dateutil : string -> dparse) (cftime : string -> option (Z * Z * Z)) (now : time_obj).
  Context (f : file) (p : pair) (n : string) (nodes : list point) (faces : list (list Z)) (g : water).
  Context (F : FvcomFile f p n nodes faces g).
  Let U : UniqueNames f := proj1 (proj1 F).
  Let W : FvcomWater f (length nodes) g := proj2 (proj2 F).
  Let m := fmesh p n nodes faces.
  Let RM : open_fmesh f = Ok m := named_mesh_read f p n nodes faces (proj1 F) (proj1 (proj2 F)).

  Lemma fvcom_inv ds : open_fvcom_dataset dateutil cftime now f = Ok ds -> fst ds = m /\ load_variables dateutil cftime (Ok tt) (api m) (as_load f) = Ok (snd ds).
  Proof.
    unfold open_fvcom_dataset. rewrite RM. cbn [bind]. intros H. apply bind_ok in H. destruct H as (vs & Hv & H). injection H as <-.
    split; [reflexivity|]. apply (fvcom_plain _ _ _ _ _ _ _ Hv).
  Qed.
  Lemma fvcom_opens : length (t_data now) <= 1 -> FvcomSound cftime f p n (length nodes) (length faces) (wa_surface g) ->
    exists vs, open_fvcom_dataset dateutil cftime now f = Ok (m, vs).
  Proof.
    intros Nw H. unfold open_fvcom_dataset. rewrite RM. cbn [bind]. rewrite load_vars.
    destruct (fvcom_all dateutil cftime now f (api m) U (fi_vars f)) as (xs & E); [auto| |rewrite E; cbn; eauto].
    intros k w I. destruct (H k w I) as [G|[N|(len & loc & On_ & Da)]].
    - left. apply (mesh_grid_name _ _ _ _ _ _ (proj1 F)). exact G.
    - right. left. apply off_none. exact N.
    - right. right. exists loc. destruct Da as [(Tl & Sh)|(ts & lead & In_ & Sh & Ld)].
      + assert (exists ld, fm_shape w = ld ++ [len]) as (ld & Shl) by (destruct Sh as [-> |(k0 & ->)]; [exists []|exists [k0]]; reflexivity).
        destruct (placed_on p n nodes faces w ld len loc Shl On_) as [HL VL].
        destruct (timeless_ok dateutil cftime f (api m) (do t0 <- load_time dateutil cftime (as_load f) (to_load w) (plain_args k (to_load w) loc);
          do _ <- read_sigma dateutil cftime f (api m) (time_value now (fst t0)); Ok tt) U k w loc I VL Tl) as (v & Ev).
        * rewrite Shl. destruct ld; discriminate.
        * unfold load_time. cbn [plain_args la_time la_tz la_origin la_disp]. destruct Tl as (Nd & NT). destruct (locate_iff (as_load f) (to_load w)) as (_ & L2 & _). rewrite (proj2 (L2 Nd) NT). cbn [bind fst time_value].
          unfold m. rewrite (fdepth_read dateutil cftime f p n nodes faces g U W now); [reflexivity|auto].
        * exists v. split; [apply find_location_iff; exact HL|exact Ev].
      + destruct (placed_on p n nodes faces w ([length ts] ++ lead) len loc) as [HL VL]; [rewrite <- app_assoc; exact Sh|exact On_|].
        destruct (time_read dateutil cftime f U k w loc ts In_) as (tm & nm & Et & Td).
        destruct (load_ok dateutil cftime (do t0 <- load_time dateutil cftime (as_load f) (to_load w) (plain_args k (to_load w) loc);
          do _ <- read_sigma dateutil cftime f (api m) (time_value now (fst t0)); Ok tt) (api m) f U k w loc ts (lead ++ [len]) I VL In_ Sh) as (v & Ev).
        * intros Le. rewrite Et. cbn [bind fst time_value].
          destruct Ld as [-> |(n' & -> & Hn)]; [exfalso; cbn in Le; lia|].
          unfold m. rewrite (fdepth_read dateutil cftime f p n nodes faces g U W tm); [reflexivity|]. intros nt Hs. left. rewrite Td. exact (Hn nt Hs).
        * exists v. split; [apply find_location_iff; exact HL|exact Ev].
  Qed.

  Context (ds : mesh * dict variable) (O : open_fvcom_dataset dateutil cftime now f = Ok ds).
  Context (k : string) (w : mvar) (I : In (k, w) (fi_vars f)).
  Lemma fvcom_left_out : In k (mesh_names p n) \/ Off (length nodes) (length faces) w -> dget (snd ds) k = None.
  Proof.
    intros N. destruct (fvcom_inv ds O) as (_ & Hv).
    destruct (dget (snd ds) k) as [v|] eqn:G; [|reflexivity]. exfalso.
    assert (Iv : In (k, v) (snd ds)).
    { clear - G. revert G. induction (snd ds) as [|[k' v'] l IH]; [discriminate|]. cbn [dget]. destruct (String.eqb_spec k k') as [->|]; [intros E; injection E as ->; left; reflexivity|intros E; right; auto]. }
    destruct (c78_entries _ _ _ _ _ _ _ _ Hv Iv) as (Ng & _ & _ & w' & Iw' & Lo & _).
    rewrite load_vars in Iw'. apply in_map_iff in Iw'. destruct Iw' as ([k2 w2] & E & I2). cbn [fst snd] in E. injection E as -> <-.
    assert (w2 = w) as -> by (pose proof (dget_unique _ _ _ U I); pose proof (dget_unique _ _ _ U I2); congruence).
    destruct N as [N|N]; [apply Ng, (mesh_grid_name f p n nodes faces k (proj1 F)); exact N|].
    apply find_location_iff in Lo. pose proof (off_none p n nodes faces w N) as Z. fold m in Z. rewrite Z in Lo. discriminate.
  Qed.
  Context (NG : ~ In k (mesh_names p n)) (len : nat) (loc : string) (On_ : On (length nodes) (length faces) w len loc).
  Section Sampled.
    Context (ts : list Z) (lead : list nat) (In_ : InstantsIn cftime f w ts).
    Context (Sh : fm_shape w = [length ts] ++ lead ++ [len]).
    Lemma fvcom_opened : exists v tm nm, dget (snd ds) k = Some v /\ va_loc v = loc /\ va_varname v = k /\ va_shape v = fm_shape w /\
      va_time v = TimeRead tm nm /\ t_data tm = ts /\ va_depth v = if length lead =? 1 then DepthRead else DepthNone.
    Proof.
      destruct (fvcom_inv ds O) as (_ & Hv).
      destruct (placed_on p n nodes faces w ([length ts] ++ lead) len loc) as [HL VL]; [rewrite <- app_assoc; exact Sh|exact On_|].
      destruct (loaded dateutil cftime _ _ f U (snd ds) k w loc ts Hv I) as (v & tm & nm & G & Vl & Vk & Vs & Vt & Td & Vd); auto.
      - intros G. apply (mesh_grid_name _ _ _ _ _ _ (proj1 F)) in G. contradiction.
      - exists v, tm, nm. split; [exact G|]. split; [exact Vl|]. split; [exact Vk|]. split; [exact Vs|]. split; [exact Vt|]. split; [exact Td|].
        rewrite Vd, Sh. cbn [api ga_kind GridDimensions]. rewrite !app_length. cbn [length].
        destruct (Nat.eqb_spec (1 + (length lead + 1)) (1 + 2)), (Nat.eqb_spec (length lead) 1); try reflexivity; lia.
    Qed.
    Lemma fvcom_flat_asked tree hist : lead = [] -> exists tm, t_data tm = ts /\ forall q ex pts,
      ask_fvcom dateutil cftime now tree hist f k q ex pts =
      at_grid (mesh_interp tree hist nodes faces (place_of loc) (fm_part w)) [DTime; DEle] [length (t_data tm); len] (Some tm) None q ex pts.
    Proof.
      intros E. destruct fvcom_opened as (v & tm & nm & G & Vl & Vk & Vs & Vt & Td & Vd). exists tm. split; [exact Td|].
      intros q ex pts. unfold ask_fvcom. rewrite O. cbn [bind]. rewrite G. destruct (fvcom_inv ds O) as (-> & _). unfold fvcom_answer, sigma_depth.
      rewrite Vk, (dget_unique _ _ _ U I). rewrite Vd, Vs, Vl, Vt, Sh, Td, E. reflexivity.
    Qed.
    Lemma fvcom_asked tree hist n' : lead = [n'] -> (forall nt, wa_surface g = Some nt -> nt = length ts) -> exists tm h z,
      t_data tm = ts /\ In ("h", h) (fi_vars f) /\ (wa_surface g <> None -> In ("zeta", z) (fi_vars f)) /\ forall q ex pts,
      ask_fvcom dateutil cftime now tree hist f k q ex pts =
      at_grid (mesh_interp tree hist nodes faces (place_of loc) (fm_part w)) [DTime; DDepth; DEle] [length (t_data tm); n'; len] (Some tm)
        (Some (terrain_view tree hist nodes faces (fterr f g h z tm) q ex BExtrapolate DepthModel.BMask)) q ex pts.
    Proof.
      intros E Hn. destruct fvcom_opened as (v & tm & nm & G & Vl & Vk & Vs & Vt & Td & Vd).
      destruct (fterrain dateutil cftime now f nodes g U W tm) as (h & z & Ih & Iz & Ht). exists tm, h, z. split; [exact Td|]. split; [exact Ih|]. split; [exact Iz|].
      intros q ex pts. unfold ask_fvcom. rewrite O. cbn [bind]. rewrite G. destruct (fvcom_inv ds O) as (-> & _). unfold fvcom_answer, sigma_depth.
      rewrite Vk, (dget_unique _ _ _ U I). rewrite Vd, Vs, Vl, Vt, Sh, E. change (length [n'] =? 1) with true. cbv iota. cbn [time_value].
      unfold m. rewrite (fdepth_read dateutil cftime f p n nodes faces g U W tm) by (intros nt Hs; left; rewrite Td; exact (Hn nt Hs)). cbn [bind]. rewrite Ht. cbn [bind]. subst ts. reflexivity.
    Qed.
  End Sampled.
End Opened.

(** ** The answers *)
Lemma nth_depths n g k : k < n -> nth_error (column n g) k = Some (g k).
Proof. intros H. unfold column. apply map_nth_error. rewrite nth_error_nth' with (d := 0) by (rewrite seq_length; auto). now rewrite seq_nth. Qed.
Lemma row_pairs {A B C} (P : A -> B -> Prop) (R : A -> B -> C -> Prop) (T : A -> C -> Prop) l : (forall a b c, In a l -> P a b -> R a b c -> T a c) -> forall m n,
  Forall2 P l m -> Forall2 (fun x c => R (fst x) (snd x) c) (combine l m) n -> Forall2 T l n.
Proof.
  induction l as [|a l IH]; intros K m n F G; inversion F as [|? b ? m' Fb Fm]; subst; cbn [combine] in G; inversion G as [|? c ? n' Gc Gn]; subst; constructor.
  - exact (K a b c (or_introl eq_refl) Fb Gc).
  - apply (IH (fun a b c H => K a b c (or_intror H)) m' n'); auto.
Qed.
Section Extent.
  Context (gi : list nat -> list spot -> result (list cell)) (tm : time_obj) (q q' : Z) (ex : bool) (view : depth_view (P := spot)).
  Context (n' len : nat) (leaf : nat -> nat -> spot -> cell) (E : Z -> nat -> spot -> Q).
  Context (value : (nat -> Q) -> drow -> Q) (pts : list spot) (rows : list drow).
  Context (N1 : 1 <= n') (SI : StrictlyIncreasing (t_data tm)) (Ne : t_data tm <> []) (TA : TimeAsked (t_data tm) ex q q').
  Context (HG : forall i j ps, i < length (t_data tm) -> j < n' -> gi [i; j] ps = Ok (map (leaf i j) ps)).
  Context (HS : forall i t j s, nth_error (t_data tm) i = Some t -> j < n' -> Shows (E t j s) (leaf i j s)).
  Context (HV : dv_alphas view pts = view_rows (Ok rows)) (HL : length rows = length pts).
  Context (LT : forall s k, LinearInTime (t_data tm) (fun u => E u k s)).
  Context (VL : forall l r (g : Z -> nat -> Q), (forall k, LinearInTime l (fun u => g u k)) -> LinearInTime l (fun u => value (g u) r)).
  Context (HD : forall order shape (val : list spot -> list Z -> result (list cell)) slices (lf : nat -> spot -> cell) (E : nat -> spot -> Q),
      dim_len order shape DDepth = Ok n' ->
      (forall j ps, j < n' -> val ps (slices ++ [Z.of_nat j]) = Ok (map (lf j) ps)) -> (forall ps, val ps (slices ++ [-1]%Z) = Ok (map (lf (n' - 1)) ps)) ->
      (forall j p, j < n' -> In p pts -> Shows (E j p) (lf j p)) ->
      exists vs, v_depth order shape (Some view) val pts slices = Ok vs /\
        Forall2 (fun x c => TerrProofs.Holds (row_masked (snd x)) (value (fun k => E k (fst x)) (snd x)) c) (combine pts rows) vs).
  Lemma extent_holds : exists vs, at_grid gi [DTime; DDepth; DEle] [length (t_data tm); n'; len] (Some tm) (Some view) q ex pts = Ok vs /\
    Forall2 (fun x c => TerrProofs.Holds (row_masked (snd x)) (value (fun k => E q' k (fst x)) (snd x)) c) (combine pts rows) vs.
  Proof.
    set (nt := length (t_data tm)). assert (Hn : 0 < nt) by (unfold nt; destruct (t_data tm); [congruence|cbn; lia]).
    change (at_grid gi [DTime; DDepth; DEle] [nt; n'; len] (Some tm) (Some view) q ex pts) with
      (time_interp tm q ex (v_depth [DTime; DDepth; DEle] [nt; n'; len] (Some view) (grid_xy gi [nt; n']) pts) []).
    apply (time_holds (fun x => row_masked (snd x)) tm q q' ex _ (fun u x => value (fun k => E u k (fst x)) (snd x)) (combine pts rows) SI Ne TA).
    - intros k tk Hk. pose proof (nth_error_Some_lt _ _ _ Hk) as Lk. fold nt in Lk.
      apply (HD _ _ (grid_xy gi [nt; n']) [Z.of_nat k] (leaf k) (E tk)); [reflexivity| | |].
      + intros j ps Hj. cbn [app]. rewrite grid_ix2 by auto. apply HG; auto.
      + intros ps. cbn [app]. rewrite grid_last2 by lia. apply HG; [exact Lk|lia].
      + intros j s Hj _. exact (HS k tk j s Hk Hj).
    - fold nt. unfold v_depth. rewrite HV. unfold view_rows. cbn [bind]. destruct (dim_len _ _ _); cbn [bind]; [|reflexivity].
      apply depth_interp_ext. intros ps i. cbn [app]. now apply grid_first_last.
    - intros x _. apply VL. intros k. apply LT.
  Qed.
End Extent.

Section Answers.
  Context (tree : list pt -> list (list Z) -> list pt -> list Z) (hist : list nat -> list spot -> list ug_op)
          (nodes : list pt) (faces : list (list Z)) (find : point -> Z) (te : TerrModel.terrain) (q : Z) (ex : bool).
  Context (HT : forall ps, tree nodes faces ps = map find ps) (HH : forall ix ps, Forall asks (hist ix ps))
          (M : TriMesh nodes faces) (FF : FindsFaces nodes faces find).
  Context (h : point -> Q) (zeta : Z -> point -> Q) (sigma : nat -> point -> Q) (qz : Z).
  Context (Hh : Sampled nodes faces h (te_h te)) (Hs : SigmaSamples nodes faces sigma (te_siglev te)).
  Context (n : nat) (HN : length (te_siglev te) = n) (N2 : 2 <= n) (NL : length (te_siglay te) <> n \/ te_siglay te = te_siglev te).
  Context (HTop : TopFirst nodes sigma n) (HPl : te_plain te = true -> te_zeta te = None).
  Context (pts : list spot) (HZ : ZetaSamples nodes faces te q ex zeta qz pts).
  Let z s k := level_depth h zeta sigma qz k (place s).
  Context (HD : forall s j k, In s pts -> find (place s) <> (-1)%Z -> j < k < n -> (z s j < z s k)%Q).
  Context (sbc bbc : bcond).
  Let Row := TerrProofs.Row find h zeta sigma qz n sbc bbc.
  Lemma deepening : Forall (Deepening find h zeta sigma qz n) pts.
  Proof. apply Forall_forall. intros s Hi Ho j k Hjk. unfold TerrProofs.depth_of. rewrite Ho. apply HD; auto. unfold off in Ho. now apply Z.eqb_neq. Qed.
  Lemma rows_any : exists rows, terrain_alphas tree hist nodes faces te q ex sbc bbc pts = Ok rows /\ Forall2 Row pts rows.
  Proof.
    destruct (Nat.eq_dec (length (te_siglay te)) n) as [E|NE].
    - destruct NL as [X|Ey]; [contradiction|].
      destruct (rows_ok tree hist nodes faces find (mkTerr (te_siglev te) [] (te_h te) (te_zeta te) (te_plain te)) q ex HT HH M FF h zeta sigma qz Hh Hs n HN N2 ltac:(cbn; lia) HTop HPl sbc bbc pts HZ deepening) as (rows & Er & Fr).
      exists rows. split; [|exact Fr]. rewrite <- Er. unfold terrain_alphas. cbn [te_siglev te_siglay te_h te_zeta te_plain]. rewrite E, HN, Ey.
      change (first_column {| te_siglev := te_siglev te; te_siglay := []; te_h := te_h te; te_zeta := te_zeta te; te_plain := te_plain te |}) with (first_column te).
      destruct (first_column te) as [col|]; [|reflexivity]. cbn [bind]. destruct (argmax col) as [su|]; [|reflexivity]. cbn [bind]. destruct (argmin col) as [bo|]; [|reflexivity]. cbn [bind].
      destruct (Nat.eqb_spec n 1); [reflexivity|]. destruct (Nat.eqb_spec n n); [|congruence]. cbn [length]. destruct (Nat.eqb_spec n 0); [lia|].
      change (depth_profiles tree hist nodes faces {| te_siglev := te_siglev te; te_siglay := []; te_h := te_h te; te_zeta := te_zeta te; te_plain := te_plain te |} q ex (te_siglev te) pts) with (depth_profiles tree hist nodes faces te q ex (te_siglev te) pts).
      destruct (depth_profiles _ _ _ _ _ _ _ _ _) as [ps|]; [|reflexivity]. cbn [bind]. destruct (te_plain te && _); [reflexivity|].
      rewrite !s_alphas_unfold by (auto; lia). reflexivity.
    - exact (rows_ok tree hist nodes faces find te q ex HT HH M FF h zeta sigma qz Hh Hs n HN N2 NE HTop HPl sbc bbc pts HZ deepening).
  Qed.

  Context (tm : time_obj) (q' : Z) (n' : nat) (part : list nat -> list cell) (loc : string) (F : Z -> nat -> point -> Q).
  Context (SI : StrictlyIncreasing (t_data tm)) (Ne : t_data tm <> []) (TA : TimeAsked (t_data tm) ex q q').
  Context (HF : FieldAt nodes faces find (t_data tm) n' part loc F) (HSt : TimeSteady (t_data tm) F).
  Lemma field_leaf : exists leaf,
    (forall i j ps, i < length (t_data tm) -> j < n' -> mesh_interp tree hist nodes faces (place_of loc) part [i; j] ps = Ok (map (leaf i j) ps)) /\
    (forall i t j s, nth_error (t_data tm) i = Some t -> j < n' -> Shows (field find F t j s) (leaf i j s)).
  Proof.
    destruct HF as [F0 A|F0 G A B].
    - exists (fun i j => node_leaf nodes faces find (part [i; j])). split.
      + intros i j ps Hi Hj. destruct (nth_error_lt_Some (t_data tm) i Hi) as [t Ht]. apply (on_mesh_ok tree hist nodes faces find HT HH M FF (F0 t j) part [i; j] ps). exact (A i t j Ht Hj).
      + intros i t j s Ht Hj. unfold field. apply leaf_shows; auto.
    - assert (Nf : forall i t j, nth_error (t_data tm) i = Some t -> j < n' -> part [i; j] <> []).
      { intros i t j Ht Hj E. destruct (A i t j Ht Hj) as [L _]. rewrite E in L. destruct M as [NeF _]. destruct faces; [congruence|discriminate L]. }
      exists (fun i j => face_leaf find (part [i; j])). split.
      + intros i j ps Hi Hj. destruct (nth_error_lt_Some (t_data tm) i Hi) as [t Ht]. destruct (A i t j Ht Hj) as [L K]. change (place_of "face") with VFace.
        apply (mesh_faces tree hist nodes faces find HT HH part [i; j] ps); [eapply Nf; eauto| |intros p; rewrite L; eapply finds_good; eauto].
        apply Forall_forall. intros c Hc. apply In_nth_error in Hc. destruct Hc as [k Hk]. destruct (K k c Hk) as (v & -> & _). eauto.
      + intros i t j s Ht Hj. destruct (A i t j Ht Hj) as [L K]. pose proof (face_shows nodes faces find (part [i; j]) (G t j) s FF L (Nf i t j Ht Hj) K) as Sh.
        unfold field, off. destruct (Z.eqb_spec (find (place s)) (-1)) as [E|E]; [exact Sh|].
        destruct (FF (place s)) as [X|(k & _ & _ & _ & _ & _ & _ & Ek & _)]; [contradiction|]. eapply shows_eq; [exact Sh|]. rewrite Ek, Nat2Z.id. symmetry. apply B. exact Ek.
  Qed.
  Lemma steady_field s k : LinearInTime (t_data tm) (fun u => field find F u k s).
  Proof. unfold field. destruct (off find s); [|apply HSt]. intros j t0 t1 q0 _ _ _. ring. Qed.

  Context (len : nat).
  Let asked := at_grid (mesh_interp tree hist nodes faces (place_of loc) part) [DTime; DDepth; DEle] [length (t_data tm); n'; len] (Some tm)
    (Some (terrain_view tree hist nodes faces te q ex sbc bbc)) q ex pts.
  Context (Bot : bextrap bbc = false).
  Lemma safe s : Safe find h zeta sigma qz n bbc s.
  Proof. unfold Safe. rewrite Bot. discriminate. Qed.
  Lemma sigma_levels : n <= n' -> n' <> length (te_siglay te) -> exists vs, asked = Ok vs /\
    Forall2 (fun s c => (find (place s) <> (-1)%Z -> ColumnAnswer n (z s) (fun k => F q' k (place s)) (bextrap sbc) (deep s) c) /\
      (find (place s) = (-1)%Z -> OutsideAnswer (bextrap sbc) (deep s) c)) pts vs.
  Proof.
    intros Le Nly. destruct rows_any as (rows & Er & Fr). destruct field_leaf as (leaf & HG & HS).
    assert (HL : length rows = length pts) by (clear - Fr; induction Fr; cbn; lia).
    assert (HV : dv_alphas (terrain_view tree hist nodes faces te q ex sbc bbc) pts = view_rows (Ok rows)). { unfold terrain_view. cbn [dv_alphas]. now rewrite Er. }
    assert (FR : Forall (fine_row n') rows).
    { pose proof safe as Sf. clear - Fr Sf Le N2. induction Fr as [|s r l m R _ IH]; constructor; auto.
      destruct (fine find h zeta sigma qz n sbc bbc s r (Sf s) R) as [-> |[H|(j & al & -> & Hj)]]; [left; reflexivity|right; left; exact H|right; right; exists j, al; split; [reflexivity|lia]]. }
    destruct (extent_holds (mesh_interp tree hist nodes faces (place_of loc) part) tm q q' ex (terrain_view tree hist nodes faces te q ex sbc bbc) n' len leaf (field find F) row_value pts rows
      ltac:(lia) SI Ne TA HG HS HV HL steady_field row_linear) as (vs & Ev & Fv).
    { intros order shape val slices lf E DL V V1 Sm. apply (levels_hold order shape _ val slices lf E n' pts rows); auto; lia. }
    exists vs. split; [exact Ev|].
    refine (row_pairs _ (fun s r c => TerrProofs.Holds (row_masked r) (row_value (fun k => field find F q' k s) r) c) _ pts _ rows vs Fr Fv). intros s r c Hi R H. cbn beta in H.
    unfold Row, TerrProofs.Row, TerrProofs.depth_of in R. unfold field in H. destruct (off find s) eqn:Ho; unfold off in Ho.
    - apply Z.eqb_eq in Ho. split; [intros X; contradiction|]. intros _. destruct R as [R1 R2]. split; intros L.
      + rewrite (R1 L) in H. destruct (bextrap sbc); exact H.
      + rewrite (R2 L), Bot in H. exact H.
    - apply Z.eqb_neq in Ho. split; [intros _|intros X; contradiction]. cbv zeta in R. destruct R as (R1 & R2 & R3). split; [|split]; intros L.
      + rewrite (R1 L) in H. destruct (bextrap sbc); exact H.
      + rewrite (R2 L), Bot in H. exact H.
      + destruct (R3 L) as (i & al & E & Hi' & B & Ls & Ed). rewrite E in H. cbn [fst snd row_masked row_value TerrProofs.Holds] in H. destruct (Z.eqb_spec (Z.of_nat i) (-1)); [lia|]. rewrite Nat2Z.id in H.
        eexists. split; [|exact H]. exists i, (z s i), (z s (S i)), (F q' i (place s)), (F q' (S i) (place s)), al. rewrite !nth_depths by lia. do 4 (split; [reflexivity|]). split; [exact B|]. split; [exact Ed|ring].
  Qed.
  Lemma sigma_layers : n - 1 <= n' -> n' = length (te_siglay te) ->
    (forall s, In s pts -> bextrap sbc = true -> if Z.eq_dec (find (place s)) (-1) then (0 <= deep s)%Q else (z s 0%nat <= deep s)%Q) -> exists vs, asked = Ok vs /\
    Forall2 (fun s c => (find (place s) <> (-1)%Z -> LayerAnswer n (z s) (fun k => F q' k (place s)) (deep s) c) /\
      (find (place s) = (-1)%Z -> c = CMasked)) pts vs.
  Proof.
    intros Le Nly HU. destruct rows_any as (rows & Er & Fr). destruct field_leaf as (leaf & HG & HS).
    assert (HL : length rows = length pts) by (clear - Fr; induction Fr; cbn; lia).
    assert (HV : dv_alphas (terrain_view tree hist nodes faces te q ex sbc bbc) pts = view_rows (Ok rows)). { unfold terrain_view. cbn [dv_alphas]. now rewrite Er. }
    assert (SU : forall s, In s pts -> bextrap sbc = true -> (if off find s then 0 <= deep s else TerrProofs.depth_of find h zeta sigma qz s 0%nat <= deep s)%Q).
    { intros s Hi B. specialize (HU s Hi B). unfold TerrProofs.depth_of, off. destruct (Z.eq_dec (find (place s)) (-1)) as [E|E]; [rewrite E; exact HU|].
      destruct (Z.eqb_spec (find (place s)) (-1)); [contradiction|exact HU]. }
    assert (FR : Forall (fun r => r = (None, None) \/ exists j al, r = (Some (Z.of_nat j), Some al) /\ j < n') rows).
    { clear - Fr SU Bot Le N2. revert SU. induction Fr as [|s r l m R _ IH]; intros SU; constructor; [|apply IH; intros; apply SU; [right|]; auto].
      specialize (SU s (or_introl eq_refl)). unfold Row, TerrProofs.Row, FlatRow in R. destruct (off find s).
      - destruct R as [R1 R2]. left. destruct (Qlt_le_dec (deep s) 0) as [L|L]; [specialize (R1 L); destruct (bextrap sbc); [specialize (SU eq_refl); lra|exact R1]|].
        rewrite (R2 L), Bot. reflexivity.
      - cbv zeta in R. destruct R as (R1 & R2 & R3). destruct (Qlt_le_dec (deep s) (TerrProofs.depth_of find h zeta sigma qz s 0)) as [L|L].
        + left. specialize (R1 L). destruct (bextrap sbc); [specialize (SU eq_refl); lra|exact R1].
        + destruct (Qlt_le_dec (deep s) (TerrProofs.depth_of find h zeta sigma qz s (n - 1))) as [L'|L'].
          * destruct (R3 (conj L L')) as (i & al & -> & Hi & _). right. exists i, al. split; [reflexivity|lia].
          * left. rewrite (R2 L'), Bot. reflexivity. }
    destruct (extent_holds (mesh_interp tree hist nodes faces (place_of loc) part) tm q q' ex (terrain_view tree hist nodes faces te q ex sbc bbc) n' len leaf (field find F) layer_value pts rows
      ltac:(lia) SI Ne TA HG HS HV HL steady_field layer_linear) as (vs & Ev & Fv).
    { intros order shape val slices lf E DL V V1 Sm. apply (layers_hold order shape _ val slices lf E n' pts rows); auto; lia. }
    exists vs. split; [exact Ev|].
    refine (row_pairs _ (fun s r c => TerrProofs.Holds (row_masked r) (layer_value (fun k => field find F q' k s) r) c) _ pts _ rows vs Fr Fv). intros s r c Hi R H. cbn beta in H. specialize (SU s Hi).
    pose proof (HD s) as HDs. unfold Row, TerrProofs.Row, TerrProofs.depth_of in R. unfold TerrProofs.depth_of in SU. unfold field in H. destruct (off find s) eqn:Ho; unfold off in Ho.
    - apply Z.eqb_eq in Ho. split; [intros X; contradiction|]. intros _. destruct R as [R1 R2]. destruct (Qlt_le_dec (deep s) 0) as [L|L].
      + rewrite (R1 L) in H. destruct (bextrap sbc); [specialize (SU eq_refl); lra|exact H].
      + rewrite (R2 L), Bot in H. exact H.
    - apply Z.eqb_neq in Ho. split; [intros _|intros X; contradiction]. fold (z s) in R. cbv zeta in R. destruct R as (R1 & R2 & R3). split.
      + intros [L|L].
        * rewrite (R1 L) in H. destruct (bextrap sbc); [specialize (SU eq_refl); change (z s 0) with (level_depth h zeta sigma qz 0 (place s)) in L; lra|exact H].
        * rewrite (R2 L), Bot in H. exact H.
      + intros k Hk [B1 B2].
        assert (Up : forall i j, i <= j < n -> (z s i <= z s j)%Q). { intros i j Hij. destruct (Nat.eq_dec i j) as [->|]; [apply Qle_refl|]. apply Qlt_le_weak, HDs; auto; lia. }
        destruct R3 as (i & al & E & Hi' & B & Ls & Ed). { split; [eapply Qle_trans; [apply (Up 0 k); lia|exact B1]|eapply Qlt_le_trans; [exact B2|apply Up; lia]]. }
        rewrite E in H. unfold layer_value in H. cbn [fst snd row_masked TerrProofs.Holds] in H. rewrite Nat2Z.id in H.
        assert (B0 : (z s i <= deep s)%Q).
        { assert (Wz : (z s i < z s (S i))%Q) by (apply HDs; auto; lia). change (deep s == z s i + al * (z s (S i) - z s i))%Q in Ed. revert B Wz Ed.
          generalize (z s i) (z s (S i)) (deep s). clear. intros x y d B Wz Ed. pose proof (Qmult_le_0_compat al (y - x) (proj1 B) ltac:(lra)). lra. }
        assert (i = k) as <-; [|exact H]. destruct (Nat.lt_trichotomy i k) as [X|[X|X]]; auto; exfalso.
        * specialize (Up (S i) k). apply (Qlt_irrefl (deep s)). eapply Qlt_le_trans; [exact Ls|]. eapply Qle_trans; [apply Up; lia|exact B1].
        * specialize (Up (S k) i). apply (Qlt_irrefl (deep s)). eapply Qlt_le_trans; [exact B2|]. eapply Qle_trans; [apply Up; lia|exact B0].
  Qed.
End Answers.
