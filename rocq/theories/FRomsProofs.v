(** Lemmas about the way from a file of ROMS to the answers. *)
From Coq Require Import Reals String Lra.
From Verif Require Import Common CommonProofs TimeModel TimeSpec VariableSpec GridTypeModel GridTypeSpec GridTypeProofs GridTypeProps MaskModel MaskSpec MaskProofs VariableModel DepthModel DepthSpec DepthProofs DepthProps SGridModel SGridSpec SGridProps
  SearchModel SearchSpec SearchProofs SearchProps TFileModel TFileSpec LoadModel LoadSpec LoadProofs LoadProps SLoadModel SLoadSpec SLoadProofs SLoadProps VLoadModel SGridInterpModel SGridInterpSpec
  FMeshModel FMeshSpec FMeshProofs FRectSpec FRectProofs WholeProofs SWholeModel SWholeSpec SWholeProofs RTerrModel RTerrSpec FStagModel FStagSpec FStagRead FStagProofs FRomsModel FRomsSpec.
Open Scope string_scope.
Open Scope list_scope.
Open Scope nat_scope.

(** ** What is found *)
Lemma labelled_found f name labels w : UniqueNames f -> Labelled f name labels w -> NamedAndLabelled (as_names f) name labels (to_name (name, w)).
Proof.
  intros U (I & L).
  assert (One : forall a v, In (a, v) (fi_vars f) -> a = name -> to_name (a, v) = to_name (name, w)).
  { intros a v Ia ->. pose proof (dget_unique _ _ _ U I). pose proof (dget_unique _ _ _ U Ia). congruence. }
  split; [apply (in_map to_name); exact I|]. split; [reflexivity|]. split.
  - intros x Ix E. destruct (as_names_in f x Ix) as (a & v & Iv & ->). exact (One a v Iv E).
  - intros x l Ix Il C. destruct (as_names_in f x Ix) as (a & v & Iv & ->). destruct (carries_attr _ _ _ C) as (at_ & Ia & At). exact (One a v Iv (L a v at_ l Iv Ia At Il)).
Qed.
Lemma found_get f k : dget (found_in f) k = option_map (fun o => match o with
    | Some v => option_map (fun w => mkFref (as_load f) (v_name v) (to_load w)) (dget (fi_vars f) (v_name v)) | None => None end) (finds roms_names roms_cf (as_names f) k).
Proof. unfold found_in, finds. apply (dget_map (fun o : option SearchModel.nvar => match o with
    | Some v => option_map (fun w => mkFref (as_load f) (v_name v) (to_load w)) (dget (fi_vars f) (v_name v)) | None => None end)). Qed.
Lemma found_nodup f : NoDup (keys (found_in f)).
Proof. unfold keys, found_in. rewrite map_map. cbn [fst]. apply (c55_roles roms_names roms_cf (as_names f) (as_names f) roms_nodup roms_cf_nodup). Qed.
Lemma found_role f role name labels w : UniqueNames f -> In (role, name, labels) roms_convention -> Labelled f name labels w ->
  Found (found_in f) role (mkFref (as_load f) name (to_load w)).
Proof.
  intros U R L. unfold Found. rewrite found_get, (c87_roms _ role name labels _ R (labelled_found f name labels w U L)). cbn [option_map to_name v_name fst].
  rewrite (dget_unique _ _ _ U (proj1 L)). reflexivity.
Qed.

(** ** Which depth *)
Lemma all_found (P : string -> Prop) (l : dict (option SearchModel.nvar)) : NoDup (map fst l) -> (forall k, In k (map fst l) -> k <> "zeta" -> exists v, dget l k = Some (Some v)) ->
  can_create_sigma (map (fun kv => (fst kv, match snd kv with Some _ => true | None => false end)) l) = true.
Proof.
  intros N H. unfold can_create_sigma. apply forallb_forall. intros x I. apply in_map_iff in I. destruct I as ([k o] & <- & I). cbn [fst snd].
  destruct (String.eqb_spec k "zeta") as [->|Nz]; [apply orb_true_r|]. destruct (H k) as (v & E); [apply in_map_iff; exists (k, o); auto|exact Nz|].
  pose proof (SearchProofs.dget_in _ _ _ E) as I'. assert (o = Some v) as ->; [|reflexivity].
  clear - N I I'. induction l as [|[a b] l IH]; [destruct I|]. cbn [map fst] in N. inversion N as [|? ? N1 N2]; subst. destruct I as [E|I], I' as [E'|I'].
  - congruence.
  - injection E as -> ->. exfalso. apply N1. apply in_map_iff. exists (k, Some v). auto.
  - injection E' as -> ->. exfalso. apply N1. apply in_map_iff. exists (k, o). auto.
  - auto.
Qed.
Lemma roms_makes f y nr nc g rho sf : RomsFile f y nr nc g rho sf -> depth_factory sd_ld_types (can_make f) = Ok (Some ROMS_Depth).
Proof.
  intros ((U & _) & Sg & OS & Wa).
  assert (Clean : forall v, In v (f_vars (as_names f)) -> ~ In (v_name v) ["siglay"; "depth"; "depth_levels"; "Depth"] /\
     forall l, In l ["ocean_sigma/general_coordinate"; "d"; "e"; "p"; "t"; "h"] -> ~ Carries v l).
  { intros v Iv. destruct (as_names_in f v Iv) as (a & w & Iw & ->). destruct (OS a w Iw) as [Nh K]. split; [exact Nh|].
    intros l Il C. destruct (carries_attr _ _ _ C) as (at_ & Ia & At). exact (K at_ l Ia At Il). }
  assert (R1 : can_make f ROMS_Depth = true).
  { apply (all_found (fun _ => True)); [apply (c55_roles roms_names roms_cf _ _ roms_nodup roms_cf_nodup)|]. intros k Ik Nz.
    assert (Ik' : In k (map (fun c => fst (fst c)) roms_convention)).
    { destruct c87_roles as (C & _). apply (C (as_names f)). unfold finds. rewrite dget_key. exact Ik. }
    assert (Go : forall name labels w, In (k, name, labels) roms_convention -> Labelled f name labels w -> exists v, dget (search_vars roms_names roms_cf (as_names f) (as_names f)) k = Some (Some v)).
    { intros name labels w R L. exists (to_name (name, w)). exact (c87_roms _ k name labels _ R (labelled_found f name labels w U L)). }
    destruct Sg as ((w1 & L1 & _) & (w2 & L2 & _) & (w3 & L3 & _) & (w4 & L4 & _) & (w5 & L5 & _)). destruct Wa as (_ & (w6 & L6 & _) & _).
    cbn [roms_convention map fst In] in Ik'. destruct Ik' as [<-|[<-|[<-|[<-|[<-|[<-|[<-|[]]]]]]]].
    - refine (Go _ _ w4 _ L4). left; reflexivity.
    - refine (Go _ _ w3 _ L3). right; left; reflexivity.
    - refine (Go _ _ w2 _ L2). right; right; left; reflexivity.
    - refine (Go _ _ w1 _ L1). do 3 right; left; reflexivity.
    - refine (Go _ _ w5 _ L5). do 4 right; left; reflexivity.
    - refine (Go _ _ w6 _ L6). do 5 right; left; reflexivity.
    - congruence. }
  assert (R2 : can_make f FVCOM_Depth = false).
  { assert (E : finds fvcom_names fvcom_cf (as_names f) "siglay" = Some None).
    { refine (role_unfound _ _ _ _ ["siglay"] ["ocean_sigma/general_coordinate"] fvcom_nodup fvcom_cf_nodup _ _ _).
      - left. reflexivity.
      - left. reflexivity.
      - intros v Iv. destruct (Clean v Iv) as [A B]. split; [intros [X|[]]; apply A; left; exact X|]. intros l [<-|[]]. apply B. left. reflexivity. }
    unfold finds in E. apply SearchProofs.dget_in in E. unfold can_make, sigma_can. destruct (can_create_sigma _) eqn:C; [|reflexivity]. exfalso.
    apply c51_sigma_support with (k := "siglay") (b := false) in C; [discriminate| |discriminate]. apply in_map_iff. exists ("siglay", None). auto. }
  assert (R3 : can_make f L_Depth = false).
  { destruct (c87_levels_partial (as_names f)) as (r & Fr & Rr).
    { intros x l Ix C Il. destruct (Clean x Ix) as [_ B]. apply (B l); [right; exact Il|exact C]. }
    destruct r as [v|].
    - exfalso. destruct Rr as (q & (pre & post & E & _) & (p1 & p2 & Ev & En & _)).
      assert (Iv : In v (f_vars (as_names f))) by (rewrite Ev; apply in_app_iff; cbn; auto). destruct (Clean v Iv) as [A _]. apply A. right. rewrite En, E. apply in_app_iff. right. left. reflexivity.
    - cbn [can_make]. unfold can_create. destruct (forallb _ _) eqn:Fb; [|reflexivity]. exfalso. rewrite forallb_forall in Fb. unfold finds in Fr. apply SearchProofs.dget_in in Fr. specialize (Fb _ Fr). discriminate Fb. }
  unfold depth_factory, sd_ld_types. cbn [map]. rewrite R1, R2, R3. reflexivity.
Qed.

(** ** The depth *)
Definition terr_of (s : sfile) (g : sigma) (rho : bool) (sf : option nat) (t : time_obj) : rterr :=
  let pick v := if rho then nv_psi v else v in
  mkRT (mkROMS (si_w g) (si_rho g) (si_Cw g) (si_Cr g) (si_hc g) 2) (nv_at (pick (sf_data s "h")) []) "node"
    (match sf with
     | Some _ => let v := pick (sf_data s "zeta") in Some (t, v, (a_r (nv_at v [0]), a_c (nv_at v [0])), "node")
     | None => None
     end).
Definition depth_made (f : file) (rho : bool) (sf : option nat) (t : time_obj) : sdepth :=
  mkSdepth "ROMS_Depth_0" (TimeGiven t) (if rho then Averaged "h" else FromFile "h") (Some "node")
    (match sf with Some _ => if rho then Averaged "zeta" else FromFile "zeta" | None => Zero end) (match sf with Some _ => Some "node" | None => None end)
    (s_terms (found_in f) (depth_args t)) 2 "extrapolate" "mask".

Section Depth.
  Context (dateutil : string -> dparse) (cftime : string -> option (Z * Z * Z)) (now : time_obj).
  Context (s : sfile) (y : layout) (g : sigma) (rho : bool) (sf : option nat).
  Let nr := a_r (sf_nums s (p_x (y_nodes y))).
  Let nc := a_c (sf_nums s (p_x (y_nodes y))).
  Context (F : RomsFile (sf_file s) y nr nc g rho sf).
  Let U : UniqueNames (sf_file s) := proj1 (proj1 F).
  Let api := stag_api (stag_of s y).

  Lemma node_inferred att lead : ga_infer api att (lead ++ [nr; nc]) = Ok (Some "node").
  Proof. clear U F. apply staggered_infer. apply OnNode; reflexivity. Qed.
  Lemma rho_inferred att lead : y_center y <> None -> ga_infer api att (lead ++ [nr + 1; nc + 1]) = Ok (Some "center").
  Proof. clear U F. intros H. apply staggered_infer. apply OnRho; auto. Qed.
  Lemma depth_read t : (forall nt, sf = Some nt -> nt = length (t_data t)) -> read_any dateutil cftime (sf_file s) api t = Ok (Sigma (depth_made (sf_file s) rho sf t)).
  Proof.
    intros Ht. unfold read_any. rewrite (roms_makes _ _ _ _ _ _ _ F). cbn [bind].
    destruct F as (Fs & Sg & OS & (Rc & (h & Lh & Sh) & Wz)).
    pose proof (found_role (sf_file s) "bathymetry" "h" _ h U ltac:(do 5 right; left; reflexivity) Lh) as Fh.
    unfold load_sdepth. cbn [depth_args sa_name]. unfold s_time. cbn [depth_args sa_time bind]. unfold s_bathy. cbn [depth_args sa_bathy].
    rewrite (proj2 (get_found_iff _ _ _) Fh). cbn [fr_var fr_name].
    assert (Hb : on_nodes api (to_load h) = Ok (negb rho)).
    { unfold on_nodes. cbn [to_load lv_shape]. rewrite Sh. destruct rho.
      - rewrite (rho_inferred _ [] (Rc eq_refl)). reflexivity.
      - rewrite (node_inferred _ [] : ga_infer api (own_location (to_load h)) [nr; nc] = _). reflexivity. }
    rewrite Hb. cbn [bind].
    assert (Hbs : (if negb rho then do l <- construct_plain api (own_location (to_load h)) (lv_shape (to_load h)); Ok (FromFile "h", Some l, Some (mkFref (as_load (sf_file s)) "h" (to_load h)))
       else do sh <- averaged2 (lv_shape (to_load h)); do l <- construct_plain api None sh; Ok (Averaged "h", Some l, Some (mkFref (as_load (sf_file s)) "h" (to_load h))))
       = Ok (if rho then Averaged "h" else FromFile "h", Some "node", Some (mkFref (as_load (sf_file s)) "h" (to_load h)))).
    { cbn [to_load lv_shape]. rewrite Sh. destruct rho; cbn [negb averaged2 bind]; unfold construct_plain.
      - replace (nr + 1 - 1) with nr by lia. replace (nc + 1 - 1) with nc by lia. rewrite (node_inferred None [] : ga_infer api None [nr; nc] = _). reflexivity.
      - rewrite (node_inferred _ [] : ga_infer api (own_location (to_load h)) [nr; nc] = _). reflexivity. }
    rewrite Hbs. cbn [bind]. unfold s_zeta. cbn [depth_args sa_zeta].
    destruct sf as [nt|].
    - destruct Wz as (z & Lz & Sz). pose proof (found_role (sf_file s) "zeta" "zeta" _ z U ltac:(do 6 right; left; reflexivity) Lz) as Fz.
      rewrite (proj2 (get_found_iff _ _ _) Fz). cbn [fr_var fr_name]. rewrite Hb. cbn [bind].
      assert (Hzs : (if negb rho then do l <- construct api (own_location (to_load z)) (lv_shape (to_load z)) None (TimeGiven t); Ok (FromFile "zeta", Some l)
         else do sh <- averaged3 (lv_shape (to_load z)); do l <- construct api None sh None (TimeGiven t); Ok (Averaged "zeta", Some l)) = Ok (if rho then Averaged "zeta" else FromFile "zeta", Some "node")).
      { cbn [to_load lv_shape]. rewrite Sz. rewrite (Ht nt eq_refl). destruct rho; cbn [negb averaged3 bind]; unfold construct; cbn [check_location bind].
        - replace (nr + 1 - 1) with nr by lia. replace (nc + 1 - 1) with nc by lia. rewrite (node_inferred None [length (t_data t)] : ga_infer api None [length (t_data t); nr; nc] = _). cbn [bind check_location]. change (isin "node" valid_locations) with true. cbn [bind times]. rewrite Nat.eqb_refl. reflexivity.
        - rewrite (node_inferred _ [length (t_data t)] : ga_infer api (own_location (to_load z)) [length (t_data t); nr; nc] = _). cbn [bind check_location]. change (isin "node" valid_locations) with true. cbn [bind times]. rewrite Nat.eqb_refl. reflexivity. }
      rewrite Hzs. reflexivity.
    - assert (Nz : get_found (found_in (sf_file s)) "zeta" = None).
      { unfold get_found. rewrite found_get.
        assert (finds roms_names roms_cf (as_names (sf_file s)) "zeta" = Some None) as ->; [|reflexivity].
        refine (role_unfound _ _ _ _ ["zeta"] ["free-surface"] roms_nodup roms_cf_nodup _ _ _).
        - do 6 right. left. reflexivity.
        - do 6 right. left. reflexivity.
        - intros v Iv. destruct (as_names_in _ v Iv) as (a & w & Iw & ->). destruct (Wz a w Iw) as [A B]. split; [intros [X|[]]; cbn [to_name v_name fst] in X; congruence|].
          intros l [<-|[]] C. destruct (carries_attr _ _ _ C) as (at_ & Ia & At). exact (B at_ Ia At). }
      rewrite Nz. reflexivity.
  Qed.
  Lemma terrain t : terrain_of now s (depth_made (sf_file s) rho sf t) = Ok (terr_of s g rho sf t).
  Proof.
    pose proof F as (Fs & Sg & _).
    assert (Tm : forall role label l, In (role, role, [label]) roms_convention -> role <> "bathymetry" -> role <> "zeta" -> Numbers (sf_file s) role label l -> term (sf_file s) (depth_made (sf_file s) rho sf t) role = Ok l).
    { intros role label l R N1 N2 (w & L & <-). pose proof (found_role (sf_file s) role role _ w U R L) as Fr. unfold term. cbn [depth_made sd_terms].
      rewrite (proj2 (terms_get dateutil cftime (found_in (sf_file s)) (found_nodup _) (depth_args t) eq_refl role (Values role))).
      - rewrite (dget_unique _ _ _ U (proj1 L)). reflexivity.
      - split; [exact N1|]. split; [exact N2|]. eexists. split; [exact Fr|reflexivity]. }
    destruct Sg as (S1 & S2 & S3 & S4 & S5). unfold terrain_of.
    rewrite (Tm "s_w" _ _ ltac:(do 3 right; left; reflexivity) ltac:(discriminate) ltac:(discriminate) S1), (Tm "s_rho" _ _ ltac:(do 2 right; left; reflexivity) ltac:(discriminate) ltac:(discriminate) S2),
      (Tm "Cs_w" _ _ ltac:(right; left; reflexivity) ltac:(discriminate) ltac:(discriminate) S3), (Tm "Cs_r" _ _ ltac:(left; reflexivity) ltac:(discriminate) ltac:(discriminate) S4),
      (Tm "hc" _ _ ltac:(do 4 right; left; reflexivity) ltac:(discriminate) ltac:(discriminate) S5).
    cbn [bind depth_made sd_bathy sd_bathy_loc sd_zeta sd_zeta_loc sd_time sd_vtransform time_value]. unfold terr_of. destruct rho, sf; reflexivity.
  Qed.
End Depth.

(** ** Loading *)
Section Loading.
  Context (dateutil : string -> dparse) (cftime : string -> option (Z * Z * Z)) (now : time_obj) (f : file) (g : grid_api).
  Lemma read_free rd c a v : load_variable dateutil cftime rd g (as_load f) c a = Ok v -> load_variable dateutil cftime (Ok tt) g (as_load f) c a = Ok v.
  Proof.
    unfold load_variable. destruct (dget (lf_vars (as_load f)) (la_varname a)) as [w|]; [|auto]. destruct (load_time dateutil cftime (as_load f) w a) as [t|e]; [|auto]. cbn [bind].
    unfold load_depth. destruct (la_depth a); [auto|]. destruct (_ =? _); [|auto]. destruct rd as [[]|e]; [auto|discriminate].
  Qed.
  Lemma each_plain vs : forall xs, roms_each dateutil cftime now f g vs = Ok xs -> load_each dateutil cftime (Ok tt) g (as_load f) vs = Ok xs.
  Proof.
    induction vs as [|[k v] vs IH]; intros xs; [auto|]. cbn [roms_each load_each]. destruct (is_grid_name g k); [apply IH|].
    destruct (find_location g v) as [[l|]|e]; cbn [bind]; [|apply IH|auto]. intros H. apply bind_ok in H. destruct H as (x & Ex & H). apply bind_ok in H. destruct H as (r & Er & H).
    unfold roms_load in Ex. rewrite (read_free _ _ _ _ Ex). cbn [bind]. rewrite (IH r Er). exact H.
  Qed.
  Lemma each_all (U : UniqueNames f) vs : (forall k w, In (k, w) vs -> In (k, w) (fi_vars f)) ->
    (forall k w, In (k, w) vs -> GridName g k \/ find_location g (to_load w) = Ok None \/
       exists loc v, find_location g (to_load w) = Ok (Some loc) /\ roms_load dateutil cftime now f g k (to_load w) loc = Ok v) ->
    exists xs, roms_each dateutil cftime now f g (map (fun kv => (fst kv, to_load (snd kv))) vs) = Ok xs.
  Proof.
    induction vs as [|[k w] vs IH]; intros Sub H; [eexists; reflexivity|]. cbn [map roms_each fst snd].
    destruct IH as (xs & Hx); [intros; apply Sub; right; auto|intros; apply H; right; auto|].
    destruct (is_grid_name g k) eqn:G; [eauto|]. destruct (H k w (or_introl eq_refl)) as [K|[-> |(loc & v & Ef & Ev)]].
    - apply grid_name_iff in K. congruence.
    - cbn [bind]. eauto.
    - rewrite Ef. cbn [bind]. rewrite Ev. cbn [bind]. rewrite Hx. cbn. eauto.
  Qed.
  (** The time read for a variable. *)
  Lemma time_read (U : UniqueNames f) k w loc ts : InstantsIn cftime f w ts ->
    exists t nm, load_time dateutil cftime (as_load f) (to_load w) (plain_args k (to_load w) loc) = Ok (TimeRead t nm, true) /\ t_data t = ts.
  Proof.
    intros (an & aw & Ax & Ia & FIn & SO & SI). unfold load_time. cbn [plain_args la_time la_tz la_origin la_disp].
    destruct (locate_iff (as_load f) (to_load w)) as (L1 & _ & _). rewrite (proj2 (L1 an) Ax). cbn [bind].
    destruct (axis_read dateutil cftime f U w ts an aw Ax Ia FIn SO SI) as (t & nm & -> & Td). cbn [bind]. eauto.
  Qed.
End Loading.

(** ** The whole way *)
Section Opened.
  Context (dateutil : string -> dparse) (cftime : string -> option (Z * Z * Z)) (now : time_obj).
  Context (s : sfile) (y : layout) (g : sigma) (rho : bool) (sf : option nat).
  Let nr := a_r (sf_nums s (p_x (y_nodes y))).
  Let nc := a_c (sf_nums s (p_x (y_nodes y))).
  Let t := stag_of s y.

  Lemma roms_open_inv p : StagFile (sf_file s) y -> open_roms_dataset dateutil cftime now s = Ok p -> fst p = t /\
    load_variables dateutil cftime (Ok tt) (stag_api t) (as_load (sf_file s)) = Ok (snd p).
  Proof.
    intros F. unfold open_roms_dataset. rewrite (stag_read _ _ F). cbn [bind]. fold t. intros H. apply bind_ok in H. destruct H as (vs & Hv & H). injection H as <-.
    split; [reflexivity|]. apply (each_plain _ _ _ _ _ _ _ Hv).
  Qed.
  Lemma roms_opens : RomsFile (sf_file s) y nr nc g rho sf -> RomsSound cftime (sf_file s) y nr nc sf ->
    exists vs, open_roms_dataset dateutil cftime now s = Ok (t, vs).
  Proof.
    intros F H. pose proof (proj1 F) as Fs. unfold open_roms_dataset. rewrite (stag_read _ _ Fs). cbn [bind]. fold t. rewrite load_vars.
    assert (U : UniqueNames (sf_file s)) by apply Fs.
    destruct (each_all dateutil cftime now (sf_file s) (stag_api t) U (fi_vars (sf_file s))) as (xs & E); [auto| |rewrite E; cbn; eauto].
    intros k w I. destruct (H k w I) as [G|[N|(a & b & loc & Si & Da)]].
    - left. apply (stag_grid_name _ _ _ Fs). exact G.
    - right. left. apply nowhere_none. exact N.
    - right. right. exists loc. destruct Da as [(Tl & Sh)|(ts & lead & In_ & Sh & Ld)].
      + destruct (sits_location s y w [] a b loc Sh Si) as [HL VL].
        destruct (static_ok dateutil cftime (do t0 <- load_time dateutil cftime (as_load (sf_file s)) (to_load w) (plain_args k (to_load w) loc);
          do _ <- read_any dateutil cftime (sf_file s) (stag_api t) (time_value now (fst t0)); Ok tt) (stag_api t) (sf_file s) U k w loc I VL Tl) as (v & Ev); [rewrite Sh; cbn; lia|].
        exists v. split; [apply find_location_iff; exact HL|exact Ev].
      + destruct (sits_location s y w ([length ts] ++ lead) a b loc) as [HL VL]; [rewrite <- app_assoc; exact Sh|exact Si|].
        destruct (time_read dateutil cftime (sf_file s) U k w loc ts In_) as (tm & nm & Et & Td).
        destruct (load_ok dateutil cftime (do t0 <- load_time dateutil cftime (as_load (sf_file s)) (to_load w) (plain_args k (to_load w) loc);
          do _ <- read_any dateutil cftime (sf_file s) (stag_api t) (time_value now (fst t0)); Ok tt) (stag_api t) (sf_file s) U k w loc ts (lead ++ [a; b]) I VL In_ Sh) as (v & Ev).
        * intros Le. rewrite Et. cbn [bind fst time_value].
          destruct Ld as [-> |(n & -> & Hn)]; [exfalso; cbn in Le; lia|].
          unfold t. rewrite (depth_read dateutil cftime s y g rho sf F tm); [reflexivity|]. rewrite Td. exact Hn.
        * exists v. split; [apply find_location_iff; exact HL|exact Ev].
  Qed.

  Context (F : RomsFile (sf_file s) y nr nc g rho sf).
  Context (p : stag * dict variable) (O : open_roms_dataset dateutil cftime now s = Ok p).
  Context (k : string) (w : mvar) (I : In (k, w) (fi_vars (sf_file s))) (NG : ~ In k (grid_words y)).
  Context (a b : nat) (loc : string) (Si : SitsAt nr nc y w a b loc).
  Lemma roms_left_out : Nowhere nr nc y w -> dget (snd p) k = None.
  Proof.
    clear Si a b loc NG. intros N. destruct (roms_open_inv p (proj1 F) O) as (_ & Hv).
    destruct (dget (snd p) k) as [v|] eqn:G; [|reflexivity]. exfalso.
    assert (Iv : In (k, v) (snd p)).
    { clear - G. revert G. induction (snd p) as [|[k' v'] l IH]; [discriminate|]. cbn [dget]. destruct (String.eqb_spec k k') as [->|]; [intros E; injection E as ->; left; reflexivity|intros E; right; auto]. }
    destruct (c78_entries _ _ _ _ _ _ _ _ Hv Iv) as (_ & _ & _ & w' & Iw' & Lo & _).
    rewrite load_vars in Iw'. apply in_map_iff in Iw'. destruct Iw' as ([k2 w2] & E & I2). cbn [fst snd] in E. injection E as -> <-.
    assert (w2 = w) as -> by (pose proof (dget_unique _ _ _ (proj1 (proj1 F)) I); pose proof (dget_unique _ _ _ (proj1 (proj1 F)) I2); congruence).
    apply find_location_iff in Lo. pose proof (nowhere_none s y w N) as Z. fold t in Z. rewrite Z in Lo. discriminate.
  Qed.
  Section Sampled.
    Context (ts : list Z) (lead : list nat) (In_ : InstantsIn cftime (sf_file s) w ts).
    Context (Sh : fm_shape w = [length ts] ++ lead ++ [a; b]).
    Lemma roms_opened : exists v tm nm, dget (snd p) k = Some v /\ va_loc v = loc /\ va_varname v = k /\ va_shape v = fm_shape w /\
      va_time v = TimeRead tm nm /\ t_data tm = ts /\ va_depth v = if length lead =? 1 then DepthRead else DepthNone.
    Proof.
      destruct (roms_open_inv p (proj1 F) O) as (_ & Hv).
      destruct (sits_location s y w ([length ts] ++ lead) a b loc) as [HL VL]; [rewrite <- app_assoc; exact Sh|exact Si|].
      destruct (loaded dateutil cftime _ _ (sf_file s) ltac:(apply F) (snd p) k w loc ts Hv I) as (v & tm & nm & G & Vl & Vk & Vs & Vt & Td & Vd); auto.
      - intros G. apply (stag_grid_name _ _ _ (proj1 F)) in G. contradiction.
      - exists v, tm, nm. split; [exact G|]. split; [exact Vl|]. split; [exact Vk|]. split; [exact Vs|]. split; [exact Vt|]. split; [exact Td|].
        rewrite Vd, Sh. cbn [stag_api ga_kind GridDimensions]. rewrite !app_length. cbn [length].
        destruct (Nat.eqb_spec (1 + (length lead + 2)) (2 + 2)), (Nat.eqb_spec (length lead) 1); try reflexivity; lia.
    Qed.
    Lemma roms_flat_asked find : lead = [] -> exists tm, t_data tm = ts /\ forall q ex pts,
      ask_roms dateutil cftime now find s k q ex pts =
      stag_at (st_grid t) find loc (order_of true false GStructured) (sf_data s k) [length (t_data tm); a; b] (Some tm) None q ex pts.
    Proof.
      intros E. destruct roms_opened as (v & tm & nm & G & Vl & Vk & Vs & Vt & Td & Vd). exists tm. split; [exact Td|].
      intros q ex pts. unfold ask_roms. rewrite O. cbn [bind]. rewrite G. destruct (roms_open_inv p (proj1 F) O) as (-> & _). unfold roms_answer, roms_depth.
      rewrite Vd, Vs, Vl, Vk, Vt, Sh, Td, E. reflexivity.
    Qed.
    Lemma roms_asked find n : lead = [n] -> (forall nt, sf = Some nt -> nt = length ts) -> exists tm, t_data tm = ts /\ forall q ex pts,
      ask_roms dateutil cftime now find s k q ex pts =
      roms_at (st_grid t) find (terr_of s g rho sf tm) q ex loc (sf_data s k) n a b (Some tm) BExtrapolate DepthModel.BMask pts.
    Proof.
      intros E Hn. destruct roms_opened as (v & tm & nm & G & Vl & Vk & Vs & Vt & Td & Vd). exists tm. split; [exact Td|].
      intros q ex pts. unfold ask_roms. rewrite O. cbn [bind]. rewrite G. destruct (roms_open_inv p (proj1 F) O) as (-> & _). unfold roms_answer, roms_depth.
      rewrite Vd, Vs, Vl, Vk, Vt, Sh, E. change (length [n] =? 1) with true. cbv iota. cbn [time_value]. unfold t. rewrite (depth_read dateutil cftime s y g rho sf F tm) by (rewrite Td; exact Hn). cbn [bind].
      rewrite (terrain dateutil cftime now s y g rho sf F tm). cbn [bind]. subst ts. reflexivity.
    Qed.
  End Sampled.
  Lemma roms_fixed find q ex pts : Timeless (sf_file s) w -> fm_shape w = [a; b] -> ask_roms dateutil cftime now find s k q ex pts =
    stag_at (st_grid t) find loc (order_of false false GStructured) (sf_data s k) [a; b] None None q ex pts.
  Proof.
    intros Tl Sh. destruct (roms_open_inv p (proj1 F) O) as (Ep & Hv).
    destruct (sits_location s y w [] a b loc Sh Si) as [HL VL].
    destruct (static_loaded dateutil cftime _ _ (sf_file s) ltac:(apply F) (snd p) k w loc Hv I) as (v & G & Vl & Vk & Vs & Vt & Vd); auto.
    - intros G. apply (stag_grid_name _ _ _ (proj1 F)) in G. contradiction.
    - rewrite Sh. cbn. lia.
    - unfold ask_roms. rewrite O. cbn [bind]. rewrite G, Ep. unfold roms_answer, roms_depth. rewrite Vd, Vs, Vl, Vk, Vt, Sh. reflexivity.
  Qed.
End Opened.

(** ** The water *)
Lemma psi_reads v nr nc f m : Reads v (nr + 1) (nc + 1) f m -> Reads (to_psi v) nr nc (mean4 f) (any4 m).
Proof.
  intros (A & B & H). split; [cbn; lia|]. split; [cbn; lia|]. intros i j. cbn [to_psi half_cols half_rows a_at rd_mean d_val d_mask].
  destruct (H i j) as [M1 V1], (H i (S j)) as [M2 V2], (H (S i) j) as [M3 V3], (H (S i) (S j)) as [M4 V4]. split.
  - rewrite M1, M2, M3, M4. unfold any4. destruct (m i j), (m i (S j)), (m (S i) j), (m (S i) (S j)); reflexivity.
  - unfold any4, mean4. intros E. apply orb_false_elim in E. destruct E as (E & E4). apply orb_false_elim in E. destruct E as (E & E3). apply orb_false_elim in E. destruct E as (E1 & E2).
    rewrite V1, V2, V3, V4 by assumption. field.
Qed.
Lemma reads_ext v nr nc f m f' m' : Reads v nr nc f m -> (forall i j, f' i j = f i j) -> (forall i j, m' i j = m i j) -> Reads v nr nc f' m'.
Proof. intros (A & B & H) Ef Em. split; [exact A|]. split; [exact B|]. intros i j. rewrite Ef, Em. apply H. Qed.
Lemma bed_reads s g rho sf t nr nc H m : BedIn s rho nr nc H m -> Reads (rt_h (terr_of s g rho sf t)) nr nc H m.
Proof.
  unfold BedIn. cbn [terr_of rt_h]. destruct rho; [|auto]. intros (h & hm & R & E). cbn [nv_psi nv_at].
  apply (reads_ext _ _ _ (mean4 h) (any4 hm)); [apply psi_reads; exact R|intros; apply E|intros; apply E].
Qed.
Lemma surface_holds s rho ts nr nc Z_ m : SurfaceIn s rho ts nr nc Z_ m -> Holds (if rho then nv_psi (sf_data s "zeta") else sf_data s "zeta") (Some ts) None nr nc (fun t _ => Z_ t) (fun _ => m).
Proof.
  unfold SurfaceIn. destruct rho; [|auto]. intros (z & zm & (Ld & Rd & Li) & Ez & Em). split; [exact Ld|]. split.
  - intros ix t j Sl. cbn [nv_psi nv_at]. apply (reads_ext _ _ _ (mean4 (z t)) (any4 zm)); [apply psi_reads; exact (Rd ix t j Sl)|intros; apply Ez|intros; apply Em].
  - intros l i j k E Mm i0 t0 t1 q H0 H1 Hq. rewrite Em in Mm. unfold any4 in Mm. apply orb_false_elim in Mm. destruct Mm as (Mm & E4). apply orb_false_elim in Mm. destruct Mm as (Mm & E3). apply orb_false_elim in Mm. destruct Mm as (E1 & E2).
    rewrite !Ez. unfold mean4.
    pose proof (Li l i j k E E1 i0 t0 t1 q H0 H1 Hq) as P1. pose proof (Li l i (S j) k E E2 i0 t0 t1 q H0 H1 Hq) as P2. pose proof (Li l (S i) j k E E3 i0 t0 t1 q H0 H1 Hq) as P3. pose proof (Li l (S i) (S j) k E E4 i0 t0 t1 q H0 H1 Hq) as P4.
    cbv beta in P1, P2, P3, P4. Lra.nra.
Qed.
