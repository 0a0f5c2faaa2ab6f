(** C106: from a file of ROMS, with terrain-following levels, to the answers of its
    variables. *)
From Coq Require Import Reals String Lra.
From Verif Require Import Common CommonProofs TimeModel TimeSpec VariableSpec GridTypeModel GridTypeSpec GridTypeProofs MaskModel MaskSpec VariableModel DepthModel DepthSpec SGridModel SGridSpec
  TFileModel TFileSpec TFileProps LoadModel LoadSpec LoadProofs SLoadModel VLoadModel SGridInterpModel SGridInterpSpec SGridInterpProps FMeshModel FMeshSpec FMeshProofs FMeshProps FRectSpec FRectProofs WholeSpec WholeProofs WholeProps
  SWholeModel SWholeSpec SWholeProofs SWholeProps RTerrModel RTerrSpec RTerrProofs RTerrProps FStagModel FStagSpec FStagRead FStagProofs FStagProps FRomsModel FRomsSpec FRomsProofs.
Open Scope string_scope.
Open Scope list_scope.
Open Scope nat_scope.

(** A file with other depths, or none, is read as in C105. *)
Lemma read_other dateutil cftime f g t : can_make f ROMS_Depth = false -> read_any dateutil cftime f g t = do d <- read_depth f; Ok (Flat d).
Proof.
  intros H. unfold read_any. unfold read_depth. unfold depth_factory, sd_ld_types. cbn [map]. rewrite H. destruct (can_make f FVCOM_Depth), (can_make f L_Depth); reflexivity.
Qed.
Theorem c106_other_depths :
  forall dateutil cftime now find s, UniqueNames (sf_file s) -> can_make (sf_file s) ROMS_Depth = false ->
  open_roms_dataset dateutil cftime now s = open_stag_dataset dateutil cftime s /\
  forall k q ex pts, ask_roms dateutil cftime now find s k q ex pts = ask_stag dateutil cftime now find s k q ex pts.
Proof.
  intros dateutil cftime now find s U H.
  assert (L : forall g k w l, In (k, w) (fi_vars (sf_file s)) -> roms_load dateutil cftime now (sf_file s) g k (to_load w) l =
     load_variable dateutil cftime (do _ <- read_depth (sf_file s); Ok tt) g (as_load (sf_file s)) 0 (plain_args k (to_load w) l)).
  { intros g k w l I. unfold roms_load, load_variable. cbn [plain_args la_varname]. rewrite (load_get _ U k w I).
    destruct (load_time dateutil cftime (as_load (sf_file s)) (to_load w) (plain_args k (to_load w) l)) as [t|e] eqn:E; [|reflexivity]. cbn [bind fst]. rewrite (read_other _ _ _ _ _ H).
    destruct (read_depth (sf_file s)); reflexivity. }
  assert (A : forall g vs, (forall k w, In (k, w) vs -> In (k, w) (fi_vars (sf_file s))) ->
     roms_each dateutil cftime now (sf_file s) g (map (fun kv => (fst kv, to_load (snd kv))) vs) =
     load_each dateutil cftime (do _ <- read_depth (sf_file s); Ok tt) g (as_load (sf_file s)) (map (fun kv => (fst kv, to_load (snd kv))) vs)).
  { intros g vs. induction vs as [|[k w] vs IH]; intros Sub; [reflexivity|]. cbn [map fst snd roms_each load_each]. rewrite IH by (intros; apply Sub; right; auto).
    destruct (is_grid_name g k); [reflexivity|]. destruct (find_location g (to_load w)) as [[l|]|e]; [|reflexivity|reflexivity]. cbn [bind]. rewrite (L g k w l) by (apply Sub; left; reflexivity). reflexivity. }
  assert (O : open_roms_dataset dateutil cftime now s = open_stag_dataset dateutil cftime s).
  { unfold open_roms_dataset, open_stag_dataset. destruct (open_stag s) as [t|e]; [|reflexivity]. cbn [bind]. unfold load_variables. rewrite load_vars, A by auto. reflexivity. }
  split; [exact O|]. intros k q ex pts. unfold ask_roms, ask_stag. rewrite O. destruct (open_stag_dataset dateutil cftime s) as [[t vs]|e]; [|reflexivity]. cbn [bind fst snd].
  destruct (dget vs k) as [v|]; [|reflexivity]. unfold roms_answer, stag_answer, roms_depth. destruct (va_depth v) eqn:D; unfold stag_depth at 1; rewrite D; try reflexivity.
  rewrite (read_other _ _ _ _ _ H). unfold stag_depth. rewrite D. destruct (read_depth (sf_file s)); reflexivity.
Qed.
Print Assumptions c106_other_depths.

Section Opened.
  Context (dateutil : string -> dparse) (cftime : string -> option (Z * Z * Z)) (now : time_obj).
  Context (s : sfile) (y : layout) (g : sigma) (rho : bool) (sf : option nat).
  Let nr := a_r (sf_nums s (p_x (y_nodes y))).
  Let nc := a_c (sf_nums s (p_x (y_nodes y))).
  (** It opens, when every variable has no place on the grid or is properly sampled. *)
  Theorem c106_opens : RomsFile (sf_file s) y nr nc g rho sf -> RomsSound cftime (sf_file s) y nr nc sf ->
    exists t vs, open_roms_dataset dateutil cftime now s = Ok (t, vs) /\ grid_in s y (st_grid t).
  Proof. intros F H. destruct (roms_opens dateutil cftime now s y g rho sf F H) as (vs & E). exists (stag_of s y), vs. split; [exact E|repeat split]. Qed.
  Theorem c106_left_out p k w : RomsFile (sf_file s) y nr nc g rho sf -> open_roms_dataset dateutil cftime now s = Ok p -> In (k, w) (fi_vars (sf_file s)) ->
    Nowhere nr nc y w -> dget (snd p) k = None.
  Proof. intros F O I N. exact (roms_left_out dateutil cftime now s y g rho sf F p O k w I N). Qed.
  (** The variables opened: those over the depth too have the terrain-following
      levels of the file. *)
  Theorem c106_variable p k w a b loc ts lead : RomsFile (sf_file s) y nr nc g rho sf -> open_roms_dataset dateutil cftime now s = Ok p -> In (k, w) (fi_vars (sf_file s)) -> ~ In k (grid_words y) ->
    SitsAt nr nc y w a b loc -> InstantsIn cftime (sf_file s) w ts -> fm_shape w = [length ts] ++ lead ++ [a; b] ->
    exists v t nm, dget (snd p) k = Some v /\ va_loc v = loc /\ va_varname v = k /\ va_shape v = fm_shape w /\ va_time v = TimeRead t nm /\ t_data t = ts /\
      (length lead = 1 -> va_depth v = DepthRead) /\ (length lead <> 1 -> va_depth v = DepthNone).
  Proof.
    intros F O I NG Si In_ Sh. destruct (roms_opened dateutil cftime now s y g rho sf F p O k w I NG a b loc Si ts lead In_ Sh) as (v & t & nm & A & B & C & D & E & G & H).
    exists v, t, nm. repeat (split; [assumption|]). rewrite H. destruct (Nat.eqb_spec (length lead) 1); split; congruence.
  Qed.

  Context (F : RomsFile (sf_file s) y nr nc g rho sf) (M : MaskSized s y).
  Lemma roms_sits p : open_roms_dataset dateutil cftime now s = Ok p -> forall loc a b col expct,
    Answers (st_grid (fst p)) (center_size s y) loc a b col expct -> fst p = stag_of s y /\ Sits (st_grid (stag_of s y)) loc a b col expct.
  Proof.
    intros O loc a b col expct H. destruct (roms_open_inv dateutil cftime now s y p (proj1 F) O) as (E & _). split; [exact E|]. rewrite E in H. apply answers_sits; [exact H|].
    intros m Nc Em. cbn [stag_of st_grid g_pads sp_center_shape]. destruct (y_center y) as [c|] eqn:Ec; [|congruence]. destruct (M c m Ec Em) as [A B]. cbn [option_map]. unfold shape2. rewrite A, B. reflexivity.
  Qed.
  Lemma node_sits : Sits (st_grid (stag_of s y)) "node" nr nc false node_expected.
  Proof. clear F M. apply OnNodes; reflexivity. Qed.
  (** The columns of the file are those of its terrain. *)
  Lemma columns place_of ts tm q q' ex n pts sit H m z :
    t_data tm = ts -> SigmaSized g n -> BedIn s rho nr nc H m -> SurfaceOver s rho ts nr nc q' place_of sf z -> TimeOk (Some ts) ex q q' ->
    (forall x, In x pts -> Column g (fun x => node_expected (snap nr nc H m) (fst x, place_of (fst x))) z x (sit x)) ->
    Columns (st_grid (stag_of s y)) (terr_of s g rho sf tm) place_of q ex n BExtrapolate DepthModel.BMask pts sit.
  Proof.
    intros Td (L1 & L2 & L3 & L4 & As) Bd Su TO Co. unfold Columns. cbn [terr_of rt_roms r_sw r_Cw r_srho r_vt r_hc].
    repeat (split; [first [assumption|right; reflexivity]|]).
    exists (fun x => node_expected (snap nr nc H m) (fst x, place_of (fst x))), z. split; [|split].
    - apply (FloorAt _ _ _ false node_expected nr nc H m); [exact node_sits|apply bed_reads; exact Bd].
    - destruct Su as [z Ho Hm|Z_ mz nt Su].
      + apply Still; [reflexivity|exact Ho|exact Hm].
      + pose proof (surface_holds _ _ _ _ _ _ _ Su) as Hz. set (v := if rho then nv_psi (sf_data s "zeta") else sf_data s "zeta") in *.
        destruct (TO ts eq_refl) as (_ & Ne & _).
        assert (Rz : a_r (nv_at v [0]) = nr /\ a_c (nv_at v [0]) = nc).
        { destruct Hz as (_ & Rd & _). destruct ts as [|t0 r]; [congruence|]. destruct (Rd [0] t0 0) as (A & B & _); [exists 0; split; reflexivity|]. auto. }
        refine (Moving _ _ _ q ex tm v nr nc "node" false node_expected Z_ mz q' _ node_sits _ _).
        * cbn [terr_of rt_zeta]. fold v. rewrite (proj1 Rz), (proj2 Rz). reflexivity.
        * rewrite Td. exact Hz.
        * rewrite Td. exact TO.
    - intros x Ix. destruct (Co x Ix) as (prof & Wa & De & Se). exists prof. auto.
  Qed.
End Opened.
Print Assumptions c106_opens.
Print Assumptions c106_left_out.
Print Assumptions c106_variable.

(** Data on the layers between the levels (at s_rho), on any of the points: the
    layer around the depth, in the water over the point at the time asked.
    Missing: what lies above the surface (C99), bathymetry and free surface of different sizes. *)
Theorem c106_layers_partial :
  forall dateutil cftime now find s y g rho sf p k w a b loc ts n place_of col expct f m q q' ex pts sit H hm z,
  let nr := a_r (sf_nums s (p_x (y_nodes y))) in let nc := a_c (sf_nums s (p_x (y_nodes y))) in
  RomsFile (sf_file s) y nr nc g rho sf -> MaskSized s y -> open_roms_dataset dateutil cftime now s = Ok p -> In (k, w) (fi_vars (sf_file s)) -> ~ In k (grid_words y) ->
  SitsAt nr nc y w a b loc -> InstantsIn cftime (sf_file s) w ts -> fm_shape w = [length ts; n - 1; a; b] -> (forall nt, sf = Some nt -> nt = length ts) ->
  SameShape (st_grid (fst p)) -> Answers (st_grid (fst p)) (center_size s y) loc a b col expct -> Finds (st_grid (fst p)) find place_of (map fst pts) ->
  Holds (sf_data s k) (Some ts) (Some (n - 1)) a b f m -> TimeOk (Some ts) ex q q' ->
  SigmaSized g n -> BedIn s rho nr nc H hm -> SurfaceOver s rho ts nr nc q' place_of sf z ->
  (forall x, In x pts -> Column g (fun x => node_expected (snap nr nc H hm) (fst x, place_of (fst x))) z x (sit x)) ->
  ask_roms dateutil cftime now find s k q ex pts =
  Ok (map (fun x => match sit x with
                    | Between j _ => expct (snap a b (f q' j) (m j)) (fst x, place_of (fst x))
                    | _ => RMask
                    end) pts).
Proof.
  intros dateutil cftime now find s y g rho sf p k w a b loc ts n place_of col expct f m q q' ex pts sit H hm z nr nc F M O I NG Si In_ Sh Hn SS An Fi Ho TO Sg Bd Su Co.
  destruct (roms_sits dateutil cftime now s y g rho sf F M p O loc a b col expct An) as (Ep & St). rewrite Ep in *.
  destruct (roms_asked dateutil cftime now s y g rho sf F p O k w I NG a b loc Si ts [n - 1] In_ Sh find (n - 1) eq_refl Hn) as (tm & Td & E). rewrite E.
  refine (c99_layers_partial (st_grid (stag_of s y)) find place_of (terr_of s g rho sf tm) loc a b col expct (sf_data s k) (Some tm) n f m q q' ex BExtrapolate DepthModel.BMask pts sit SS St Fi _ _ _ _).
  - cbn [option_map]. rewrite Td. exact Ho.
  - cbn [option_map]. rewrite Td. exact TO.
  - exact (columns s y g rho sf F place_of ts tm q q' ex n pts sit H hm z Td Sg Bd Su TO Co).
  - intros x Ix Eb. destruct (Co x Ix) as (prof & _ & _ & Se). rewrite Eb in Se. inversion Se. discriminate.
Qed.
Print Assumptions c106_layers_partial.
(** Data on the levels themselves (at s_w), at points other than the centers:
    between the levels below and above the depth. *)
Theorem c106_levels_partial :
  forall dateutil cftime now find s y g rho sf p k w a b loc ts n place_of expct f m q q' ex pts sit H hm z,
  let nr := a_r (sf_nums s (p_x (y_nodes y))) in let nc := a_c (sf_nums s (p_x (y_nodes y))) in
  RomsFile (sf_file s) y nr nc g rho sf -> MaskSized s y -> open_roms_dataset dateutil cftime now s = Ok p -> In (k, w) (fi_vars (sf_file s)) -> ~ In k (grid_words y) ->
  SitsAt nr nc y w a b loc -> InstantsIn cftime (sf_file s) w ts -> fm_shape w = [length ts; n; a; b] -> (forall nt, sf = Some nt -> nt = length ts) ->
  SameShape (st_grid (fst p)) -> Answers (st_grid (fst p)) (center_size s y) loc a b false expct -> Finds (st_grid (fst p)) find place_of (map fst pts) ->
  Holds (sf_data s k) (Some ts) (Some n) a b f (fun _ => m) -> TimeOk (Some ts) ex q q' ->
  SigmaSized g n -> BedIn s rho nr nc H hm -> SurfaceOver s rho ts nr nc q' place_of sf z ->
  (forall x, In x pts -> Column g (fun x => node_expected (snap nr nc H hm) (fst x, place_of (fst x))) z x (sit x)) ->
  ask_roms dateutil cftime now find s k q ex pts =
  Ok (map (fun x => match sit x with
                    | Between j w => expct (snap a b (blended (f q') j w) m) (fst x, place_of (fst x))
                    | _ => RMask
                    end) pts).
Proof.
  intros dateutil cftime now find s y g rho sf p k w a b loc ts n place_of expct f m q q' ex pts sit H hm z nr nc F M O I NG Si In_ Sh Hn SS An Fi Ho TO Sg Bd Su Co.
  destruct (roms_sits dateutil cftime now s y g rho sf F M p O loc a b false expct An) as (Ep & St). rewrite Ep in *.
  destruct (roms_asked dateutil cftime now s y g rho sf F p O k w I NG a b loc Si ts [n] In_ Sh find n eq_refl Hn) as (tm & Td & E). rewrite E.
  rewrite (c99_levels_partial (st_grid (stag_of s y)) find place_of (terr_of s g rho sf tm) loc a b expct (sf_data s k) (Some tm) n f m q q' ex BExtrapolate DepthModel.BMask pts sit SS St Fi).
  - f_equal. apply map_ext_in. intros x Ix. destruct (sit x) eqn:Es; try reflexivity. destruct (Co x Ix) as (prof & _ & _ & Se). rewrite Es in Se. inversion Se. discriminate.
  - cbn [option_map]. rewrite Td. exact Ho.
  - cbn [option_map]. rewrite Td. exact TO.
  - exact (columns s y g rho sf F place_of ts tm q q' ex n pts sit H hm z Td Sg Bd Su TO Co).
Qed.
Print Assumptions c106_levels_partial.
(** At any of the points, one point at a time. *)
Theorem c106_one_point_partial :
  forall dateutil cftime now find s y g rho sf p k w a b loc ts n place_of col expct f m q q' ex x at_ H hm z,
  let nr := a_r (sf_nums s (p_x (y_nodes y))) in let nc := a_c (sf_nums s (p_x (y_nodes y))) in
  RomsFile (sf_file s) y nr nc g rho sf -> MaskSized s y -> open_roms_dataset dateutil cftime now s = Ok p -> In (k, w) (fi_vars (sf_file s)) -> ~ In k (grid_words y) ->
  SitsAt nr nc y w a b loc -> InstantsIn cftime (sf_file s) w ts -> fm_shape w = [length ts; n; a; b] -> (forall nt, sf = Some nt -> nt = length ts) ->
  SameShape (st_grid (fst p)) -> Answers (st_grid (fst p)) (center_size s y) loc a b col expct -> Finds (st_grid (fst p)) find place_of [fst x] ->
  Holds (sf_data s k) (Some ts) (Some n) a b f (fun _ => m) -> TimeOk (Some ts) ex q q' ->
  SigmaSized g n -> BedIn s rho nr nc H hm -> SurfaceOver s rho ts nr nc q' place_of sf z ->
  Column g (fun x => node_expected (snap nr nc H hm) (fst x, place_of (fst x))) z x at_ ->
  ask_roms dateutil cftime now find s k q ex [x] =
  Ok [match at_ with Between j w => expct (snap a b (blended (f q') j w) m) (fst x, place_of (fst x)) | _ => RMask end].
Proof.
  intros dateutil cftime now find s y g rho sf p k w a b loc ts n place_of col expct f m q q' ex x at_ H hm z nr nc F M O I NG Si In_ Sh Hn SS An Fi Ho TO Sg Bd Su Co.
  destruct (roms_sits dateutil cftime now s y g rho sf F M p O loc a b col expct An) as (Ep & St). rewrite Ep in *.
  destruct (roms_asked dateutil cftime now s y g rho sf F p O k w I NG a b loc Si ts [n] In_ Sh find n eq_refl Hn) as (tm & Td & E). rewrite E.
  refine (eq_trans (c99_one_point_partial (st_grid (stag_of s y)) find place_of (terr_of s g rho sf tm) loc a b col expct (sf_data s k) (Some tm) n f m q q' ex BExtrapolate DepthModel.BMask x (fun _ => at_) SS St Fi _ _ _) _).
  - cbn [option_map]. rewrite Td. exact Ho.
  - cbn [option_map]. rewrite Td. exact TO.
  - refine (columns s y g rho sf F place_of ts tm q q' ex n [x] (fun _ => at_) H hm z Td Sg Bd Su TO _). intros x' [<-|[]]. exact Co.
  - f_equal. f_equal. destruct at_ eqn:Es; try reflexivity. destruct Co as (prof & _ & _ & Se). inversion Se. discriminate.
Qed.
Print Assumptions c106_one_point_partial.
(** Data over time only, as the free surface itself. *)
Theorem c106_times_partial :
  forall dateutil cftime now find s y g rho sf p k w a b loc ts place_of col expct f m q q' ex pts,
  let nr := a_r (sf_nums s (p_x (y_nodes y))) in let nc := a_c (sf_nums s (p_x (y_nodes y))) in
  RomsFile (sf_file s) y nr nc g rho sf -> MaskSized s y -> open_roms_dataset dateutil cftime now s = Ok p -> In (k, w) (fi_vars (sf_file s)) -> ~ In k (grid_words y) ->
  SitsAt nr nc y w a b loc -> InstantsIn cftime (sf_file s) w ts -> fm_shape w = [length ts; a; b] ->
  SameShape (st_grid (fst p)) -> Answers (st_grid (fst p)) (center_size s y) loc a b col expct -> Finds (st_grid (fst p)) find place_of (map fst pts) ->
  Holds (sf_data s k) (Some ts) None a b (fun t _ => f t) (fun _ => m) -> TimeOk (Some ts) ex q q' ->
  ask_roms dateutil cftime now find s k q ex pts = Ok (map (fun x => expct (snap a b (f q') m) (fst x, place_of (fst x))) pts).
Proof.
  intros dateutil cftime now find s y g rho sf p k w a b loc ts place_of col expct f m q q' ex pts nr nc F M O I NG Si In_ Sh SS An Fi Ho TO.
  destruct (roms_sits dateutil cftime now s y g rho sf F M p O loc a b col expct An) as (Ep & St). rewrite Ep in *.
  destruct (roms_flat_asked dateutil cftime now s y g rho sf F p O k w I NG a b loc Si ts [] In_ Sh find eq_refl) as (tm & Td & E). rewrite E. subst ts.
  exact (c98_times_partial (st_grid (stag_of s y)) find place_of loc a b col expct (sf_data s k) (Some tm) f m q q' ex pts None SS St Fi Ho TO).
Qed.
Print Assumptions c106_times_partial.
(** Data without time, as the bathymetry. *)
Theorem c106_fixed :
  forall dateutil cftime now find s y g rho sf p k w a b loc place_of col expct f m q ex pts,
  let nr := a_r (sf_nums s (p_x (y_nodes y))) in let nc := a_c (sf_nums s (p_x (y_nodes y))) in
  RomsFile (sf_file s) y nr nc g rho sf -> MaskSized s y -> open_roms_dataset dateutil cftime now s = Ok p -> In (k, w) (fi_vars (sf_file s)) -> ~ In k (grid_words y) ->
  SitsAt nr nc y w a b loc -> Timeless (sf_file s) w -> fm_shape w = [a; b] ->
  SameShape (st_grid (fst p)) -> Answers (st_grid (fst p)) (center_size s y) loc a b col expct -> Finds (st_grid (fst p)) find place_of (map fst pts) ->
  Holds (sf_data s k) None None a b (fun _ _ => f) (fun _ => m) ->
  ask_roms dateutil cftime now find s k q ex pts = Ok (map (fun x => expct (snap a b f m) (fst x, place_of (fst x))) pts).
Proof.
  intros dateutil cftime now find s y g rho sf p k w a b loc place_of col expct f m q ex pts nr nc F M O I NG Si Tl Sh SS An Fi Ho.
  destruct (roms_sits dateutil cftime now s y g rho sf F M p O loc a b col expct An) as (Ep & St). rewrite Ep in *.
  rewrite (roms_fixed dateutil cftime now s y g rho sf F p O k w I NG a b loc Si find q ex pts Tl Sh).
  refine (c98_times_partial (st_grid (stag_of s y)) find place_of loc a b col expct (sf_data s k) None (fun _ => f) m q q ex pts None SS St Fi Ho _).
  intros l E. discriminate E.
Qed.
Print Assumptions c106_fixed.

(** ** A file of ROMS: the grid of C105, the water 98 to 106 deep at the nodes under
    a surface that rises by 1 in an hour, three levels. *)
Definition c106_sig (d label : string) (l : list Q) : mvar := mkMvar [d] [length l] [("long_name", label)] None None None [] l [] (fun _ => []).
Definition c106_hc : mvar := mkMvar [] [] [("long_name", "S-coordinate parameter, critical depth")] None None None [] [20%Q] [] (fun _ => []).
Definition c106_vt : mvar := mkMvar [] [] [("long_name", "vertical terrain-following transformation equation")] None None None [1%Z] [] [] (fun _ => []).
Definition c106_h (dims : list string) (sh : list nat) : mvar := c102_var dims sh [("long_name", "bathymetry at RHO-points")] (fun _ => []).
Definition c106_zeta : mvar := c102_var ["time"; "eta_rho"; "xi_rho"] [2; 4; 4] [("long_name", "free-surface")] (fun _ => []).
Definition c106_temp (nt : nat) : mvar := c102_var ["time"; "s_rho"; "eta_rho"; "xi_rho"] [nt; 2; 4; 4] [] (fun _ => []).
Definition c106_q : mvar := c102_var ["time"; "s_w"; "eta_psi"; "xi_psi"] [2; 3; 3; 3] [] (fun _ => []).
Definition c106_levels_vars : dict mvar :=
  [("s_w", c106_sig "s_w" "S-coordinate at W-points" [-1; -1#2; 0]%Q); ("s_rho", c106_sig "s_rho" "S-coordinate at RHO-points" [-3#4; -1#4]%Q);
   ("Cs_w", c106_sig "s_w" "S-coordinate stretching curves at W-points" [-1; -1#4; 0]%Q); ("Cs_r", c106_sig "s_rho" "S-coordinate stretching curves at RHO-points" [-5#8; -1#8]%Q);
   ("hc", c106_hc); ("Vtransform", c106_vt)].
Definition c106_file (grid data : dict mvar) : file := mkFile None ["time"] (grid ++ [("time", c102_time)] ++ c106_levels_vars ++ data).
Definition c106_sigma : sigma := mkSigma [-1; -1#2; 0]%Q [-3#4; -1#4]%Q [-1; -1#4; 0]%Q [-5#8; -1#8]%Q 20%Q.
Definition c106_roms : file := c106_file c105_grid_vars [("h", c106_h ["eta_rho"; "xi_rho"] [4; 4]); ("zeta", c106_zeta); ("temp", c106_temp 2); ("q", c106_q)].
Definition c106_data (n : string) : nvar :=
  if String.eqb n "h" then mkNvar [] (fun _ => mkArr 4 4 (fun i _ => mkRd (96 + 4 * INR i)%R false))
  else if String.eqb n "zeta" then mkNvar [2] (fun ix => mkArr 4 4 (fun _ _ => mkRd (IZR (nth (nth 0%nat ix 0%nat) c102_times 0%Z) / IZR hour)%R false))
  else if String.eqb n "temp" then mkNvar [2; 2] (fun ix => mkArr 4 4 (fun i _ => mkRd (7 * INR (nth 1%nat ix 0%nat) + INR i + 1)%R false))
  else mkNvar [2; 3] (fun ix => mkArr 3 3 (fun i _ => mkRd (INR (nth 1%nat ix 0%nat))%R false)).
Definition c106_s : sfile := mkSfile c106_roms (c105_nums c105_sizes) (fun _ => (MPlain, mkArr 4 4 (fun _ _ => mkM 1 false))) c106_data.

(** The same with the temperature at three times; and one with data, bathymetry too, inside the
    nodes. *)
Definition c106_time3 : mvar := mkMvar ["time3"] [3] [("units", "hours since 2024-01-01T00:00:00")] None None None [1; 2; 3]%Z [] [] (fun _ => []).
Definition c106_times3 : list Z := [hour; 2 * hour; 3 * hour]%Z.
Definition c106_temp3 : mvar := c102_var ["time3"; "s_rho"; "eta_rho"; "xi_rho"] [3; 2; 4; 4] [] (fun _ => []).
Definition c106_often : file := c106_file c105_grid_vars [("h", c106_h ["eta_rho"; "xi_rho"] [4; 4]); ("zeta", c106_zeta); ("time3", c106_time3); ("temp", c106_temp3)].
Definition c106_often_s : sfile := mkSfile c106_often (c105_nums c105_sizes) (fun _ => (MPlain, mkArr 4 4 (fun _ _ => mkM 1 false))) c106_data.
Definition c106_cells : dict mvar := [("lon_psi", c105_xy "psi" 3 3); ("lat_psi", c105_xy "psi" 3 3); ("lonc", c105_xy "c" 2 2); ("latc", c105_xy "c" 2 2)].
Definition c106_cell_temp : mvar := c102_var ["time"; "s_rho"; "eta_c"; "xi_c"] [2; 2; 2; 2] [] (fun _ => []).
Definition c106_inner : file := c106_file c106_cells [("h", c106_h ["eta_c"; "xi_c"] [2; 2]); ("temp", c106_cell_temp)].
Definition c106_inner_s : sfile := mkSfile c106_inner (c105_nums c105_inner_sizes) (fun _ => (MPlain, mkArr 0 0 (fun _ _ => mkM 1 false))) c106_data.
Definition c106_inner_layout : layout := mkLayout c105_psi (Some (mkPair "lonc" "latc" "lonc" "latc")) None None None None None.

Lemma c106_instants f w : In ("time", c102_time) (fi_vars f) -> (exists r, fm_dims w = "time" :: r) -> dget (fm_attrs w) "time" = None -> InstantsIn demo_cftime f w c102_times.
Proof.
  intros If (r & Hr) Ha. destruct (c102_instants w (ex_intro _ r Hr) Ha) as (n & aw & Ax & I & Y). exists "time", c102_time.
  split; [|split; [exact If|]].
  - right. split; [intros m [A _]; cbn [to_load lv_attrs] in A; congruence|]. split; [exists r; exact Hr|]. exists "", "". reflexivity.
  - split; [|split].
    + exists "hours since 2024-01-01T00:00:00", hour, 0%Z, 0%Z. split; [reflexivity|]. split; [reflexivity|]. repeat constructor.
    + exists "hours since 2024-01-01T00:00:00". split; [reflexivity|]. exists "hours ", " 2024-01-01T00:00:00". reflexivity.
    + apply Y.
Qed.
Ltac each_var I := cbn [c106_roms c106_often c106_inner c106_cells c106_file c105_grid_vars c106_levels_vars fi_vars app In] in I; repeat (destruct I as [I|I]; [injection I as <- <-|]); [..|destruct I].
Ltac no_label := intros n v a l I [<-|[<-|[]]] A Il; cbn [c106_roms c106_often c106_inner c106_cells c106_file c105_grid_vars c106_levels_vars fi_vars app In] in I, Il;
  repeat (destruct I as [I|I]; [injection I as <- <-; first [reflexivity|discriminate A|injection A as <-; exfalso; repeat (destruct Il as [Il|Il]; [discriminate Il|]); destruct Il]|]); destruct I.
Tactic Notation "in_file" integer(n) := do n right; left; reflexivity.
Lemma c106_stag : StagFile c106_roms c105_layout.
Proof.
  split; [unfold UniqueNames; cbn [c106_roms c106_often c106_inner c106_cells c106_file c105_grid_vars c106_levels_vars fi_vars app map fst]; distinct|]. split; [intros g H; discriminate H|]. split; [|split; [|split; [|split; [|split]]]].
  - intros n v r I. each_var I; intros A; discriminate A.
  - intros n Hn P. apply present_named in P. cbn [In] in Hn. destruct Hn as [<-|[<-|[<-|[<-|[<-|[]]]]]]; apply P; reflexivity.
  - eapply (one_pair _ [("node_lon", "node_lat"); ("lon", "lat")]); reflexivity.
  - intros x I. cbn [c106_roms c106_often c106_inner c106_cells c106_file c105_grid_vars c106_levels_vars fi_vars app In] in I. repeat (destruct I as [I|I]; [first [discriminate I|injection I as <-; reflexivity]|]). destruct I.
  - intros x I. cbn [c106_roms c106_often c106_inner c106_cells c106_file c105_grid_vars c106_levels_vars fi_vars app In] in I. repeat (destruct I as [I|I]; [first [discriminate I|injection I as <-; reflexivity]|]). destruct I.
  - split; [eapply (one_pair _ [("center_lon", "center_lat")]); reflexivity|]. split; [eapply (one_pair _ [("edge1_lon", "edge1_lat")]); reflexivity|].
    split; [apply no_pair; reflexivity|]. split; [apply called_named; reflexivity|]. split; intros P; apply present_named in P; apply P; reflexivity.
Qed.
Lemma c106_sigma_in : SigmaIn c106_roms c106_sigma.
Proof.
  split; [|split; [|split; [|split]]]; eexists.
  - split; [split; [in_file 8|no_label]|reflexivity].
  - split; [split; [in_file 9|no_label]|reflexivity].
  - split; [split; [in_file 10|no_label]|reflexivity].
  - split; [split; [in_file 11|no_label]|reflexivity].
  - split; [split; [in_file 12|no_label]|reflexivity].
Qed.
Lemma c106_only : OnlySigma c106_roms.
Proof.
  intros n v I. each_var I; (split; [intros H; repeat (destruct H as [H|H]; [discriminate H|]); exact H|]); intros a l [<-|[<-|[]]] A; try discriminate A; injection A as <-; cbn [In]; intros H; repeat (destruct H as [H|H]; [discriminate H|]); exact H.
Qed.
Lemma c106_often_stag : StagFile c106_often c105_layout.
Proof.
  split; [unfold UniqueNames; cbn [c106_roms c106_often c106_inner c106_cells c106_file c105_grid_vars c106_levels_vars fi_vars app map fst]; distinct|]. split; [intros g H; discriminate H|]. split; [|split; [|split; [|split; [|split]]]].
  - intros n v r I. each_var I; intros A; discriminate A.
  - intros n Hn P. apply present_named in P. cbn [In] in Hn. destruct Hn as [<-|[<-|[<-|[<-|[<-|[]]]]]]; apply P; reflexivity.
  - eapply (one_pair _ [("node_lon", "node_lat"); ("lon", "lat")]); reflexivity.
  - intros x I. cbn [c106_roms c106_often c106_inner c106_cells c106_file c105_grid_vars c106_levels_vars fi_vars app In] in I. repeat (destruct I as [I|I]; [first [discriminate I|injection I as <-; reflexivity]|]). destruct I.
  - intros x I. cbn [c106_roms c106_often c106_inner c106_cells c106_file c105_grid_vars c106_levels_vars fi_vars app In] in I. repeat (destruct I as [I|I]; [first [discriminate I|injection I as <-; reflexivity]|]). destruct I.
  - split; [eapply (one_pair _ [("center_lon", "center_lat")]); reflexivity|]. split; [eapply (one_pair _ [("edge1_lon", "edge1_lat")]); reflexivity|].
    split; [apply no_pair; reflexivity|]. split; [apply called_named; reflexivity|]. split; intros P; apply present_named in P; apply P; reflexivity.
Qed.
Lemma c106_often_ok : RomsFile c106_often c105_layout 3 3 c106_sigma true (Some 2).
Proof.
  split; [exact c106_often_stag|]. split; [split; [|split; [|split; [|split]]]; eexists|split; [|split; [discriminate|split; eexists]]].
  - split; [split; [in_file 8|no_label]|reflexivity].
  - split; [split; [in_file 9|no_label]|reflexivity].
  - split; [split; [in_file 10|no_label]|reflexivity].
  - split; [split; [in_file 11|no_label]|reflexivity].
  - split; [split; [in_file 12|no_label]|reflexivity].
  - intros n v I. each_var I; (split; [intros H; repeat (destruct H as [H|H]; [discriminate H|]); exact H|]); intros a l [<-|[<-|[]]] A; try discriminate A; injection A as <-; cbn [In]; intros H; repeat (destruct H as [H|H]; [discriminate H|]); exact H.
  - split; [split; [in_file 14|no_label]|reflexivity].
  - split; [split; [in_file 15|no_label]|reflexivity].
Qed.
Lemma c106_inner_ok : StagFile c106_inner c106_inner_layout /\ SigmaIn c106_inner c106_sigma /\ OnlySigma c106_inner.
Proof.
  split; [|split; [split; [|split; [|split; [|split]]]; eexists|]].
  - split; [unfold UniqueNames; cbn [c106_roms c106_often c106_inner c106_cells c106_file c105_grid_vars c106_levels_vars fi_vars app map fst]; distinct|]. split; [intros g H; discriminate H|]. split; [|split; [|split; [|split; [|split]]]].
    + intros n v r I. each_var I; intros A; discriminate A.
    + intros n Hn P. apply present_named in P. cbn [In] in Hn. destruct Hn as [<-|[<-|[<-|[<-|[<-|[]]]]]]; apply P; reflexivity.
    + eapply (one_pair _ [("node_lon", "node_lat"); ("lon", "lat")]); reflexivity.
    + intros x I. cbn [c106_roms c106_often c106_inner c106_cells c106_file c105_grid_vars c106_levels_vars fi_vars app In] in I. repeat (destruct I as [I|I]; [first [discriminate I|injection I as <-; reflexivity]|]). destruct I.
    + intros x I. cbn [c106_roms c106_often c106_inner c106_cells c106_file c105_grid_vars c106_levels_vars fi_vars app In] in I. repeat (destruct I as [I|I]; [first [discriminate I|injection I as <-; reflexivity]|]). destruct I.
    + split; [eapply (one_pair _ [("center_lon", "center_lat"); ("lon_rho", "lat_rho")]); reflexivity|]. split; [apply no_pair; reflexivity|]. split; [apply no_pair; reflexivity|].
      split; [|split]; intros P; apply present_named in P; apply P; reflexivity.
  - split; [split; [in_file 5|no_label]|reflexivity].
  - split; [split; [in_file 6|no_label]|reflexivity].
  - split; [split; [in_file 7|no_label]|reflexivity].
  - split; [split; [in_file 8|no_label]|reflexivity].
  - split; [split; [in_file 9|no_label]|reflexivity].
  - intros n v I. each_var I; (split; [intros H; repeat (destruct H as [H|H]; [discriminate H|]); exact H|]); intros a l [<-|[<-|[]]] A; try discriminate A; injection A as <-; cbn [In]; intros H; repeat (destruct H as [H|H]; [discriminate H|]); exact H.
Qed.
Lemma c106_file_ok : RomsFile c106_roms c105_layout 3 3 c106_sigma true (Some 2).
Proof.
  split; [exact c106_stag|]. split; [exact c106_sigma_in|]. split; [exact c106_only|]. split; [discriminate|]. split; eexists.
  - split; [split; [in_file 14|no_label]|reflexivity].
  - split; [split; [in_file 15|no_label]|reflexivity].
Qed.
Lemma c106_not_grid k : named c106_roms k = [k] -> In k ["h"; "zeta"; "temp"; "q"] -> ~ In k (grid_words c105_layout).
Proof. intros _ [<-|[<-|[<-|[<-|[]]]]] H; cbn in H; repeat (destruct H as [H|H]; [discriminate H|]); exact H. Qed.
Lemma c106_temp_sits nt : SitsAt 3 3 c105_layout (c106_temp nt) 4 4 "center".
Proof. right. split; [apply no_location; reflexivity|]. apply OnRho; [discriminate|reflexivity|reflexivity]. Qed.
Lemma c106_q_sits : SitsAt 3 3 c105_layout c106_q 3 3 "node".
Proof. right. split; [apply no_location; reflexivity|]. apply OnNode; reflexivity. Qed.
Lemma c106_zeta_sits : SitsAt 3 3 c105_layout c106_zeta 4 4 "center".
Proof. right. split; [apply no_location; reflexivity|]. apply OnRho; [discriminate|reflexivity|reflexivity]. Qed.
Lemma c106_time_in : In ("time", c102_time) (fi_vars c106_roms).
Proof. in_file 7. Qed.
Lemma c106_sound : RomsSound demo_cftime c106_roms c105_layout 3 3 (Some 2).
Proof.
  intros k w I. cbn [c106_roms c106_often c106_inner c106_cells c106_file c105_grid_vars c106_levels_vars fi_vars app In] in I.
  do 7 (destruct I as [I|I]; [injection I as <- <-; left; cbn [grid_words c105_layout y_nodes y_center y_edge1 y_edge2 y_cmask y_mask1 y_mask2 names_of p_lon p_lat c105_psi app In]; tauto|]).
  do 7 (destruct I as [I|I]; [injection I as <- <-; right; left; split; [apply no_location; reflexivity|left; cbn; lia]|]).
  destruct I as [I|[I|[I|[I|[]]]]]; injection I as <- <-; right; right.
  - exists 4, 4, "center". split; [right; split; [apply no_location; reflexivity|apply OnRho; [discriminate|reflexivity|reflexivity]]|]. left. split; [eapply c105_timeless; reflexivity|reflexivity].
  - exists 4, 4, "center". split; [exact c106_zeta_sits|]. right. exists c102_times, []. split; [apply c106_instants; [exact c106_time_in|eexists; reflexivity|reflexivity]|]. split; [reflexivity|left; reflexivity].
  - exists 4, 4, "center". split; [exact (c106_temp_sits 2)|]. right. exists c102_times, [2]. split; [apply c106_instants; [exact c106_time_in|eexists; reflexivity|reflexivity]|]. split; [reflexivity|right]. exists 2. split; [reflexivity|]. intros nt E. injection E as <-. reflexivity.
  - exists 3, 3, "node". split; [exact c106_q_sits|]. right. exists c102_times, [3]. split; [apply c106_instants; [exact c106_time_in|eexists; reflexivity|reflexivity]|]. split; [reflexivity|right]. exists 3. split; [reflexivity|]. intros nt E. injection E as <-. reflexivity.
Qed.
Lemma c106_mask_sized : MaskSized c106_s c105_layout.
Proof. intros c m Hc Hm. injection Hc as <-. injection Hm as <-. split; reflexivity. Qed.

(** The water: its depth under the mean surface, and the surface. *)
Lemma c106_bed : BedIn c106_s true 3 3 (fun i _ => 98 + 4 * INR i)%R (fun _ _ => false).
Proof.
  exists (fun i _ => 96 + 4 * INR i)%R, (fun _ _ => false). split.
  - split; [reflexivity|]. split; [reflexivity|]. intros i j. split; reflexivity.
  - intros i j. split; [|reflexivity]. unfold mean4. rewrite S_INR. field.
Qed.
Lemma c106_surface q : SurfaceOver c106_s true c102_times 3 3 q c98_place (Some 2) (fun x => node_expected (snap 3 3 (fun _ _ => IZR q / IZR hour)%R (fun _ _ => false)) (fst x, c98_place (fst x))).
Proof.
  refine (MovingOver c106_s true c102_times 3 3 q c98_place (fun t _ _ => IZR t / IZR hour)%R (fun _ _ => false) 2 _).
  exists (fun t _ _ => IZR t / IZR hour)%R, (fun _ _ => false). split; [|split; [|reflexivity]].
  - split; [reflexivity|]. split.
    + intros ix u j (i & -> & Hi). split; [reflexivity|]. split; [reflexivity|]. intros r c. split; [reflexivity|]. intros _. cbn [c106_s sf_data c106_data String.eqb nv_at a_at d_val nth].
      destruct i as [|[|i]]; [injection Hi as <-; reflexivity|injection Hi as <-; reflexivity|destruct i; discriminate].
    + intros l r c k E _. injection E as <-. intros i t0 t1 u _ _ _. unfold Rdiv. ring.
  - intros t i j. unfold mean4. field. unfold hour. Lra.lra.
Qed.
Definition c106_time : Z := (hour + 1800000000)%Z.
Definition c106_pts : list rspot := [((9/10, 1/5)%R, 30%Q); ((100, 100)%R, 30%Q); ((11/4, 1)%R, 30%Q)].
Definition c106_bed_at (x : rspot) : rcell := node_expected (snap 3 3 (fun i _ => 98 + 4 * INR i)%R (fun _ _ => false)) (fst x, c98_place (fst x)).
Definition c106_surface_at (x : rspot) : rcell := node_expected (snap 3 3 (fun _ _ => IZR c106_time / IZR hour)%R (fun _ _ => false)) (fst x, c98_place (fst x)).
Lemma c106_at1 (d : Q) : c98_place (fst ((9/10, 1/5)%R, d) : R * R) = Some (0, 0, (18/39, 1/5)%R).
Proof. unfold c98_place. cbn [fst]. destruct (Req_EM_T (9/10) (9/10)) as [_|NN]; [reflexivity|exfalso; apply NN; reflexivity]. Qed.
Lemma c106_at2 (d : Q) : c98_place (fst ((100, 100)%R, d) : R * R) = None.
Proof. unfold c98_place. cbn [fst]. destruct (Req_EM_T 100 (9/10)) as [?|?]; [exfalso; Lra.lra|]. destruct (Req_EM_T 100 (11/4)) as [?|?]; [exfalso; Lra.lra|]. reflexivity. Qed.
Lemma c106_at3 (d : Q) : c98_place (fst ((11/4, 1)%R, d) : R * R) = Some (1, 1, (1/2, 0)%R).
Proof. unfold c98_place. cbn [fst]. destruct (Req_EM_T (11/4) (9/10)) as [?|?]; [exfalso; Lra.lra|]. destruct (Req_EM_T (11/4) (11/4)) as [_|NN]; [reflexivity|exfalso; apply NN; reflexivity]. Qed.
(** The second point is outside.  At the first the water is 100.3 deep, the middle
    level at 29.3; at the third 103.5, at 30.1. *)
Definition c106_sit (x : rspot) : seat :=
  match c98_place (fst x) with
  | Some (0, _, _) => Between 0 ((30 - 1003/10) / (1003/10 * (347/10) / (594/5) - 1003/10))%R
  | Some _ => Between 1 ((30 - 207/2 * (71/2) / 122) / (0 - 207/2 * (71/2) / 122))%R
  | None => Out
  end.
Lemma c106_numbers : Q2R 20 = 20%R /\ Q2R 30 = 30%R /\ Q2R (-1) = (-1)%R /\ Q2R (-1#2) = (-1/2)%R /\ Q2R (-1#4) = (-1/4)%R /\ Q2R 0 = 0%R /\ (IZR c106_time / IZR hour = 3/2)%R.
Proof. repeat split; try (unfold Q2R; cbn; field). unfold c106_time, hour. cbn. Lra.lra. Qed.
Lemma c106_desc vt h : (vt = 2 \/ vt = 1)%Z -> (20 <= h)%R -> RDesc (level_depths vt (Q2R 20) (combine (map Q2R (si_w c106_sigma)) (map Q2R (si_Cw c106_sigma))) h (3/2)).
Proof.
  intros V Hh. destruct c106_numbers as (E & _). apply (c99_columns vt 20 [-1; -1#2; 0]%Q [-1; -1#4; 0]%Q); auto; try Lra.lra; try (apply c99_stretches; reflexivity); [cbn; lia|discriminate|]. rewrite E. destruct V; auto.
Qed.
Lemma c106_surface_is x i j lm : c98_place (fst x) = Some (i, j, lm) -> c106_surface_at x = RVal (3/2).
Proof.
  intros E. destruct c106_numbers as (_ & _ & _ & _ & _ & _ & Et). unfold c106_surface_at, node_expected. cbn [snd]. rewrite E. destruct lm as [l m]. cbn [snap a_at d_mask andb]. unfold or0. cbn [d_mask d_val]. f_equal. rewrite Et. unfold bilin. field.
Qed.
Lemma c106_columns x : In x c106_pts -> Column c106_sigma c106_bed_at c106_surface_at x (c106_sit x).
Proof.
  intros Hx. destruct c106_numbers as (E20 & E30 & E1 & Eh & Eq & E0 & Et). destruct Hx as [<-|[<-|[<-|[]]]]; unfold c106_sit.
  - rewrite c106_at1. exists (Some (level_depths 2 (Q2R 20) (combine (map Q2R (si_w c106_sigma)) (map Q2R (si_Cw c106_sigma))) (494/5)%R (3/2)%R)). split; [|split].
    + apply (Wet _ _ _ _ _ (494/5)%R (3/2)%R).
      * unfold c106_bed_at, node_expected. cbn [snd]. rewrite c106_at1. cbn [snap a_at d_mask andb]. unfold or0. cbn [d_mask d_val]. f_equal. unfold bilin. cbn [INR]. field.
      * apply (c106_surface_is _ 0 0 (18/39, 1/5)%R). apply c106_at1.
      * unfold divisor. cbn [Z.eqb Pos.eqb c106_sigma si_hc]. rewrite E20. Lra.lra.
    + intros l E. injection E as <-. apply c106_desc; [left; reflexivity|Lra.lra].
    + apply (InWater _ _ _ _ 0 (1003/10)%R (1003/10 * (347/10) / (594/5))%R).
      * cbn [c106_sigma si_w si_Cw map combine level_depths nth_error fst snd]. f_equal. unfold level_height. cbn [Z.eqb Pos.eqb]. rewrite E20, E1. field.
      * cbn [c106_sigma si_w si_Cw map combine level_depths nth_error fst snd]. f_equal. unfold level_height. cbn [Z.eqb Pos.eqb]. rewrite E20, Eh, Eq. field.
      * cbn [snd]. rewrite E30. Lra.lra.
      * cbn [snd]. rewrite E30. field.
  - rewrite c106_at2. exists None. split; [|split; [discriminate|apply NoWater]]. apply Dry. left. unfold c106_bed_at, node_expected. cbn [snd]. rewrite c106_at2. reflexivity.
  - rewrite c106_at3. exists (Some (level_depths 2 (Q2R 20) (combine (map Q2R (si_w c106_sigma)) (map Q2R (si_Cw c106_sigma))) 102%R (3/2)%R)). split; [|split].
    + apply (Wet _ _ _ _ _ 102%R (3/2)%R).
      * unfold c106_bed_at, node_expected. cbn [snd]. rewrite c106_at3. cbn [snap a_at d_mask andb]. unfold or0. cbn [d_mask d_val]. f_equal. unfold bilin. cbn [INR]. field.
      * apply (c106_surface_is _ 1 1 (1/2, 0)%R). apply c106_at3.
      * unfold divisor. cbn [Z.eqb Pos.eqb c106_sigma si_hc]. rewrite E20. Lra.lra.
    + intros l E. injection E as <-. apply c106_desc; [left; reflexivity|Lra.lra].
    + apply (InWater _ _ _ _ 1 (207/2 * (71/2) / 122)%R 0%R).
      * cbn [c106_sigma si_w si_Cw map combine level_depths nth_error fst snd]. f_equal. unfold level_height. cbn [Z.eqb Pos.eqb]. rewrite E20, Eh, Eq. field.
      * cbn [c106_sigma si_w si_Cw map combine level_depths nth_error fst snd]. f_equal. unfold level_height. cbn [Z.eqb Pos.eqb]. rewrite E20, E0. field.
      * cbn [snd]. rewrite E30. Lra.lra.
      * cbn [snd]. rewrite E30. field.
Qed.
Lemma c106_sized : SigmaSized c106_sigma 3.
Proof. repeat (split; [first [reflexivity|cbn; lia]|]). apply (c99_stretches (-1#2)); reflexivity. Qed.
Lemma c106_found : Finds (st_grid (stag_of c106_s c105_layout)) c98_find c98_place (map fst c106_pts).
Proof. exact c98_found. Qed.
Lemma c106_temp_holds : Holds (sf_data c106_s "temp") (Some c102_times) (Some 2) 4 4 (fun _ k i _ => 7 * INR k + INR i + 1)%R (fun _ _ _ => false).
Proof.
  split; [reflexivity|]. split.
  - intros ix u j (i & -> & Hi & Hj). split; [reflexivity|]. split; [reflexivity|]. intros r c. split; reflexivity.
  - intros l r c k E _. injection E as <-. intros i t0 t1 u _ _ _. Lra.lra.
Qed.
Definition c106_ask := ask_roms demo_dateutil demo_cftime c105_now c98_find c106_s.
Lemma c106_rho (p : stag * dict variable) : fst p = stag_of c106_s c105_layout -> SameShape (st_grid (fst p)) /\
  Answers (st_grid (fst p)) (center_size c106_s c105_layout) "center" 4 4 true (fun var => center_expected var (PadBoth, PadBoth)).
Proof. intros ->. split; [split; reflexivity|]. exact (AtRho (st_grid (stag_of c106_s c105_layout)) (center_size c106_s c105_layout) eq_refl). Qed.
Lemma c106_opened : exists p, open_roms_dataset demo_dateutil demo_cftime c105_now c106_s = Ok p /\ fst p = stag_of c106_s c105_layout.
Proof.
  destruct (c106_opens demo_dateutil demo_cftime c105_now c106_s c105_layout c106_sigma true (Some 2) c106_file_ok c106_sound) as (t & vs & O & _).
  exists (t, vs). split; [exact O|]. apply (roms_open_inv demo_dateutil demo_cftime c105_now c106_s c105_layout (t, vs) c106_stag O).
Qed.
(** Temperature, one value per layer: the lower layer at the first point, the upper
    at the third, with the same depth. *)
Example c106_layers_example : c106_ask "temp" c106_time false c106_pts = Ok [RVal 2%R; RMask; RVal 10%R].
Proof.
  destruct c106_opened as (p & O & Ep). destruct (c106_rho p Ep) as [SS An]. unfold c106_ask.
  rewrite (c106_layers_partial demo_dateutil demo_cftime c105_now c98_find c106_s c105_layout c106_sigma true (Some 2) p "temp" (c106_temp 2) 4 4 "center" c102_times 3 c98_place true (fun var => center_expected var (PadBoth, PadBoth))
    (fun _ k i _ => 7 * INR k + INR i + 1)%R (fun _ _ _ => false) c106_time c106_time false c106_pts c106_sit (fun i _ => 98 + 4 * INR i)%R (fun _ _ => false) c106_surface_at); auto.
  - cbn [map c106_pts]. unfold c106_sit. rewrite !c106_at1, !c106_at2, !c106_at3. unfold center_expected. cbn [snd fst snap a_at d_mask d_val low_extra Nat.add INR]. repeat (f_equal; try Lra.lra).
  - exact c106_file_ok.
  - exact c106_mask_sized.
  - in_file 16.
  - apply (c106_not_grid "temp"); [reflexivity|cbn; tauto].
  - exact (c106_temp_sits 2).
  - apply c106_instants; [exact c106_time_in|eexists; reflexivity|reflexivity].
  - intros nt E. injection E as <-. reflexivity.
  - rewrite Ep. exact c106_found.
  - exact c106_temp_holds.
  - exact c105_time_ok.
  - exact c106_sized.
  - exact c106_bed.
  - exact (c106_surface c106_time).
  - exact c106_columns.
Qed.
(** A quantity on the levels, the number of the level: how many levels up from the
    bottom. *)
Example c106_levels_example : c106_ask "q" c106_time false c106_pts = Ok [RVal (835164/843523)%R; RMask; RVal (4918/4899)%R].
Proof.
  destruct c106_opened as (p & O & Ep). unfold c106_ask.
  rewrite (c106_levels_partial demo_dateutil demo_cftime c105_now c98_find c106_s c105_layout c106_sigma true (Some 2) p "q" c106_q 3 3 "node" c102_times 3 c98_place node_expected
    (fun _ k _ _ => INR k)%R (fun _ _ => false) c106_time c106_time false c106_pts c106_sit (fun i _ => 98 + 4 * INR i)%R (fun _ _ => false) c106_surface_at); auto.
  - cbn [map c106_pts]. unfold c106_sit. rewrite !c106_at1, !c106_at2, !c106_at3. unfold node_expected. cbn [snd]. cbn [snap a_at d_mask andb]. unfold or0. cbn [d_mask d_val]. unfold bilin, blended. cbn [INR]. repeat (f_equal; try field).
  - exact c106_file_ok.
  - exact c106_mask_sized.
  - in_file 17.
  - apply (c106_not_grid "q"); [reflexivity|cbn; tauto].
  - exact c106_q_sits.
  - apply c106_instants; [exact c106_time_in|eexists; reflexivity|reflexivity].
  - intros nt E. injection E as <-. reflexivity.
  - rewrite Ep. split; reflexivity.
  - rewrite Ep. exact (AtNode (st_grid (stag_of c106_s c105_layout)) _).
  - rewrite Ep. exact c106_found.
  - split; [reflexivity|]. split.
    + intros ix u j (i & -> & Hi & Hj). split; [reflexivity|]. split; [reflexivity|]. intros r c. split; reflexivity.
    + intros l r c k E _. injection E as <-. intros i t0 t1 u _ _ _. Lra.lra.
  - exact c105_time_ok.
  - exact c106_sized.
  - exact c106_bed.
  - exact (c106_surface c106_time).
  - exact c106_columns.
Qed.

(** ** What goes wrong on the way *)
(** The vertical transformation of the file is never read: where a file says 1, its
    levels are computed with 2, and the answer is from another layer. *)
Theorem c106_vtransform_refuted :
  exists s y g nt find place_of f q x vt H z l j w,
  RomsFile (sf_file s) y 3 3 g true (Some nt) /\ In ("Vtransform", vt) (fi_vars (sf_file s)) /\ fm_ints vt = [1%Z] /\
  (exists p, open_roms_dataset demo_dateutil demo_cftime c105_now s = Ok p /\ Finds (st_grid (fst p)) find place_of [fst x] /\ Answers (st_grid (fst p)) (center_size s y) "center" 4 4 true (fun var => center_expected var (PadBoth, PadBoth))) /\
  Holds (sf_data s "temp") (Some c102_times) (Some 2) 4 4 f (fun _ _ _ => false) /\ SigmaSized g 3 /\
  BedIn s true 3 3 H (fun _ _ => false) /\ SurfaceOver s true c102_times 3 3 q place_of (Some nt) z /\
  Water 1 (Q2R (si_hc g)) (combine (map Q2R (si_w g)) (map Q2R (si_Cw g))) (node_expected (snap 3 3 H (fun _ _ => false)) (fst x, place_of (fst x))) (z x) (Some l) /\ RDesc l /\
  Seats BExtrapolate DepthModel.BMask (Q2R (snd x)) (Some l) (Between j w) /\
  exists c, ask_roms demo_dateutil demo_cftime c105_now find s "temp" q false [x] = Ok [c] /\ c <> center_expected (snap 4 4 (f q j) (fun _ _ => false)) (PadBoth, PadBoth) (fst x, place_of (fst x)).
Proof.
  destruct c106_opened as (p & O & Ep). destruct (c106_rho p Ep) as [SS An]. destruct c106_numbers as (E20 & E30 & E1 & Eh & Eq & E0 & Et).
  set (x := ((9/10, 1/5)%R, 30%Q) : rspot). set (m := (297/10 * (1003/10) / (494/5))%R).
  assert (Ix : In x c106_pts) by (left; reflexivity).
  assert (Fi : Finds (st_grid (fst p)) c98_find c98_place [fst x]) by (rewrite Ep; intros u [<-|[]]; apply c98_found; left; reflexivity).
  exists c106_s, c105_layout, c106_sigma, 2, c98_find, c98_place, (fun _ k i _ => 7 * INR k + INR i + 1)%R, c106_time, x, c106_vt, (fun i _ => 98 + 4 * INR i)%R, c106_surface_at,
    (level_depths 1 (Q2R 20) (combine (map Q2R (si_w c106_sigma)) (map Q2R (si_Cw c106_sigma))) (494/5)%R (3/2)%R), 1, ((30 - m) / (0 - m))%R.
  split; [exact c106_file_ok|]. split; [in_file 13|]. split; [reflexivity|]. split; [exists p; auto|]. split; [exact c106_temp_holds|]. split; [exact c106_sized|]. split; [exact c106_bed|].
  split; [exact (c106_surface c106_time)|]. split; [|split; [|split]].
  - apply (Wet _ _ _ _ _ (494/5)%R (3/2)%R).
    + unfold node_expected. cbn [snd]. unfold x. rewrite c106_at1. cbn [snap a_at d_mask andb]. unfold or0. cbn [d_mask d_val]. f_equal. unfold bilin. cbn [INR]. field.
    + apply (c106_surface_is _ 0 0 (18/39, 1/5)%R). apply c106_at1.
    + unfold divisor. cbn [Z.eqb Pos.eqb]. Lra.lra.
  - apply c106_desc; [right; reflexivity|Lra.lra].
  - apply (InWater _ _ _ _ 1 m 0%R).
    + cbn [c106_sigma si_w si_Cw map combine level_depths nth_error fst snd]. f_equal. unfold level_height, m. cbn [Z.eqb Pos.eqb]. rewrite E20, Eh, Eq. field.
    + cbn [c106_sigma si_w si_Cw map combine level_depths nth_error fst snd]. f_equal. unfold level_height. cbn [Z.eqb Pos.eqb]. rewrite E20, E0. field.
    + cbn [snd x]. rewrite E30. unfold m. Lra.lra.
    + cbn [snd x]. rewrite E30. unfold m. field.
  - exists (RVal 2). split.
    + etransitivity; [apply (c106_layers_partial demo_dateutil demo_cftime c105_now c98_find c106_s c105_layout c106_sigma true (Some 2) p "temp" (c106_temp 2) 4 4 "center" c102_times 3 c98_place true (fun var => center_expected var (PadBoth, PadBoth))
        (fun _ k i _ => 7 * INR k + INR i + 1)%R (fun _ _ _ => false) c106_time c106_time false [x] c106_sit (fun i _ => 98 + 4 * INR i)%R (fun _ _ => false) c106_surface_at); auto|].
      * exact c106_file_ok.
      * exact c106_mask_sized.
      * in_file 16.
      * apply (c106_not_grid "temp"); [reflexivity|cbn; tauto].
      * exact (c106_temp_sits 2).
      * apply c106_instants; [exact c106_time_in|eexists; reflexivity|reflexivity].
      * intros nt E. injection E as <-. reflexivity.
      * exact c106_temp_holds.
      * exact c105_time_ok.
      * exact c106_sized.
      * exact c106_bed.
      * exact (c106_surface c106_time).
      * intros u [<-|[]]. exact (c106_columns x Ix).
      * unfold x. cbn [map]. unfold c106_sit. rewrite !c106_at1. unfold center_expected. cbn [snd fst snap a_at d_mask d_val low_extra Nat.add INR]. repeat (f_equal; try Lra.lra).
    + unfold x. unfold center_expected. cbn [snd]. rewrite c106_at1. cbn [fst snap a_at d_mask d_val low_extra Nat.add INR]. intros E. injection E as E. Lra.lra.
Qed.
Print Assumptions c106_vtransform_refuted.
(** Data over the depth with another number of times than the free surface: such a
    file cannot be opened. *)
Theorem c106_other_times_refuted :
  exists s y g w ts, RomsFile (sf_file s) y 3 3 g true (Some 2) /\ In ("temp", w) (fi_vars (sf_file s)) /\ SitsAt 3 3 y w 4 4 "center" /\
  InstantsIn demo_cftime (sf_file s) w ts /\ fm_shape w = [length ts; 2; 4; 4] /\ (exists x, In x ts) /\
  (forall x, In x c102_times -> In x ts) /\ open_roms_dataset demo_dateutil demo_cftime c105_now s = Err ValueError.
Proof.
  exists c106_often_s, c105_layout, c106_sigma, c106_temp3, c106_times3. split; [exact c106_often_ok|]. split; [in_file 17|].
  split; [right; split; [apply no_location; reflexivity|apply OnRho; [discriminate|reflexivity|reflexivity]]|]. split; [|split; [reflexivity|split; [exists hour; left; reflexivity|split]]].
  - exists "time3", c106_time3. split; [|split; [in_file 16|split; [|split]]].
    + right. split; [intros m [A _]; discriminate A|]. split; [eexists; reflexivity|]. exists "", "3". reflexivity.
    + exists "hours since 2024-01-01T00:00:00", hour, 0%Z, 0%Z. split; [reflexivity|]. split; [reflexivity|]. repeat constructor.
    + exists "hours since 2024-01-01T00:00:00". split; [reflexivity|]. exists "hours ", " 2024-01-01T00:00:00". reflexivity.
    + intros i j a b L Ha Hb. destruct i as [|[|[|i]]], j as [|[|[|j]]]; cbn in Ha, Hb; try lia; try discriminate; try (destruct i; discriminate); try (destruct j; discriminate); injection Ha as <-; injection Hb as <-; unfold hour; lia.
  - intros x [<-|[<-|[]]]; cbn; tauto.
  - vm_compute. reflexivity.
Qed.
Print Assumptions c106_other_times_refuted.
(** Bathymetry at the centers of the cells, one for each: it is averaged to the
    nodes inside all the same, and the file cannot be opened. *)
Theorem c106_inner_centers_refuted :
  exists s y g h w, StagFile (sf_file s) y /\ SigmaIn (sf_file s) g /\ OnlySigma (sf_file s) /\
  Labelled (sf_file s) "h" ["bathymetry at RHO-points"; "Final bathymetry at RHO-points"] h /\ SitsAt 3 3 y h 2 2 "center" /\ fm_shape h = [2; 2] /\
  In ("temp", w) (fi_vars (sf_file s)) /\ SitsAt 3 3 y w 2 2 "center" /\ InstantsIn demo_cftime (sf_file s) w c102_times /\ fm_shape w = [2; 2; 2; 2] /\
  open_roms_dataset demo_dateutil demo_cftime c105_now s = Err ValueError.
Proof.
  destruct c106_inner_ok as (St & Sg & On). exists c106_inner_s, c106_inner_layout, c106_sigma, (c106_h ["eta_c"; "xi_c"] [2; 2]), c106_cell_temp.
  split; [exact St|]. split; [exact Sg|]. split; [exact On|]. split; [split; [in_file 11|no_label]|].
  split; [right; split; [apply no_location; reflexivity|apply OnCell; [discriminate|reflexivity|reflexivity]]|]. split; [reflexivity|]. split; [in_file 12|].
  split; [right; split; [apply no_location; reflexivity|apply OnCell; [discriminate|reflexivity|reflexivity]]|].
  split; [apply c106_instants; [in_file 4|eexists; reflexivity|reflexivity]|]. split; [reflexivity|]. vm_compute. reflexivity.
Qed.
Print Assumptions c106_inner_centers_refuted.
