(** C105: from a file with a staggered grid to the answers of its variables. *)
From Coq Require Import Reals String Lra.
From Verif Require Import Common CommonProofs TimeModel TimeSpec VariableSpec GridTypeModel GridTypeSpec GridTypeProofs MaskModel MaskSpec VariableModel DepthModel DepthSpec SGridModel SGridSpec
  SGridInterpModel SGridInterpSpec SGridInterpProps TFileModel TFileSpec TFileProps LoadModel LoadSpec LoadProofs VLoadModel FMeshModel FMeshSpec FMeshProofs FMeshProps FRectSpec FRectProofs WholeSpec WholeProofs WholeProps
  SWholeModel SWholeSpec SWholeProofs SWholeProps FStagModel FStagSpec FStagRead FStagProofs.
Open Scope string_scope.
Open Scope list_scope.
Open Scope nat_scope.

(** The grid: the arrays found under the names. *)
Theorem c105_grid :
  forall s y, StagFile (sf_file s) y -> exists t, open_stag s = Ok t /\ grid_in s y (st_grid t) /\ g_behavior (st_grid t) = BZero /\
  forall k, GridName (stag_api t) k <-> In k (grid_words y).
Proof.
  intros s y F. exists (stag_of s y). split; [apply stag_read; exact F|]. split; [repeat split|]. split; [reflexivity|]. intros k. apply stag_grid_name. exact F.
Qed.
Print Assumptions c105_grid.

Section Nodes.
  Context (dateutil : string -> dparse) (cftime : string -> option (Z * Z * Z)).
  Context (s : sfile) (y : layout).
  Let nr := a_r (sf_nums s (p_x (y_nodes y))).
  Let nc := a_c (sf_nums s (p_x (y_nodes y))).

  (** It opens, when every variable has no place on the grid or is properly sampled. *)
  Theorem c105_opens : StagFile (sf_file s) y -> StagSound cftime (sf_file s) y nr nc ->
    exists t vs, open_stag_dataset dateutil cftime s = Ok (t, vs) /\ grid_in s y (st_grid t).
  Proof. intros F H. destruct (stag_opens dateutil cftime s y F H) as (vs & E). exists (stag_of s y), vs. split; [exact E|repeat split]. Qed.
  (** What has no place on the grid is left out, whatever else is in the file. *)
  Theorem c105_left_out p k w : StagFile (sf_file s) y -> open_stag_dataset dateutil cftime s = Ok p -> In (k, w) (fi_vars (sf_file s)) ->
    Nowhere nr nc y w -> dget (snd p) k = None.
  Proof. intros F O I N. exact (left_out dateutil cftime s y F p O k w I N). Qed.
  (** The variables opened, with their place and the instants of their samples. *)
  Theorem c105_variable p k w a b loc ts levels : StagFile (sf_file s) y -> open_stag_dataset dateutil cftime s = Ok p -> In (k, w) (fi_vars (sf_file s)) -> ~ In k (grid_words y) ->
    SitsAt nr nc y w a b loc -> InstantsIn cftime (sf_file s) w ts -> LevelsIn (sf_file s) levels -> fm_shape w = [length ts] ++ axis_shape levels ++ [a; b] ->
    exists v t nm, dget (snd p) k = Some v /\ va_loc v = loc /\ va_varname v = k /\ va_shape v = fm_shape w /\
      va_time v = TimeRead t nm /\ t_data t = ts /\ va_depth v = match levels with Some _ => DepthRead | None => DepthNone end.
  Proof. intros F O I NG Si In_ Lv Sh. exact (stag_opened dateutil cftime s y F p O k w I NG a b loc Si ts levels In_ Lv Sh). Qed.

  Context (F : StagFile (sf_file s) y) (M : MaskSized s y).
  Lemma sits_in p : open_stag_dataset dateutil cftime s = Ok p -> forall loc a b col expct,
    Answers (st_grid (fst p)) (center_size s y) loc a b col expct -> fst p = stag_of s y /\ Sits (st_grid (stag_of s y)) loc a b col expct.
  Proof.
    intros O loc a b col expct H. destruct (stag_open_inv dateutil cftime s y F p O) as (E & _). split; [exact E|]. rewrite E in H. apply answers_sits; [exact H|].
    intros m Nc Em. cbn [stag_of st_grid g_pads sp_center_shape]. destruct (y_center y) as [c|] eqn:Ec; [|congruence]. destruct (M c m Ec Em) as [A B]. cbn [option_map]. unfold shape2. rewrite A, B. reflexivity.
  Qed.
End Nodes.
Print Assumptions c105_opens.
Print Assumptions c105_left_out.
Print Assumptions c105_variable.

(** Data over time, on any of the points: what the grid answers for the data of
    the time asked.  Missing: land masks that change with time, sizes other than those of [Answers]. *)
Theorem c105_times_partial :
  forall dateutil cftime now find s y p k w a b loc ts place_of col expct f m q q' ex pts,
  StagFile (sf_file s) y -> MaskSized s y -> open_stag_dataset dateutil cftime s = Ok p -> In (k, w) (fi_vars (sf_file s)) -> ~ In k (grid_words y) ->
  SitsAt (a_r (sf_nums s (p_x (y_nodes y)))) (a_c (sf_nums s (p_x (y_nodes y)))) y w a b loc ->
  InstantsIn cftime (sf_file s) w ts -> fm_shape w = [length ts; a; b] ->
  let g := st_grid (fst p) in
  SameShape g -> Answers g (center_size s y) loc a b col expct -> Finds g find place_of (map fst pts) ->
  Holds (sf_data s k) (Some ts) None a b (fun t _ => f t) (fun _ => m) -> TimeOk (Some ts) ex q q' ->
  ask_stag dateutil cftime now find s k q ex pts = Ok (map (fun x => expct (snap a b (f q') m) (fst x, place_of (fst x))) pts).
Proof.
  intros dateutil cftime now find s y p k w a b loc ts place_of col expct f m q q' ex pts F M O I NG Si In_ Sh g SS An Fi Ho TO.
  destruct (sits_in dateutil cftime s y F M p O loc a b col expct An) as (Ep & St). unfold g in *. rewrite Ep in *.
  destruct (stag_asked dateutil cftime s y F p O k w I NG a b loc Si ts None In_ Logic.I Sh now find) as (tm & Td & E). rewrite E. subst ts. cbn [option_map].
  exact (c98_times_partial (st_grid (stag_of s y)) find place_of loc a b col expct (sf_data s k) (Some tm) f m q q' ex pts None SS St Fi Ho TO).
Qed.
Print Assumptions c105_times_partial.

(** On levels, at points other than the centers. *)
Theorem c105_levels_partial :
  forall dateutil cftime now find s y p k w a b loc ts ls place_of expct f m q q' ex pts z,
  StagFile (sf_file s) y -> MaskSized s y -> open_stag_dataset dateutil cftime s = Ok p -> In (k, w) (fi_vars (sf_file s)) -> ~ In k (grid_words y) ->
  SitsAt (a_r (sf_nums s (p_x (y_nodes y)))) (a_c (sf_nums s (p_x (y_nodes y)))) y w a b loc ->
  InstantsIn cftime (sf_file s) w ts -> LevelsIn (sf_file s) (Some ls) -> fm_shape w = [length ts; length ls; a; b] ->
  let g := st_grid (fst p) in
  SameShape g -> Answers g (center_size s y) loc a b false expct -> Finds g find place_of (map fst pts) ->
  Holds (sf_data s k) (Some ts) (Some (length ls)) a b (fun t j => f t (nth j ls 0%Q)) (fun _ => m) ->
  (forall t r c, m r c = false -> RLinearInDepth ls (fun d => f t d r c)) -> TimeOk (Some ts) ex q q' ->
  (forall x, In x pts -> DepthAsked ls default_sbc default_bbc (snd x) (z x)) ->
  ask_stag dateutil cftime now find s k q ex pts = Ok (map (fun x => expct (snap a b (f q' (z x)) m) (fst x, place_of (fst x))) pts).
Proof.
  intros dateutil cftime now find s y p k w a b loc ts ls place_of expct f m q q' ex pts z F M O I NG Si In_ Lv Sh g SS An Fi Ho LD TO DA.
  destruct (sits_in dateutil cftime s y F M p O loc a b false expct An) as (Ep & St). unfold g in *. rewrite Ep in *.
  destruct (stag_asked dateutil cftime s y F p O k w I NG a b loc Si ts (Some ls) In_ Lv Sh now find) as (tm & Td & E). rewrite E. subst ts. cbn [option_map].
  destruct (levels_read (sf_file s) ls (proj1 F) Lv) as (_ & L2 & Mo).
  exact (c98_levels_partial (st_grid (stag_of s y)) find place_of loc a b expct (sf_data s k) (Some tm) ls f m q q' ex pts default_sbc default_bbc z SS St Fi Ho LD TO L2 Mo DA).
Qed.
Print Assumptions c105_levels_partial.
(** On levels, at any of the points, one point at a time. *)
Theorem c105_one_point_partial :
  forall dateutil cftime now find s y p k w a b loc ts ls place_of col expct f m q q' ex x z,
  StagFile (sf_file s) y -> MaskSized s y -> open_stag_dataset dateutil cftime s = Ok p -> In (k, w) (fi_vars (sf_file s)) -> ~ In k (grid_words y) ->
  SitsAt (a_r (sf_nums s (p_x (y_nodes y)))) (a_c (sf_nums s (p_x (y_nodes y)))) y w a b loc ->
  InstantsIn cftime (sf_file s) w ts -> LevelsIn (sf_file s) (Some ls) -> fm_shape w = [length ts; length ls; a; b] ->
  let g := st_grid (fst p) in
  SameShape g -> Answers g (center_size s y) loc a b col expct -> Finds g find place_of [fst x] ->
  Holds (sf_data s k) (Some ts) (Some (length ls)) a b (fun t j => f t (nth j ls 0%Q)) (fun _ => m) ->
  (forall t r c, m r c = false -> RLinearInDepth ls (fun d => f t d r c)) -> TimeOk (Some ts) ex q q' ->
  DepthAsked ls default_sbc default_bbc (snd x) z ->
  ask_stag dateutil cftime now find s k q ex [x] = Ok [expct (snap a b (f q' z) m) (fst x, place_of (fst x))].
Proof.
  intros dateutil cftime now find s y p k w a b loc ts ls place_of col expct f m q q' ex x z F M O I NG Si In_ Lv Sh g SS An Fi Ho LD TO DA.
  destruct (sits_in dateutil cftime s y F M p O loc a b col expct An) as (Ep & St). unfold g in *. rewrite Ep in *.
  destruct (stag_asked dateutil cftime s y F p O k w I NG a b loc Si ts (Some ls) In_ Lv Sh now find) as (tm & Td & E). rewrite E. subst ts. cbn [option_map].
  destruct (levels_read (sf_file s) ls (proj1 F) Lv) as (_ & L2 & Mo).
  exact (c98_one_point_partial (st_grid (stag_of s y)) find place_of loc a b col expct (sf_data s k) (Some tm) ls f m q q' ex x default_sbc default_bbc z SS St Fi Ho LD TO L2 Mo DA).
Qed.
Print Assumptions c105_one_point_partial.
(** Data without a time axis, as a bathymetry: at all times the same. *)
Theorem c105_fixed :
  forall dateutil cftime now find s y p k w a b loc place_of col expct f m q ex pts,
  StagFile (sf_file s) y -> MaskSized s y -> open_stag_dataset dateutil cftime s = Ok p -> In (k, w) (fi_vars (sf_file s)) -> ~ In k (grid_words y) ->
  SitsAt (a_r (sf_nums s (p_x (y_nodes y)))) (a_c (sf_nums s (p_x (y_nodes y)))) y w a b loc ->
  Timeless (sf_file s) w -> fm_shape w = [a; b] ->
  let g := st_grid (fst p) in
  SameShape g -> Answers g (center_size s y) loc a b col expct -> Finds g find place_of (map fst pts) ->
  Holds (sf_data s k) None None a b (fun _ _ => f) (fun _ => m) ->
  ask_stag dateutil cftime now find s k q ex pts = Ok (map (fun x => expct (snap a b f m) (fst x, place_of (fst x))) pts).
Proof.
  intros dateutil cftime now find s y p k w a b loc place_of col expct f m q ex pts F M O I NG Si Tl Sh g SS An Fi Ho.
  destruct (sits_in dateutil cftime s y F M p O loc a b col expct An) as (Ep & St). unfold g in *. rewrite Ep in *.
  rewrite (stag_fixed dateutil cftime s y F p O k w I NG a b loc Si Tl Sh now find q ex pts).
  refine (c98_times_partial (st_grid (stag_of s y)) find place_of loc a b col expct (sf_data s k) None (fun _ => f) m q q ex pts None SS St Fi Ho _).
  intros l H. discriminate H.
Qed.
Print Assumptions c105_fixed.
(** A field, bilinear over the cells and linear between the instants, sampled at
    the nodes: answered without distortion wherever the tree finds the point. *)
Theorem c105_fields_partial :
  forall dateutil cftime now find s y p k w ts place_of (f : Z -> R * R -> R) q q' ex pts,
  StagFile (sf_file s) y -> MaskSized s y -> open_stag_dataset dateutil cftime s = Ok p -> In (k, w) (fi_vars (sf_file s)) -> ~ In k (grid_words y) ->
  let x := sf_nums s (p_x (y_nodes y)) in let v := sf_nums s (p_y (y_nodes y)) in
  SitsAt (a_r x) (a_c x) y w (a_r x) (a_c x) "node" -> InstantsIn cftime (sf_file s) w ts -> fm_shape w = [length ts; a_r x; a_c x] ->
  SameShape (st_grid (fst p)) -> Finds (st_grid (fst p)) find place_of (map fst pts) ->
  Holds (sf_data s k) (Some ts) None (a_r x) (a_c x) (fun t _ i j => f t (a_at x i j, a_at v i j)) (fun _ _ _ => false) ->
  (forall t, BilinearInCells (st_grid (fst p)) (f t)) -> TimeOk (Some ts) ex q q' ->
  ask_stag dateutil cftime now find s k q ex pts =
  Ok (map (fun u => match place_of (fst u) with Some _ => RVal (f q' (fst u)) | None => RMask end) pts).
Proof.
  intros dateutil cftime now find s y p k w ts place_of f q q' ex pts F M O I NG x v Si In_ Sh SS Fi Ho HB TO.
  destruct (stag_open_inv dateutil cftime s y F p O) as (Ep & _).
  rewrite (c105_times_partial dateutil cftime now find s y p k w (a_r x) (a_c x) "node" ts place_of false node_expected (fun t i j => f t (a_at x i j, a_at v i j)) (fun _ _ => false) q q' ex pts); auto.
  - f_equal. apply map_ext_in. intros u Hu. destruct (Fi (fst u)) as (_ & W); [now apply in_map|]. destruct (place_of (fst u)) as [[[r c] [l mm]]|]; [|reflexivity].
    unfold node_expected. cbn [snd snap a_at d_mask andb]. f_equal. unfold or0. cbn [d_mask d_val].
    unfold WellPlaced in W. cbn [snd fst] in W. destruct W as (Cell & Un & Pl & _). rewrite <- Pl. symmetry. rewrite Ep in *. exact (HB q' r c l mm Cell Un).
  - rewrite Ep. exact (AtNode (st_grid (stag_of s y)) (center_size s y)).
Qed.
Print Assumptions c105_fields_partial.

(** Centers inside the nodes: no variable on the edges between them is opened
    unless it says where it is. *)
Theorem c105_inner_edges :
  forall dateutil cftime s y p k w lead a b, StagFile (sf_file s) y -> open_stag_dataset dateutil cftime s = Ok p -> In (k, w) (fi_vars (sf_file s)) ->
  dget (fm_attrs w) "location" = None -> fm_shape w = lead ++ [a; b] ->
  let nr := a_r (sf_nums s (p_x (y_nodes y))) in let nc := a_c (sf_nums s (p_x (y_nodes y))) in
  (a + 1 = nr /\ b = nc) \/ (a = nr /\ b + 1 = nc) -> dget (snd p) k = None.
Proof.
  intros dateutil cftime s y p k w lead a b F O I A Sh nr nc H. apply (c105_left_out dateutil cftime s y p k w F O I). fold nr nc. split.
  - intros l E. unfold Attr in E. congruence.
  - right. exists lead, a, b. split; [exact Sh|]. intros loc St. destruct St; lia.
Qed.
Print Assumptions c105_inner_edges.

(** ** Files, from their names *)
Definition named (f : file) (n : string) : list string := filter (fun b => String.eqb (lower b) (lower n)) (map fst (fi_vars f)).
Lemma named_in f n a : In a (named f n) <-> (exists x, In (a, x) (fi_vars f)) /\ CaseEq a n.
Proof.
  unfold named. rewrite filter_In, in_map_iff, String.eqb_eq, <- GridTypeProofs.lower_eq. split.
  - intros [([b x] & <- & I) E]. split; [exists x; exact I|exact E].
  - intros [(x & I) E]. split; [exists (a, x); auto|exact E].
Qed.
Lemma present_named f n : Present f n -> named f n <> [].
Proof. intros (a & v & I & C) E. assert (X : In a (named f n)) by (apply named_in; split; [exists v; exact I|exact C]). rewrite E in X. exact X. Qed.
Lemma called_named f n a : named f n = [a] -> Called f n a.
Proof.
  intros E. assert (X : In a (named f n)) by (rewrite E; left; reflexivity). apply named_in in X. destruct X as [X C]. split; [exact X|]. split; [exact C|].
  intros b u I Cb. assert (Y : In b (named f n)) by (apply named_in; split; [exists u; exact I|exact Cb]). rewrite E in Y. destruct Y as [Y|[]]. auto.
Qed.
Lemma called_present f n a : Called f n a -> Present f n.
Proof. intros ((x & I) & C & _). exists a, x. auto. Qed.
Definition lacks (f : file) (p : string * string) : bool :=
  match named f (fst p), named f (snd p) with _ :: _, _ :: _ => false | _, _ => true end.
Lemma lacks_both f p : lacks f p = true -> ~ BothIn f p.
Proof. intros H [A B]. apply present_named in A. apply present_named in B. unfold lacks in H. destruct (named f (fst p)), (named f (snd p)); congruence. Qed.
Lemma no_pair f l : forallb (lacks f) l = true -> PairOf f l None.
Proof. intros H p I. apply lacks_both. rewrite forallb_forall in H. auto. Qed.
Lemma one_pair f pre post p l : l = pre ++ (p_lon p, p_lat p) :: post -> named f (p_lon p) = [p_x p] -> named f (p_lat p) = [p_y p] -> forallb (lacks f) pre = true ->
  PairOf f l (Some p).
Proof.
  intros -> A B H. apply called_named in A. apply called_named in B. split; [|split; assumption]. exists pre, post. split; [reflexivity|]. split; [split; eapply called_present; eassumption|].
  intros y I. apply lacks_both. rewrite forallb_forall in H. auto.
Qed.

(** Coordinates and flags [grid], times, depths and [data]. *)
Definition c105_xy (d : string) (r c : nat) : mvar := c102_var [("eta_" ++ d)%string; ("xi_" ++ d)%string] [r; c] [] (fun _ => []).
Definition c105_file (grid data : dict mvar) : file := mkFile None ["time"; "depth"] (grid ++ [("time", c102_time); ("depth", c102_depth)] ++ data).
Lemma c105_instants grid data w : (exists r, fm_dims w = "time" :: r) -> dget (fm_attrs w) "time" = None -> InstantsIn demo_cftime (c105_file grid data) w c102_times.
Proof.
  intros (r & Hr) Ha. destruct (c102_instants w (ex_intro _ r Hr) Ha) as (n & aw & Ax & I & Y). exists "time", c102_time.
  split; [|split; [cbn [c105_file fi_vars]; apply in_or_app; right; left; reflexivity|]].
  - right. split; [intros m [A _]; cbn [to_load lv_attrs] in A; congruence|]. split; [exists r; exact Hr|]. exists "", "". reflexivity.
  - split; [|split].
    + exists "hours since 2024-01-01T00:00:00", hour, 0%Z, 0%Z. split; [reflexivity|]. split; [reflexivity|]. repeat constructor.
    + exists "hours since 2024-01-01T00:00:00". split; [reflexivity|]. exists "hours ", " 2024-01-01T00:00:00". reflexivity.
    + apply Y.
Qed.
Lemma c105_increasing : StrictlyIncreasing c102_times.
Proof. destruct (c102_instants c102_temp ltac:(eexists; reflexivity) eq_refl) as (n & aw & _ & _ & _ & _ & X). exact X. Qed.
Lemma c105_timeless f w d r : fm_dims w = d :: r -> dget (fm_attrs w) "time" = None -> contains "time" d = false -> Timeless f w.
Proof.
  intros Hd Ha Hc. split; [rewrite Hd; discriminate|]. intros n [[A _]|(_ & (r' & E) & M)]; [cbn [to_load lv_attrs] in A; congruence|].
  cbn [to_load lv_dims] in E. rewrite Hd in E. injection E as <- <-. apply GridTypeProofs.contains_spec in M. congruence.
Qed.

(** As ROMS writes it. *)
Definition c105_grid_vars : dict mvar :=
  [("lon_psi", c105_xy "psi" 3 3); ("lat_psi", c105_xy "psi" 3 3); ("lon_rho", c105_xy "rho" 4 4); ("lat_rho", c105_xy "rho" 4 4);
   ("lon_u", c105_xy "u" 4 3); ("lat_u", c105_xy "u" 4 3); ("mask_rho", c105_xy "rho" 4 4)].
Definition c105_temp : mvar := c102_var ["time"; "depth"; "eta_psi"; "xi_psi"] [2; 3; 3; 3] [] (fun _ => []).
Definition c105_u : mvar := c102_var ["time"; "eta_u"; "xi_u"] [2; 4; 3] [] (fun _ => []).
Definition c105_roms : file := c105_file c105_grid_vars [("bath", c105_xy "rho" 4 4); ("temp", c105_temp); ("ubar", c105_u)].
Definition c105_psi : pair := mkPair "lon_psi" "lat_psi" "lon_psi" "lat_psi".
Definition c105_layout : layout := mkLayout c105_psi (Some (mkPair "lon_rho" "lat_rho" "lon_rho" "lat_rho")) (Some (mkPair "lon_u" "lat_u" "lon_u" "lat_u")) None (Some "mask_rho") None None.
Definition c105_nums (sizes : string -> nat * nat) (n : string) : arr R :=
  mkArr (fst (sizes n)) (snd (sizes n)) (if String.eqb (lower n) "lon_psi" then ex_lon else if String.eqb (lower n) "lat_psi" then ex_lat else fun _ _ => 0%R).
Definition c105_sizes (n : string) : nat * nat :=
  if String.eqb n "lon_psi" then (3, 3) else if String.eqb n "lat_psi" then (3, 3) else if String.eqb n "lon_u" then (4, 3) else if String.eqb n "lat_u" then (4, 3) else (4, 4).
Definition c105_field (t : Z) (d : Q) (p : R * R) : R := (IZR t / IZR hour + 3 * Q2R d + fst p + 2 * snd p)%R.
Definition c105_data (n : string) : nvar :=
  if String.eqb n "temp" then
    mkNvar [2; 3] (fun ix => mkArr 3 3 (fun i j => mkRd (c105_field (nth (nth 0 ix 0) c102_times 0%Z) (nth (nth 1 ix 0) c94_levels 0%Q) (ex_lon i j, ex_lat i j)) false))
  else if String.eqb n "bath" then mkNvar [] (fun _ => mkArr 4 4 (fun i j => mkRd (10 * INR i + INR j)%R (Nat.eqb i 0)))
  else mkNvar [2] (fun ix => mkArr 4 3 (fun i j => mkRd (INR i) false)).
Definition c105_s : sfile := mkSfile c105_roms (c105_nums c105_sizes) (fun _ => (MPlain, mkArr 4 4 (fun _ _ => mkM 1 false))) c105_data.

Lemma c105_stag : StagFile c105_roms c105_layout.
Proof.
  split; [unfold UniqueNames; cbn [c105_roms c105_file c105_grid_vars fi_vars app map fst]; distinct|]. split; [intros g H; discriminate H|]. split; [|split; [|split; [|split; [|split]]]].
  - intros n v r I. cbn [c105_roms c105_file c105_grid_vars fi_vars app In] in I. repeat (destruct I as [I|I]; [injection I as <- <-; intros A; discriminate A|]). destruct I.
  - intros n Hn P. apply present_named in P. cbn [In] in Hn. destruct Hn as [<-|[<-|[<-|[<-|[<-|[]]]]]]; apply P; reflexivity.
  - eapply (one_pair _ [("node_lon", "node_lat"); ("lon", "lat")]); reflexivity.
  - intros x I. cbn [c105_roms c105_file c105_grid_vars fi_vars app In] in I. repeat (destruct I as [I|I]; [first [discriminate I|injection I as <-; reflexivity]|]). destruct I.
  - intros x I. cbn [c105_roms c105_file c105_grid_vars fi_vars app In] in I. repeat (destruct I as [I|I]; [first [discriminate I|injection I as <-; reflexivity]|]). destruct I.
  - split; [eapply (one_pair _ [("center_lon", "center_lat")]); reflexivity|]. split; [eapply (one_pair _ [("edge1_lon", "edge1_lat")]); reflexivity|].
    split; [apply no_pair; reflexivity|]. split; [apply called_named; reflexivity|]. split; intros P; apply present_named in P; apply P; reflexivity.
Qed.
Lemma c105_levels : LevelsIn c105_roms (Some c94_levels).
Proof.
  destruct c102_levels_of as (_ & dv & _ & Y). split.
  - intros n v I. cbn [c105_roms c105_file c105_grid_vars fi_vars app In] in I.
    repeat (destruct I as [I|I]; [injection I as <- <-; (split; [discriminate|]); intros a l [<-|[<-|[]]] A; vm_compute in A; try discriminate; injection A as <-; cbn [In]; intros H; repeat (destruct H as [H|H]; [discriminate H|]); exact H|]). destruct I.
  - exists c102_depth. split; [exists "depth", [], ["depth_levels"; "Depth"]; split; [reflexivity|]; split; [do 8 right; left; reflexivity|intros m []]|].
    split; [|split; [cbn; lia|split; [left; exact c102_ascending|]]].
    + split; [reflexivity|]. exists 0, 0%Q. split; [reflexivity|]. split; [reflexivity|]. intros [|[|[|[|i]]]] x H N; cbn in H; try congruence; try lia; injection H as <-; (split; reflexivity).
    + intros x [<-|[<-|[<-|[]]]]; discriminate.
Qed.
Lemma no_location (w : mvar) : dget (fm_attrs w) "location" = None -> forall l, Attr w "location" l -> ~ ValidLocation l.
Proof. intros H l A. unfold Attr in A. congruence. Qed.
Lemma c105_h_sits : SitsAt 3 3 c105_layout (c105_xy "rho" 4 4) 4 4 "center".
Proof. right. split; [apply no_location; reflexivity|]. apply OnRho; [discriminate|reflexivity|reflexivity]. Qed.
Lemma c105_temp_sits : SitsAt 3 3 c105_layout c105_temp 3 3 "node".
Proof. right. split; [apply no_location; reflexivity|]. apply OnNode; reflexivity. Qed.
Lemma c105_sound : StagSound demo_cftime c105_roms c105_layout 3 3.
Proof.
  intros k w I. cbn [c105_roms c105_file c105_grid_vars fi_vars app In] in I.
  do 7 (destruct I as [I|I]; [injection I as <- <-; left; cbn [grid_words c105_layout y_nodes y_center y_edge1 y_edge2 y_cmask y_mask1 y_mask2 names_of p_lon p_lat c105_psi app In]; tauto|]).
  do 2 (destruct I as [I|I]; [injection I as <- <-; right; left; split; [apply no_location; reflexivity|left; cbn; lia]|]).
  destruct I as [I|[I|[I|[]]]]; injection I as <- <-; right; right.
  - exists 4, 4, "center". split; [exact c105_h_sits|]. left. split; [eapply c105_timeless; reflexivity|reflexivity].
  - exists 3, 3, "node". split; [exact c105_temp_sits|]. right. exists c102_times, (Some c94_levels). split; [apply c105_instants; [eexists; reflexivity|reflexivity]|]. split; [exact c105_levels|reflexivity].
  - exists 4, 3, "edge1". split; [right; split; [apply no_location; reflexivity|apply OnU; [discriminate|reflexivity|reflexivity]]|]. right. exists c102_times, None.
    split; [apply c105_instants; [eexists; reflexivity|reflexivity]|]. split; [exact Logic.I|reflexivity].
Qed.
Lemma c105_mask_sized : MaskSized c105_s c105_layout.
Proof. intros c m Hc Hm. injection Hc as <-. injection Hm as <-. split; reflexivity. Qed.
Lemma c105_time_ok : TimeOk (Some c102_times) false (hour + 1800000000)%Z (hour + 1800000000)%Z.
Proof.
  intros l H. injection H as <-. split; [exact c105_increasing|split; [discriminate|left; split; [|reflexivity]]].
  exists hour, (2 * hour)%Z. split; [reflexivity|]. split; [reflexivity|]. unfold hour. lia.
Qed.

Definition c105_now : time_obj := mkTime [0%Z] None None.
Definition c105_ask := ask_stag demo_dateutil demo_cftime c105_now c98_find c105_s.
(** The temperature over time, levels and nodes, half an hour after the first
    time, and the bathymetry at the rho points, whose first row is masked:
    neither point inside is in a cell of that row. *)
Example c105_example :
  (exists t vs, open_stag_dataset demo_dateutil demo_cftime c105_s = Ok (t, vs) /\ grid_in c105_s c105_layout (st_grid t)) /\
  c105_ask "temp" (hour + 1800000000)%Z false c98_pts = Ok [RVal (88 / 10)%R; RMask; RVal (61 / 4)%R] /\
  c105_ask "bath" 0%Z false c98_pts = Ok [RVal 11%R; RMask; RVal 22%R].
Proof.
  destruct (c105_opens demo_dateutil demo_cftime c105_s c105_layout c105_stag c105_sound) as (t & vs & O & Gi). split; [exists t, vs; auto|].
  destruct (stag_open_inv demo_dateutil demo_cftime c105_s c105_layout c105_stag _ O) as (Et & _). cbn [fst] in Et. split.
  - unfold c105_ask. rewrite (c105_levels_partial demo_dateutil demo_cftime c105_now c98_find c105_s c105_layout (t, vs) "temp" c105_temp 3 3 "node" c102_times c94_levels c98_place node_expected
      (fun t d i j => c105_field t d (ex_lon i j, ex_lat i j)) (fun _ _ => false) (hour + 1800000000)%Z (hour + 1800000000)%Z false c98_pts snd); auto; try exact c105_stag; try exact c105_mask_sized.
    + cbn [map c98_pts fst snd]. unfold c98_place. cbn [fst].
      destruct (Req_EM_T (9/10) (9/10)) as [_|NN]; [|exfalso; apply NN; reflexivity].
      destruct (Req_EM_T 100 (9/10)) as [?|?]; [exfalso; Lra.lra|]. destruct (Req_EM_T 100 (11/4)) as [?|?]; [exfalso; Lra.lra|].
      destruct (Req_EM_T (11/4) (9/10)) as [?|?]; [exfalso; Lra.lra|]. destruct (Req_EM_T (11/4) (11/4)) as [_|NN]; [|exfalso; apply NN; reflexivity].
      unfold node_expected. cbn [snd]. unfold or0, snap. cbn [a_at d_mask d_val andb]. assert (Eh : (IZR (hour + 1800000000) / IZR hour = 3 / 2)%R) by (unfold hour; cbn; Lra.lra). unfold c105_field. rewrite !Eh. unfold bilin, ex_lon, ex_lat. cbn [fst snd INR Nat.add].
      assert (E2 : Q2R 2 = 2%R) by (unfold Q2R; cbn; field). assert (E3 : Q2R 3 = 3%R) by (unfold Q2R; cbn; field). rewrite E2, E3.
      repeat (f_equal; try Lra.lra).
    + do 10 right. left. reflexivity.
    + intros H. cbn in H. repeat (destruct H as [H|H]; [discriminate H|]). exact H.
    + exact c105_temp_sits.
    + apply c105_instants; [eexists; reflexivity|reflexivity].
    + exact c105_levels.
    + cbn [fst]. rewrite Et. split; reflexivity.
    + cbn [fst]. rewrite Et. exact (AtNode (st_grid (stag_of c105_s c105_layout)) _).
    + cbn [fst]. rewrite Et. exact c98_found.
    + split; [reflexivity|]. split.
      * intros ix u j (i & -> & Hi & Hj). split; [reflexivity|]. split; [reflexivity|]. intros r c. split; [reflexivity|]. intros _. cbn [c105_s sf_data c105_data String.eqb nv_at a_at d_val nth].
        destruct i as [|[|i]]; [injection Hi as <-; reflexivity|injection Hi as <-; reflexivity|destruct i; discriminate].
      * intros l r c k E _. injection E as <-. intros i t0 t1 q _ _ _. unfold c105_field, Rdiv. ring.
    + intros u r c _. apply (c98_linear _ (IZR u / IZR hour + ex_lon r c + 2 * ex_lat r c)%R 3%R). intros d. unfold c105_field. cbn [fst snd]. ring.
    + exact c105_time_ok.
    + intros x Hx. exists 0%Q, 10%Q. split; [reflexivity|split; [reflexivity|left]]. split; [exact c102_ascending|].
      destruct Hx as [<-|[<-|[<-|[]]]]; (split; [split; [discriminate|reflexivity]|reflexivity]).
  - unfold c105_ask. rewrite (c105_fixed demo_dateutil demo_cftime c105_now c98_find c105_s c105_layout (t, vs) "bath" (c105_xy "rho" 4 4) 4 4 "center" c98_place true (fun var => center_expected var (PadBoth, PadBoth))
      (fun i j => (10 * INR i + INR j)%R) (fun i _ => Nat.eqb i 0) 0%Z false c98_pts); auto; try exact c105_stag; try exact c105_mask_sized.
    + cbn [map c98_pts fst snd]. unfold c98_place. cbn [fst].
      destruct (Req_EM_T (9/10) (9/10)) as [_|NN]; [|exfalso; apply NN; reflexivity].
      destruct (Req_EM_T 100 (9/10)) as [?|?]; [exfalso; Lra.lra|]. destruct (Req_EM_T 100 (11/4)) as [?|?]; [exfalso; Lra.lra|].
      destruct (Req_EM_T (11/4) (9/10)) as [?|?]; [exfalso; Lra.lra|]. destruct (Req_EM_T (11/4) (11/4)) as [_|NN]; [|exfalso; apply NN; reflexivity].
      unfold center_expected, snap. cbn [snd fst a_at d_mask d_val low_extra Nat.add Nat.eqb INR]. repeat (f_equal; try Lra.lra).
    + do 9 right. left. reflexivity.
    + intros H. cbn in H. repeat (destruct H as [H|H]; [discriminate H|]). exact H.
    + exact c105_h_sits.
    + eapply c105_timeless; reflexivity.
    + cbn [fst]. rewrite Et. split; reflexivity.
    + cbn [fst]. rewrite Et. exact (AtRho (st_grid (stag_of c105_s c105_layout)) (center_size c105_s c105_layout) eq_refl).
    + cbn [fst]. rewrite Et. exact c98_found.
    + split; [reflexivity|]. split; [|discriminate]. intros ix u j E. cbn in E. subst ix. split; [reflexivity|]. split; [reflexivity|]. intros r c. split; reflexivity.
Qed.

(** ** What goes wrong on the way *)
(** A file with nothing but coordinates of the nodes, [more], times, and one
    variable over time: what it needs to be such a file, and to open. *)
Section Small.
  Context (more : dict mvar) (k : string) (w : mvar) (y : layout) (sizes : string -> nat * nat).
  Let grid := [("lon_psi", c105_xy "psi" 3 3); ("lat_psi", c105_xy "psi" 3 3)] ++ more.
  Definition c105_small : sfile := mkSfile (c105_file grid [(k, w)]) (c105_nums sizes) (fun _ => (MPlain, mkArr 0 0 (fun _ _ => mkM 1 false))) (fun _ => mkNvar [] (fun _ => mkArr 0 0 (fun _ _ => mkRd 0%R false))).
  Context (Un : UniqueNames (sf_file c105_small)) (At : Forall (fun x => fm_attrs (snd x) = []) more) (Aw : fm_attrs w = [])
    (Fc : forallb (fun n => match named (sf_file c105_small) n with [] => true | _ => false end) ["faces"; "tris"; "nv"; "ele"; "nele"; "mask_rho"; "mask_u"; "mask_v"] = true)
    (Nd : PairOf (sf_file c105_small) axis_names (Some c105_psi)) (Yn : y_nodes y = c105_psi)
    (Ce : PairOf (sf_file c105_small) [("center_lon", "center_lat"); ("lon_rho", "lat_rho"); ("lonc", "latc")] (y_center y))
    (E1 : PairOf (sf_file c105_small) [("edge1_lon", "edge1_lat"); ("lon_u", "lat_u")] (y_edge1 y))
    (E2 : PairOf (sf_file c105_small) [("edge2_lon", "edge2_lat"); ("lon_v", "lat_v")] (y_edge2 y))
    (Ym : y_cmask y = None /\ y_mask1 y = None /\ y_mask2 y = None)
    (Sz : sizes "lon_psi" = (3, 3)).
  Lemma absent n : In n ["faces"; "tris"; "nv"; "ele"; "nele"; "mask_rho"; "mask_u"; "mask_v"] -> ~ Present (sf_file c105_small) n.
  Proof. intros Hn P. apply present_named in P. rewrite forallb_forall in Fc. specialize (Fc n Hn). destruct (named (sf_file c105_small) n); congruence. Qed.
  Lemma small_in n v : In (n, v) (fi_vars (sf_file c105_small)) -> (n, v) = ("lon_psi", c105_xy "psi" 3 3) \/ (n, v) = ("lat_psi", c105_xy "psi" 3 3) \/ In (n, v) more \/ (n, v) = ("time", c102_time) \/ (n, v) = ("depth", c102_depth) \/ (n, v) = (k, w).
  Proof. clear. cbn [c105_small sf_file c105_file fi_vars]. unfold grid. rewrite !in_app_iff. cbn [In]. intuition. Qed.
  Lemma small_two n v : n = "lon_psi" \/ n = "lat_psi" -> In (n, v) (fi_vars (sf_file c105_small)) -> length (fm_shape v) = 2.
  Proof.
    intros Hn I. assert (J : In (n, c105_xy "psi" 3 3) (fi_vars (sf_file c105_small))) by (destruct Hn as [-> | ->]; [left; reflexivity|right; left; reflexivity]).
    assert (E : v = c105_xy "psi" 3 3); [|subst v; reflexivity]. unfold UniqueNames in Un.
    clear - I J Un. induction (fi_vars (sf_file c105_small)) as [|[a x] l IH]; [destruct I|]. cbn [map fst] in Un. inversion Un as [|? ? Nx Ux]; subst. destruct I as [I|I], J as [J|J].
    - congruence.
    - injection I as -> ->. exfalso. apply Nx. apply (in_map fst) in J. exact J.
    - injection J as -> ->. exfalso. apply Nx. apply (in_map fst) in I. exact I.
    - auto.
  Qed.
  Lemma c105_small_stag : StagFile (sf_file c105_small) y.
  Proof.
    split; [exact Un|]. split; [intros g H; discriminate H|]. split; [|split; [intros n Hn; apply absent; cbn [In] in *; tauto|split; [rewrite Yn; exact Nd|split; [|split]]]].
    - intros n v r I A. exfalso. apply small_in in I. unfold Attr in A. rewrite Forall_forall in At.
      destruct I as [I|[I|[I|[I|[I|I]]]]]; try (injection I as -> ->; (discriminate A || (rewrite Aw in A; discriminate A))). apply At in I. cbn [snd] in I. rewrite I in A. discriminate A.
    - rewrite Yn. intros x. apply small_two. left. reflexivity.
    - rewrite Yn. intros x. apply small_two. right. reflexivity.
    - split; [exact Ce|]. split; [exact E1|]. split; [exact E2|]. destruct Ym as (-> & -> & ->). repeat split; apply absent; cbn [In]; tauto.
  Qed.
  (** It opens if the other coordinates belong to the grid. *)
  Lemma c105_small_opens : Forall (fun x => In (fst x) (grid_words y)) more ->
    (Nowhere 3 3 y w \/ (fm_dims w <> [] /\ (exists r, fm_dims w = "time" :: r) /\ exists a b loc, SitsAt 3 3 y w a b loc /\ fm_shape w = [2; a; b])) ->
    exists t vs, open_stag_dataset demo_dateutil demo_cftime c105_small = Ok (t, vs) /\ grid_in c105_small y (st_grid t).
  Proof.
    intros Mo H. apply c105_opens; [exact c105_small_stag|]. rewrite Yn. cbn [c105_psi p_x c105_small sf_nums c105_nums a_r a_c]. rewrite Sz. cbn [fst snd]. rewrite Forall_forall in Mo.
    intros n v I. apply small_in in I. destruct I as [I|[I|[I|[I|[I|I]]]]].
    - injection I as -> ->. left. unfold grid_words. rewrite Yn. left. reflexivity.
    - injection I as -> ->. left. unfold grid_words. rewrite Yn. right. left. reflexivity.
    - left. apply Mo in I. exact I.
    - injection I as -> ->. right. left. split; [apply no_location; reflexivity|left; cbn; lia].
    - injection I as -> ->. right. left. split; [apply no_location; reflexivity|left; cbn; lia].
    - injection I as -> ->. right. destruct H as [H|(_ & D & a & b & loc & Si & Sh)]; [left; exact H|right]. exists a, b, loc. split; [exact Si|]. right. exists c102_times, None.
      split; [apply c105_instants; [exact D|rewrite Aw; reflexivity]|]. split; [exact Logic.I|exact Sh].
  Qed.
End Small.

(** Velocities on the edges of the cells, with their coordinates, centers inside:
    the file opens, but they are not in it. *)
Definition c105_inner : dict mvar := [("lonc", c105_xy "c" 2 2); ("latc", c105_xy "c" 2 2); ("lon_u", c105_xy "u" 2 3); ("lat_u", c105_xy "u" 2 3)].
Definition c105_inner_u : mvar := c102_var ["time"; "eta_u"; "xi_u"] [2; 2; 3] [] (fun _ => []).
Definition c105_inner_layout : layout := mkLayout c105_psi (Some (mkPair "lonc" "latc" "lonc" "latc")) (Some (mkPair "lon_u" "lat_u" "lon_u" "lat_u")) None None None None.
Definition c105_inner_sizes (n : string) : nat * nat :=
  if String.eqb n "lon_psi" then (3, 3) else if String.eqb n "lat_psi" then (3, 3) else if String.eqb n "lonc" then (2, 2) else if String.eqb n "latc" then (2, 2) else (2, 3).
Definition c105_inner_s : sfile := c105_small c105_inner "u" c105_inner_u c105_inner_sizes.
Ltac small_file l :=
  first [exact l | reflexivity | solve [unfold UniqueNames; cbn; distinct] | solve [repeat (apply Forall_cons; [reflexivity|]); apply Forall_nil] | (apply no_pair; reflexivity)
   | (eapply (one_pair _ [("node_lon", "node_lat"); ("lon", "lat")]); reflexivity) | (eapply (one_pair _ [("center_lon", "center_lat")]); reflexivity)
   | (eapply (one_pair _ [("center_lon", "center_lat"); ("lon_rho", "lat_rho")]); reflexivity) | (eapply (one_pair _ [("edge1_lon", "edge1_lat")]); reflexivity) | solve [repeat split] ].
Lemma c105_inner_stag : StagFile (sf_file c105_inner_s) c105_inner_layout.
Proof. apply c105_small_stag; small_file Logic.I. Qed.
Lemma c105_inner_nowhere : Nowhere 3 3 c105_inner_layout c105_inner_u.
Proof. split; [apply no_location; reflexivity|]. right. exists [2], 2, 3. split; [reflexivity|]. intros loc H. destruct H; lia. Qed.
Theorem c105_unpadded_edges_refuted :
  exists s y p w, StagFile (sf_file s) y /\ open_stag_dataset demo_dateutil demo_cftime s = Ok p /\ In ("u", w) (fi_vars (sf_file s)) /\
  (exists e ev, y_edge1 y = Some e /\ In (p_x e, ev) (fi_vars (sf_file s)) /\ fm_dims w = "time" :: fm_dims ev) /\
  edge1_padding (g_pads (st_grid (fst p))) = Ok (PadNone, PadNone) /\ dget (snd p) "u" = None.
Proof.
  destruct (c105_small_opens c105_inner "u" c105_inner_u c105_inner_layout c105_inner_sizes) as (t & vs & O & Gi); [small_file Logic.I..| | |].
  - repeat (constructor; [cbn; tauto|]). constructor.
  - left. exact c105_inner_nowhere.
  - fold c105_inner_s in O, Gi. exists c105_inner_s, c105_inner_layout, (t, vs), c105_inner_u. split; [exact c105_inner_stag|]. split; [exact O|].
    assert (I : In ("u", c105_inner_u) (fi_vars (sf_file c105_inner_s))) by (do 8 right; left; reflexivity). split; [exact I|]. split; [|split].
    + exists (mkPair "lon_u" "lat_u" "lon_u" "lat_u"), (c105_xy "u" 2 3). split; [reflexivity|]. split; [do 4 right; left; reflexivity|reflexivity].
    + destruct (stag_open_inv _ _ _ _ c105_inner_stag _ O) as (Et & _). rewrite Et. reflexivity.
    + exact (c105_left_out demo_dateutil demo_cftime c105_inner_s c105_inner_layout (t, vs) "u" c105_inner_u c105_inner_stag O I c105_inner_nowhere).
Qed.
Print Assumptions c105_unpadded_edges_refuted.
(** Velocities on the edges all around, centers all around, but no coordinates for
    the edges: the grid answers for such data, which is left out. *)
Definition c105_rho : dict mvar := [("lon_rho", c105_xy "rho" 4 4); ("lat_rho", c105_xy "rho" 4 4)].
Definition c105_rho_layout : layout := mkLayout c105_psi (Some (mkPair "lon_rho" "lat_rho" "lon_rho" "lat_rho")) None None None None None.
Definition c105_bare_s : sfile := c105_small c105_rho "ubar" c105_u c105_sizes.
Theorem c105_no_edge_coordinates_refuted :
  exists s y p w, StagFile (sf_file s) y /\ open_stag_dataset demo_dateutil demo_cftime s = Ok p /\ In ("ubar", w) (fi_vars (sf_file s)) /\ fm_shape w = [2; 4; 3] /\
  (exists expct, Answers (st_grid (fst p)) (center_size s y) "edge1" 4 3 false expct) /\ dget (snd p) "ubar" = None.
Proof.
  assert (St : StagFile (sf_file c105_bare_s) c105_rho_layout) by (apply c105_small_stag; small_file Logic.I).
  assert (N : Nowhere 3 3 c105_rho_layout c105_u).
  { split; [apply no_location; reflexivity|]. right. exists [2], 4, 3. split; [reflexivity|]. intros loc H. destruct H as [? ?|? ? ?|? ? ?|H ? ?|H ? ?]; try lia; apply H; reflexivity. }
  destruct (c105_small_opens c105_rho "ubar" c105_u c105_rho_layout c105_sizes) as (t & vs & O & Gi); [small_file Logic.I..| | |].
  - repeat (constructor; [cbn; tauto|]). constructor.
  - left. exact N.
  - fold c105_bare_s in O, Gi. exists c105_bare_s, c105_rho_layout, (t, vs), c105_u. split; [exact St|]. split; [exact O|].
    assert (I : In ("ubar", c105_u) (fi_vars (sf_file c105_bare_s))) by (do 6 right; left; reflexivity). split; [exact I|]. split; [reflexivity|]. split.
    + destruct (stag_open_inv _ _ _ _ St _ O) as (Et & _). rewrite Et. eexists. exact (AtU (st_grid (stag_of c105_bare_s c105_rho_layout)) (center_size c105_bare_s c105_rho_layout) eq_refl).
    + exact (c105_left_out demo_dateutil demo_cftime c105_bare_s c105_rho_layout (t, vs) "ubar" c105_u St O I N).
Qed.
Print Assumptions c105_no_edge_coordinates_refuted.
(** As many centers as nodes, one more row and column on one side: the grid
    accounts for that, but the data on the centers is taken for data on the
    nodes. *)
Definition c105_low : dict mvar := [("lon_rho", c105_xy "rho" 3 3); ("lat_rho", c105_xy "rho" 3 3)].
Definition c105_zeta : mvar := c102_var ["time"; "eta_rho"; "xi_rho"] [2; 3; 3] [] (fun _ => []).
Definition c105_low_s : sfile := c105_small c105_low "zeta" c105_zeta (fun _ => (3, 3)).
Theorem c105_same_size_centers_refuted :
  exists s y p w v, StagFile (sf_file s) y /\ open_stag_dataset demo_dateutil demo_cftime s = Ok p /\ In ("zeta", w) (fi_vars (sf_file s)) /\
  (exists c n cv nv, y_center y = Some c /\ y_nodes y = n /\ In (p_x c, cv) (fi_vars (sf_file s)) /\ In (p_x n, nv) (fi_vars (sf_file s)) /\ fm_dims w = "time" :: fm_dims cv /\ fm_dims w <> "time" :: fm_dims nv) /\
  face_padding (g_pads (st_grid (fst p))) = Ok (PadLow, PadLow) /\ dget (snd p) "zeta" = Some v /\ va_loc v = "node".
Proof.
  assert (St : StagFile (sf_file c105_low_s) c105_rho_layout) by (apply c105_small_stag; small_file Logic.I).
  assert (Si : SitsAt 3 3 c105_rho_layout c105_zeta 3 3 "node") by (right; split; [apply no_location; reflexivity|apply OnNode; reflexivity]).
  destruct (c105_small_opens c105_low "zeta" c105_zeta c105_rho_layout (fun _ => (3, 3))) as (t & vs & O & Gi); [small_file Logic.I..| | |].
  - repeat (constructor; [cbn; tauto|]). constructor.
  - right. split; [discriminate|]. split; [eexists; reflexivity|]. exists 3, 3, "node". split; [exact Si|reflexivity].
  - fold c105_low_s in O, Gi. assert (I : In ("zeta", c105_zeta) (fi_vars (sf_file c105_low_s))) by (do 6 right; left; reflexivity).
    destruct (c105_variable demo_dateutil demo_cftime c105_low_s c105_rho_layout (t, vs) "zeta" c105_zeta 3 3 "node" c102_times None St O I) as (v & _ & _ & G & L & _).
    + intros H. cbn in H. repeat (destruct H as [H|H]; [discriminate H|]). exact H.
    + exact Si.
    + apply c105_instants; [eexists; reflexivity|reflexivity].
    + exact Logic.I.
    + reflexivity.
    + exists c105_low_s, c105_rho_layout, (t, vs), c105_zeta, v. split; [exact St|]. split; [exact O|]. split; [exact I|]. split; [|split; [|split; assumption]].
      * exists (mkPair "lon_rho" "lat_rho" "lon_rho" "lat_rho"), c105_psi, (c105_xy "rho" 3 3), (c105_xy "psi" 3 3). split; [reflexivity|]. split; [reflexivity|].
        split; [right; right; left; reflexivity|]. split; [left; reflexivity|]. split; [reflexivity|discriminate].
      * destruct (stag_open_inv _ _ _ _ St _ O) as (Et & _). rewrite Et. reflexivity.
Qed.
Print Assumptions c105_same_size_centers_refuted.
