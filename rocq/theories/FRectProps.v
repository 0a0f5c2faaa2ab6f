(** C104: from a file with a regular grid to the answers of its variables. *)
From Coq Require Import String Lqa.
From Verif Require Import Common CommonProofs TimeModel TimeSpec TimeProofs GridTypeModel GridTypeSpec MaskModel MaskSpec MaskProofs VariableModel VariableSpec VariableProofs DepthModel DepthSpec DepthProofs
  UGridGeomModel UGridGeomSpec RGridModel RGridSpec TFileModel TFileSpec TFileProps LoadModel LoadSpec VLoadModel WholeModel WholeSpec WholeProofs WholeProps FMeshModel FMeshSpec FMeshProofs FMeshProps
  FRectModel FRectSpec FRectProofs.
Open Scope string_scope.
Open Scope list_scope.
Open Scope nat_scope.

(** The grid of such a file is the two axes. *)
Theorem c104_grid :
  forall f ln la lon lat, RectFile f ln la lon lat -> exists r, open_rect f = Ok r /\
  rg_lon (re_grid r) = lon /\ rg_lat (re_grid r) = lat /\ rg_dims (re_grid r) = (la, ln) /\ forall k, GridName (rect_api r) k <-> k = ln \/ k = la.
Proof.
  intros f ln la lon lat R. exists (rect_of ln la lon lat). split; [apply rect_read; exact R|]. repeat split; try apply (rect_grid_name _ _ _ _ _ _ R).
Qed.
Print Assumptions c104_grid.

(** It opens, when every variable is either not on the grid or properly sampled. *)
Theorem c104_opens :
  forall dateutil cftime f ln la lon lat, RectFile f ln la lon lat -> Sound cftime f ln la (length lon) (length lat) ->
  exists r vs, open_rect_dataset dateutil cftime f = Ok (r, vs) /\ rg_lon (re_grid r) = lon /\ rg_lat (re_grid r) = lat.
Proof. intros dateutil cftime f ln la lon lat R H. destruct (opens dateutil cftime f ln la lon lat R H) as (vs & E). exists (rect_of ln la lon lat), vs. auto. Qed.
Print Assumptions c104_opens.
(** One variable of the wrong form and it does not open. *)
Theorem c104_unopenable :
  forall dateutil cftime f ln la lon lat k w, RectFile f ln la lon lat -> In (k, w) (fi_vars f) -> k <> ln -> k <> la ->
  Breaking w (length lat) (length lon) -> forall p, open_rect_dataset dateutil cftime f <> Ok p.
Proof.
  intros dateutil cftime f ln la lon lat k w R I N1 N2 B p E. destruct (open_inv _ _ _ _ _ _ _ R p E) as (_ & Hv).
  refine (load_breaks dateutil cftime _ _ f k w I _ _ _ Hv).
  - intros G. apply (rect_grid_name _ _ _ _ _ _ R) in G. destruct G; contradiction.
  - intros l. apply breaking. exact B.
Qed.
Print Assumptions c104_unopenable.

(** The variables opened, with their place and the instants of their samples. *)
Theorem c104_variable :
  forall dateutil cftime f ln la lon lat p k w sw loc ts levels, RectFile f ln la lon lat -> open_rect_dataset dateutil cftime f = Ok p ->
  In (k, w) (fi_vars f) -> k <> ln -> k <> la -> Placed w sw loc -> InstantsIn cftime f w ts -> LevelsIn f levels ->
  OnAxes w ln la (length lon) (length lat) (length ts) levels sw ->
  exists v t nm, dget (snd p) k = Some v /\ va_loc v = loc /\ va_varname v = k /\ va_shape v = fm_shape w /\
    va_time v = TimeRead t nm /\ t_data t = ts /\ va_depth v = match levels with Some _ => DepthRead | None => DepthNone end.
Proof.
  intros dateutil cftime f ln la lon lat p k w sw loc ts levels R O I N1 N2 Pl In_ Lv Ox.
  destruct (placed_location ln la lon lat _ _ _ _ _ Pl Ox) as [HL _]. destruct Ox as (_ & Sh).
  destruct sw; eapply (rect_opened dateutil cftime f ln la lon lat R p O k w ts levels loc I N1 N2 HL In_ Lv _ _ Sh).
Qed.
Print Assumptions c104_variable.

Lemma rows_table {A B} (P : A -> B -> Prop) (y : list A) (h : nat -> B) : (forall j a, nth_error y j = Some a -> P a (h j)) -> Forall2 P y (map h (seq 0 (length y))).
Proof.
  revert h. induction y as [|a y IH]; intros h H; [constructor|]. cbn [length seq map]. constructor; [apply (H 0 a eq_refl)|].
  rewrite <- seq_shift, map_map. apply IH. intros j b Hj. exact (H (S j) b Hj).
Qed.

(** Data that samples a field, bilinear over the cells and linear between the
    instants and the levels: the answer is the field inside the axes and zero
    outside.  Missing: masked data (C109) and depths outside [DepthAsked]. *)
Theorem c104_answers_partial :
  forall dateutil cftime now f ln la lon lat p k w sw loc ts levels (F : quantity) q q' ex z pts,
  RectFile f ln la lon lat -> Monotone lon -> Monotone lat -> 2 <= length lon -> 2 <= length lat -> open_rect_dataset dateutil cftime f = Ok p ->
  In (k, w) (fi_vars f) -> k <> ln -> k <> la -> Placed w sw loc -> InstantsIn cftime f w ts -> LevelsIn f levels ->
  OnAxes w ln la (length lon) (length lat) (length ts) levels sw ->
  Changes (Some ts) levels F ->
  (forall ix t d, SampleAt (Some ts) levels ix t d -> RowsSample w ix sw lon lat (F t d) /\ BilinearOverCells lon lat (F t d)) ->
  TimeOk (Some ts) ex q q' -> (forall s, In s pts -> DepthOk levels default_sbc default_bbc (deep s) (z (deep s))) ->
  exists cs, ask_rect dateutil cftime now f k q ex pts = Ok cs /\
    Forall2 (fun s c => let inside := Spans lon (fst (place s)) /\ Spans lat (snd (place s)) in
      (inside -> Shows (F q' (z (deep s)) (place s)) c) /\ (~ inside -> Shows 0 c)) pts cs.
Proof.
  intros dateutil cftime now f ln la lon lat p k w sw loc ts levels F q q' ex z pts R M1 M2 L1 L2 O I N1 N2 Pl In_ Lv Ox Ch Sa TO DO.
  destruct (placed_location ln la lon lat _ _ _ _ _ Pl Ox) as [HL _].
  pose proof (on_axes_yx w ln la lon lat _ _ _ (proj2 (proj2 (axis_words _ _ _ _ _ R))) Ox) as Yx. destruct Ox as (Dm & Sh).
  set (g := rg_new lon lat (Some (la, ln))) in *.
  assert (Eo : Over sw (length lat) (length lon) = [length (fst (yx_axes g sw)); length (snd (yx_axes g sw))]) by (destruct sw; reflexivity).
  rewrite Eo in Sh.
  destruct (rect_asked dateutil cftime now f ln la lon lat R p O k w ts levels loc I N1 N2 HL In_ Lv _ _ Sh) as (t & Td & LO & E). fold g in E.
  subst ts. assert (Es : fm_shape w = shape_of (Some t) levels [length (fst (yx_axes g sw)); length (snd (yx_axes g sw))]) by exact Sh. rewrite Es in Yx.
  destruct (c94_rectangular_partial g (Some (fm_dims w)) sw (table_of w) (Some t) levels default_sbc default_bbc q q' ex F z pts) as (cs & Ec & V); auto.
  - intros ix u d HS. destruct (Sa ix u d HS) as [Rs B]. split; [|exact B].
    assert (El : nth (length ix) (fm_shape w) 0 = length (fst (yx_axes g sw))).
    { rewrite Es. destruct levels as [ls|]; cbn [SampleAt option_map] in HS.
      - destruct HS as (i & j & -> & _). reflexivity.
      - destruct HS as (i & -> & _). reflexivity. }
    unfold TableSamples, table_of. rewrite El. apply rows_table. intros j a Hj. specialize (Rs j a). destruct sw; apply Rs; exact Hj.
  - exists cs. split; [rewrite E; exact Ec|exact V].
Qed.
Print Assumptions c104_answers_partial.

(** A whole session with the variable, whose answers are cached. *)
Theorem c104_session_partial :
  forall dateutil cftime now f ln la lon lat p k w sw loc ts levels (F : quantity) qa ex z opts reqs,
  RectFile f ln la lon lat -> Monotone lon -> Monotone lat -> 2 <= length lon -> 2 <= length lat -> open_rect_dataset dateutil cftime f = Ok p ->
  In (k, w) (fi_vars f) -> k <> ln -> k <> la -> Placed w sw loc -> InstantsIn cftime f w ts -> LevelsIn f levels ->
  OnAxes w ln la (length lon) (length lat) (length ts) levels sw ->
  Changes (Some ts) levels F ->
  (forall ix t d, SampleAt (Some ts) levels ix t d -> RowsSample w ix sw lon lat (F t d) /\ BilinearOverCells lon lat (F t d)) ->
  Forall (fun r => uniform 3 opts r /\ TimeOk (Some ts) ex (rq_time r) (qa (rq_time r)) /\
    forall row, In row (rq_pts r) -> DepthOk levels default_sbc default_bbc (nth 2 row 0%Q) (z (nth 2 row 0%Q))) reqs ->
  Forall2 (fun r a => exists cs, a = Some (Ok cs) /\ Forall2 (fun row c => let x := nth 0 row 0%Q in let y := nth 1 row 0%Q in
      (Spans lon x /\ Spans lat y -> Shows (F (qa (rq_time r)) (z (nth 2 row 0%Q)) (x, y)) c) /\ (~ (Spans lon x /\ Spans lat y) -> Shows 0 c)) (rq_pts r) cs)
    reqs (snd (at_run (at_request (fun file q pts => ask_rect dateutil cftime now file k q ex pts)) (mkAt f []) (map Call reqs))).
Proof.
  intros dateutil cftime now f ln la lon lat p k w sw loc ts levels F qa ex z opts reqs R M1 M2 L1 L2 O I N1 N2 Pl In_ Lv Ox Ch Sa Rq.
  rewrite (at_run_transparent_fresh _ 3 opts f (map Call reqs)); [|lia|].
  2: { apply Forall_forall. intros o Ho. apply in_map_iff in Ho. destruct Ho as (r & <- & Hr). rewrite Forall_forall in Rq. apply Rq. auto. }
  induction Rq as [|r reqs (_ & TO & D) _ IH]; cbn [map at_ref]; constructor; auto.
  destruct (c104_answers_partial dateutil cftime now f ln la lon lat p k w sw loc ts levels F (rq_time r) (qa (rq_time r)) ex z (map spot_of (rq_pts r))) as (cs & E & V); auto.
  - intros s Hs. apply in_map_iff in Hs. destruct Hs as (row & <- & Hr). exact (D row Hr).
  - exists cs. split; [unfold at_request; f_equal; exact E|]. clear - V. revert cs V. induction (rq_pts r) as [|row rows IH]; intros cs V; inversion V; subst; constructor; auto.
Qed.
Print Assumptions c104_session_partial.

(** Data whose dimensions are not called like the variables of the axes: it is
    opened, and no question is ever answered. *)
Theorem c104_other_dimensions :
  forall dateutil cftime now f ln la lon lat p k w loc ts a b pre d1 d2, RectFile f ln la lon lat -> open_rect_dataset dateutil cftime f = Ok p ->
  In (k, w) (fi_vars f) -> k <> ln -> k <> la -> LocationOf (rect_api (fst p)) (to_load w) loc -> InstantsIn cftime f w ts ->
  fm_shape w = [length ts; a; b] -> fm_dims w = pre ++ [d1; d2] -> ~ (In d1 [ln; la] /\ In d2 [ln; la]) ->
  forall q ex pts, exists e, ask_rect dateutil cftime now f k q ex pts = Err e.
Proof.
  intros dateutil cftime now f ln la lon lat p k w loc ts a b pre d1 d2 R O I N1 N2 HL In_ Sh Dm Nd q ex pts.
  destruct (open_inv _ _ _ _ _ _ _ R p O) as (Ep & _). rewrite Ep in HL.
  destruct (rect_asked dateutil cftime now f ln la lon lat R p O k w ts None loc I N1 N2 HL In_ Logic.I a b Sh) as (t & Td & LO & E). rewrite E. clear E.
  assert (X : forall ix ps, rect_interp (rg_new lon lat (Some (la, ln))) (Some (fm_dims w)) (shape_of (Some t) None [a; b]) (table_of w) ix ps = Err ValueError).
  { intros ix ps. unfold rect_interp, rg_interpolate, lonlat_to_yx. cbn [rg_new rg_dims]. rewrite Dm, last2_app. cbn [forallb]. rewrite andb_true_r.
    assert (memb d1 (la, ln) && memb d2 (la, ln) = false) as ->; [|reflexivity].
    apply not_true_is_false. intros H. apply andb_true_iff in H. destruct H as [H1 H2]. unfold memb in H1, H2. cbn [fst snd] in H1, H2.
    rewrite orb_true_iff, !String.eqb_eq in H1, H2. apply Nd. cbn [In]. split; intuition. }
  assert (Y : forall sl ps, exists e, grid_xy (rect_interp (rg_new lon lat (Some (la, ln))) (Some (fm_dims w)) (shape_of (Some t) None [a; b]) (table_of w)) [length (t_data t)] ps sl = Err e).
  { intros sl ps. unfold grid_xy. destruct (resolve _ sl); cbn [bind]; [rewrite X|]; eauto. }
  change (exists e, time_interp t q ex (grid_xy (rect_interp (rg_new lon lat (Some (la, ln))) (Some (fm_dims w)) (shape_of (Some t) None [a; b]) (table_of w)) [length (t_data t)] pts) [] = Err e).
  unfold time_interp. destruct (min_time t); cbn [bind]; [|eauto]. destruct (_ || _); [apply Y|]. destruct (max_time t); cbn [bind]; [|eauto]. destruct (_ || _); [apply Y|].
  destruct (index_of t q false) as [ind|]; cbn [bind]; [|eauto]. destruct (Y ([] ++ [(Z.of_nat ind - 1)%Z]) pts) as (e & ->). cbn. eauto.
Qed.
Print Assumptions c104_other_dimensions.

(** ** Files *)
Definition c104_lon : list Q := [0; 1; 3; 4]%Q.
Definition c104_lat : list Q := [5; 2]%Q.
Definition c104_axis (d : string) (x : list Q) : mvar := mkMvar [d] [length x] [] None None None [] x [] (fun _ => []).
Definition c104_field : quantity := fun t z p => (inject_Z t / inject_Z hour + z * 3 + fst p * snd p)%Q.
Definition c104_data (sw : bool) (ix : list nat) : list cell :=
  match ix with
  | [i; j; k] =>
      let at_ x y := CVal (c104_field (nth i c102_times 0%Z) (nth j c94_levels 0%Q) (x, y)) in
      if sw then map (fun y => at_ (nth k c104_lon 0%Q) y) c104_lat else map (fun x => at_ x (nth k c104_lat 0%Q)) c104_lon
  | _ => []
  end.
Definition c104_temp (at_ : dict string) (sw : bool) : mvar :=
  c102_var (["time"; "depth"] ++ Over sw "lat" "lon") ([2; 3] ++ Over sw 2 4) at_ (c104_data sw).
Definition c104_file (at_ : dict string) (sw : bool) (more : dict mvar) : file := mkFile None ["lon"; "lat"; "time"; "depth"]
  ([("lon", c104_axis "lon" c104_lon); ("lat", c104_axis "lat" c104_lat); ("time", c102_time); ("depth", c102_depth); ("temp", c104_temp at_ sw)] ++ more).
Definition c104_now : time_obj := mkTime [0%Z] None None.

Lemma c104_rect at_ sw more : (more = [] \/ exists v, more = [("crs", v)] /\ dget (fm_attrs v) "cf_role" = None) -> dget at_ "cf_role" = None ->
  RectFile (c104_file at_ sw more) "lon" "lat" c104_lon c104_lat.
Proof.
  intros Hm Ha.
  assert (In_ : forall n v, In (n, v) (fi_vars (c104_file at_ sw more)) -> In n ["lon"; "lat"; "time"; "depth"; "temp"; "crs"] /\ dget (fm_attrs v) "cf_role" = None).
  { intros n v I. destruct Hm as [->|(u & -> & Hu)]; cbn [c104_file fi_vars app In] in I.
    - destruct I as [I|[I|[I|[I|[I|[]]]]]]; injection I as <- <-; cbn [In]; (split; [tauto|]); try reflexivity; exact Ha.
    - destruct I as [I|[I|[I|[I|[I|[I|[]]]]]]]; injection I as <- <-; cbn [In]; (split; [tauto|]); try reflexivity; assumption. }
  assert (Ce : forall a n, In a ["lon"; "lat"; "time"; "depth"; "temp"; "crs"] -> CaseEq a n -> lower n = a).
  { intros a n I C. apply GridTypeProofs.lower_eq in C. rewrite <- C. cbn [In] in I. destruct I as [<-|[<-|[<-|[<-|[<-|[<-|[]]]]]]]; reflexivity. }
  split; [|split; [|split; [|split; [|split]]]].
  - unfold UniqueNames. destruct Hm as [->|(u & -> & _)]; cbn [c104_file fi_vars app map fst]; distinct.
  - intros g H. discriminate H.
  - intros n v r I A. unfold Attr in A. destruct (In_ n v I) as [_ X]. congruence.
  - intros n Hn (a & v & I & C). destruct (In_ a v I) as [Ia _]. pose proof (Ce a n Ia C) as E. clear - Hn Ia E. cbn [In] in Hn, Ia.
    destruct Hn as [<-|[<-|[<-|[<-|[<-|[]]]]]]; cbn in E; subst a; repeat (destruct Ia as [Ia|Ia]; [discriminate Ia|]); destruct Ia.
  - exists [("node_lon", "node_lat")], [("lon_psi", "lat_psi"); ("longitude", "latitude")]. split; [reflexivity|]. split.
    + split; cbn [fst snd]; [exists "lon", (c104_axis "lon" c104_lon)|exists "lat", (c104_axis "lat" c104_lat)]; (split; [cbn [c104_file fi_vars app In]; auto|apply GridTypeProofs.lower_eq; reflexivity]).
    + intros y [<-|[]] ((a & v & I & C) & _). cbn [fst] in C. destruct (In_ a v I) as [Ia _]. pose proof (Ce a _ Ia C) as E. cbn in E. subst a. cbn [In] in Ia. repeat (destruct Ia as [Ia|Ia]; [discriminate Ia|]). destruct Ia.
  - exists (c104_axis "lon" c104_lon), (c104_axis "lat" c104_lat).
    split; [exists "lon"|split; [exists "lat"|repeat split]];
    (split; [cbn [c104_file fi_vars app In]; auto|split; [apply GridTypeProofs.lower_eq; reflexivity|]]);
    intros b u I C; destruct (In_ b u I) as [Ib _]; exact (eq_sym (Ce b _ Ib C)).
Qed.
Lemma c104_instants at_ sw more w : (exists r, fm_dims w = "time" :: r) -> dget (fm_attrs w) "time" = None -> InstantsIn demo_cftime (c104_file at_ sw more) w c102_times.
Proof.
  intros (r & Hr) Ha. destruct (c102_instants w ltac:(eauto) Ha) as (n & aw & Ax & Ia & K). exists "time", c102_time.
  split; [|split; [cbn [c104_file fi_vars app In]; tauto|]].
  - right. split; [intros m [A _]; cbn [to_load lv_attrs] in A; congruence|]. split; [exists r; exact Hr|]. exists "", "". reflexivity.
  - split; [|split].
    + exists "hours since 2024-01-01T00:00:00", hour, 0%Z, 0%Z. split; [reflexivity|]. split; [reflexivity|]. repeat constructor.
    + exists "hours since 2024-01-01T00:00:00". split; [reflexivity|]. exists "hours ", " 2024-01-01T00:00:00". reflexivity.
    + apply K.
Qed.
Lemma c104_levels at_ sw more : (more = [] \/ exists v, more = [("crs", v)] /\ fm_attrs v = []) -> dget at_ "long_name" = None -> dget at_ "standard_name" = None ->
  LevelsIn (c104_file at_ sw more) (Some c94_levels).
Proof.
  intros Hm A1 A2. split.
  - intros n v I.
    assert (Ok : n <> "h" /\ dget (fm_attrs v) "long_name" = None /\ dget (fm_attrs v) "standard_name" = None).
    { destruct Hm as [->|(u & -> & Hu)]; cbn [c104_file fi_vars app In] in I.
      - destruct I as [I|[I|[I|[I|[I|[]]]]]]; injection I as <- <-; (split; [discriminate|]); split; try reflexivity; assumption.
      - destruct I as [I|[I|[I|[I|[I|[I|[]]]]]]]; injection I as <- <-; (split; [discriminate|]); split; try reflexivity; try assumption; rewrite Hu; reflexivity. }
    destruct Ok as (Nh & K1 & K2). split; [exact Nh|]. intros a l [<-|[<-|[]]] A; unfold Attr in A; congruence.
  - destruct c102_levels_of as (_ & dv & _ & _). exists c102_depth.
    split; [exists "depth", [], ["depth_levels"; "Depth"]; split; [reflexivity|]; split; [cbn [c104_file fi_vars app In]; tauto|intros m []]|].
    split; [|split; [cbn; lia|split; [left; exact c102_ascending|]]].
    + split; [reflexivity|]. exists 0, 0%Q. split; [reflexivity|]. split; [reflexivity|]. intros [|[|[|[|i]]]] x H N; cbn in H; try congruence; try lia; injection H as <-; (split; reflexivity).
    + intros x [<-|[<-|[<-|[]]]]; discriminate.
Qed.
Lemma c104_on_axes at_ sw : OnAxes (c104_temp at_ sw) "lon" "lat" (length c104_lon) (length c104_lat) (length c102_times) (Some c94_levels) sw.
Proof. split; [exists ["time"; "depth"]; reflexivity|destruct sw; reflexivity]. Qed.
Lemma c104_sound at_ sw loc : Placed (c104_temp at_ sw) sw loc -> dget at_ "long_name" = None -> dget at_ "standard_name" = None -> dget at_ "time" = None ->
  Sound demo_cftime (c104_file at_ sw []) "lon" "lat" (length c104_lon) (length c104_lat).
Proof.
  intros Pl A1 A2 A3 k w I N1 N2. cbn [c104_file fi_vars app In] in I. destruct I as [I|[I|[I|[I|[I|[]]]]]]; injection I as <- <-; try congruence.
  - left. split; [reflexivity|]. exists 2, 2. split; [left; split; reflexivity|]. cbn. lia.
  - left. split; [reflexivity|]. exists 3, 3. split; [left; split; reflexivity|]. cbn. lia.
  - right. exists sw, loc, c102_times, (Some c94_levels). split; [exact Pl|]. split; [apply c104_instants; [eexists; reflexivity|exact A3]|].
    split; [apply c104_levels; auto|]. apply c104_on_axes.
Qed.
Lemma c104_ascending : Monotone c104_lon /\ Monotone c104_lat.
Proof.
  split; [left|right]; intros i j a b Hij Ha Hb; destruct i as [|[|[|[|i]]]], j as [|[|[|[|j]]]]; cbn in Ha, Hb; try discriminate; try lia;
    try (destruct i; discriminate); try (destruct j; discriminate); injection Ha as <-; injection Hb as <-; reflexivity.
Qed.
Definition c104_pts : list spot := [((2, 3), 5); ((1 # 2, 5), 15 # 2); ((5, 3), 0)]%Q.

(** The whole way, with the data in either order. *)
Example c104_example :
  forall sw : bool, let f := c104_file (if sw then [("location", "node")] else []) sw [] in
  exists p cs, open_rect_dataset demo_dateutil demo_cftime f = Ok p /\ rg_lon (re_grid (fst p)) = c104_lon /\ rg_lat (re_grid (fst p)) = c104_lat /\
    ask_rect demo_dateutil demo_cftime c104_now f "temp" (hour + 1800000000)%Z false c104_pts = Ok cs /\
    Forall2 (fun s c => let inside := Spans c104_lon (fst (place s)) /\ Spans c104_lat (snd (place s)) in
      (inside -> Shows (c104_field (hour + 1800000000)%Z (deep s) (place s)) c) /\ (~ inside -> Shows 0 c)) c104_pts cs.
Proof.
  intros sw f. set (at_ := (if sw then [("location", "node")] else []) : dict string) in f.
  assert (R : RectFile f "lon" "lat" c104_lon c104_lat) by (apply c104_rect; [left; reflexivity|destruct sw; reflexivity]).
  assert (Pl : Placed (c104_temp at_ sw) sw "node").
  { destruct sw; [left; split; [reflexivity|unfold ValidLocation; auto 10]|right; repeat split]. }
  destruct (c104_opens demo_dateutil demo_cftime f _ _ _ _ R) as (r & vs & O & E1 & E2).
  { apply (c104_sound at_ sw "node"); auto; destruct sw; reflexivity. }
  exists (r, vs).
  destruct (c104_answers_partial demo_dateutil demo_cftime c104_now f "lon" "lat" c104_lon c104_lat (r, vs) "temp" (c104_temp at_ sw) sw "node" c102_times (Some c94_levels) c104_field
    (hour + 1800000000)%Z (hour + 1800000000)%Z false (fun z => z) c104_pts) as (cs & E & V); auto; try apply c104_ascending; try (cbn; lia); try discriminate.
  - subst f. cbn [c104_file fi_vars app In]. tauto.
  - apply c104_instants; [eexists; reflexivity|destruct sw; reflexivity].
  - apply c104_levels; [left; reflexivity| |]; destruct sw; reflexivity.
  - apply c104_on_axes.
  - split; intros l _; intros; unfold c104_field.
    + intros k t0 t1 q _ _ _. unfold Qdiv. ring.
    + intros k a b s _ _ _ w ->. ring.
  - intros ix t d (i & j & -> & Hi & Hj). split.
    + apply nth_error_nth with (d := 0%Z) in Hi. apply nth_error_nth with (d := 0%Q) in Hj. intros n a Hn. cbn [app c104_temp c102_var fm_part c104_data].
      rewrite Hi, Hj. destruct sw; apply nth_error_nth with (d := 0%Q) in Hn; rewrite Hn; repeat constructor; (eexists; split; reflexivity).
    + intros p i1 i2 u u' j1 j2 v v' a a' b b' (xa & xb & X1 & X2 & _ & _ & _ & Su & Ep) (ya & yb & Y1 & Y2 & _ & _ & _ & Sv & Eq) Ha Ha' Hb Hb'.
      assert (xa = a) by congruence. assert (xb = a') by congruence. assert (ya = b) by congruence. assert (yb = b') by congruence. subst xa xb ya yb.
      unfold c104_field. cbn [fst snd]. assert (Eu' : (u' == 1 - u)%Q) by lra. assert (Ev' : (v' == 1 - v)%Q) by lra. rewrite Ep, Eq, Eu', Ev'. ring.
  - intros l H. injection H as <-. split; [|split; [discriminate|left; split; [|reflexivity]]].
    + destruct (c102_instants c102_temp ltac:(eexists; reflexivity) eq_refl) as (n & aw & _ & _ & _ & _ & X). exact X.
    + exists hour, (2 * hour)%Z. split; [reflexivity|]. split; [reflexivity|]. unfold hour. lia.
  - intros s Hs l H. injection H as <-. exists 0%Q, 10%Q. split; [reflexivity|split; [reflexivity|left]]. split; [exact c102_ascending|].
    destruct Hs as [<-|[<-|[<-|[]]]]; (split; [split; [discriminate|reflexivity]|reflexivity]).
  - exists cs. auto 10.
Qed.

(** ** What goes wrong on the way *)
(** The same file with one more variable, a single number as CF writes a
    coordinate reference system, does not open. *)
Theorem c104_scalar_refuted :
  exists f g v, (exists p, open_rect_dataset demo_dateutil demo_cftime f = Ok p) /\
  fi_vars g = fi_vars f ++ [("crs", v)] /\ fm_shape v = [] /\ RectFile g "lon" "lat" c104_lon c104_lat /\
  forall p, open_rect_dataset demo_dateutil demo_cftime g <> Ok p.
Proof.
  set (v := c102_var [] [] [] (fun _ => [])).
  exists (c104_file [] false []), (c104_file [] false [("crs", v)]), v.
  split; [eexists; vm_compute; reflexivity|]. split; [reflexivity|]. split; [reflexivity|].
  assert (R : RectFile (c104_file [] false [("crs", v)]) "lon" "lat" c104_lon c104_lat) by (apply c104_rect; [right; exists v; split; reflexivity|reflexivity]).
  split; [exact R|]. eapply c104_unopenable; [exact R|do 5 right; left; reflexivity|discriminate|discriminate|right; split; [reflexivity|left; reflexivity]].
Qed.
Print Assumptions c104_scalar_refuted.
(** An axis that is one longer than there are rows and as long as there are
    columns: here three levels over a grid of two by three. *)
Definition c104_lon3 : list Q := [0; 1; 3]%Q.
Definition c104_file3 : file := mkFile None ["lon"; "lat"; "time"; "depth"]
  [("lon", c104_axis "lon" c104_lon3); ("lat", c104_axis "lat" c104_lat); ("time", c102_time); ("depth", c102_depth);
   ("temp", c102_var ["time"; "depth"; "lat"; "lon"] [2; 3; 2; 3] [] (fun _ => [CVal 0; CVal 0; CVal 0]%Q))].
Theorem c104_axis_refuted :
  exists f, RectFile f "lon" "lat" c104_lon3 c104_lat /\ open_rect_dataset demo_dateutil demo_cftime f = Err AttributeError /\
  (forall k w, In (k, w) (fi_vars f) -> k = "temp" -> exists nt nz, fm_dims w = ["time"; "depth"; "lat"; "lon"] /\ fm_shape w = [nt; nz; length c104_lat; length c104_lon3]) /\
  exists w, In ("depth", w) (fi_vars f) /\ fm_dims w = ["depth"].
Proof.
  exists c104_file3. split; [|split; [vm_compute; reflexivity|split]].
  - destruct (c104_rect [] false [] (or_introl eq_refl) eq_refl) as (U & D & T & Fa & Fi & _).
    assert (Nm : map fst (fi_vars c104_file3) = map fst (fi_vars (c104_file [] false []))) by reflexivity.
    assert (Pr : forall n, Present c104_file3 n <-> Present (c104_file [] false []) n).
    { assert (K : forall g h n, map fst (fi_vars g) = map fst (fi_vars h) -> Present g n -> Present h n).
      { intros g h n E (a & v & I & C). assert (Ia : In a (map fst (fi_vars h))) by (rewrite <- E; apply in_map_iff; exists (a, v); auto).
        apply in_map_iff in Ia. destruct Ia as ([a' v'] & <- & Ia). exists a', v'. auto. }
      intros n. split; apply K; [exact Nm|symmetry; exact Nm]. }
    split; [exact U|]. split; [intros g H; discriminate H|]. split; [|split; [|split]].
    + intros n v r I. cbn [c104_file3 fi_vars In] in I. destruct I as [I|[I|[I|[I|[I|[]]]]]]; injection I as <- <-; intros A; discriminate A.
    + intros n Hn P. apply (Fa n Hn). apply Pr. exact P.
    + eapply first_ext; [|exact Fi]. intros y. cbn. rewrite !Pr. tauto.
    + exists (c104_axis "lon" c104_lon3), (c104_axis "lat" c104_lat).
      assert (Ce : forall a n, In a ["lon"; "lat"; "time"; "depth"; "temp"] -> CaseEq a n -> lower n = a).
      { intros a n I C. apply GridTypeProofs.lower_eq in C. rewrite <- C. cbn [In] in I. destruct I as [<-|[<-|[<-|[<-|[<-|[]]]]]]; reflexivity. }
      split; [exists "lon"|split; [exists "lat"|repeat split]];
      (split; [cbn [c104_file3 fi_vars In]; auto|split; [apply GridTypeProofs.lower_eq; reflexivity|]]);
      intros b u I C; (assert (Ib : In b ["lon"; "lat"; "time"; "depth"; "temp"]) by (change (In b (map fst (fi_vars c104_file3))); apply in_map_iff; exists (b, u); auto)); exact (eq_sym (Ce b _ Ib C)).
  - intros k w I ->. cbn [c104_file3 fi_vars In] in I. destruct I as [I|[I|[I|[I|[I|[]]]]]]; try discriminate I. injection I as <-. exists 2, 3. split; reflexivity.
  - exists c102_depth. split; [do 3 right; left; reflexivity|reflexivity].
Qed.
Print Assumptions c104_axis_refuted.
(** Data with rows by longitude is answered if it says that it is on the nodes
    (the example above); if it does not say so it is left out. *)
Theorem c104_by_longitude_refuted :
  exists f w p, In ("temp", w) (fi_vars f) /\ OnAxes w "lon" "lat" (length c104_lon) (length c104_lat) (length c102_times) (Some c94_levels) true /\
  RectFile f "lon" "lat" c104_lon c104_lat /\ open_rect_dataset demo_dateutil demo_cftime f = Ok p /\ dget (snd p) "temp" = None.
Proof.
  exists (c104_file [] true []), (c104_temp [] true). eexists. split; [do 4 right; left; reflexivity|]. split; [apply c104_on_axes|].
  split; [apply c104_rect; [left; reflexivity|reflexivity]|]. split; vm_compute; reflexivity.
Qed.
Print Assumptions c104_by_longitude_refuted.
(** Axes and dimensions in capitals: opened, never answered. *)
Definition c104_capitals : file := mkFile None ["LON"; "LAT"; "time"]
  [("LON", c104_axis "LON" c104_lon); ("LAT", c104_axis "LAT" c104_lat); ("time", c102_time);
   ("sst", c102_var ["time"; "LAT"; "LON"] [2; 2; 4] [] (fun _ => [CVal 0; CVal 0; CVal 0; CVal 0]%Q))].
Theorem c104_capitals_refuted :
  exists f p v, open_rect_dataset demo_dateutil demo_cftime f = Ok p /\ rg_lon (re_grid (fst p)) = c104_lon /\ rg_lat (re_grid (fst p)) = c104_lat /\ dget (snd p) "sst" = Some v /\
  (exists w x y, In ("sst", w) (fi_vars f) /\ In ("LON", x) (fi_vars f) /\ In ("LAT", y) (fi_vars f) /\ fm_dims w = "time" :: fm_dims y ++ fm_dims x) /\
  forall q ex pts, exists e, ask_rect demo_dateutil demo_cftime c104_now f "sst" q ex pts = Err e.
Proof.
  assert (O : exists p v, open_rect_dataset demo_dateutil demo_cftime c104_capitals = Ok p /\ rg_lon (re_grid (fst p)) = c104_lon /\ rg_lat (re_grid (fst p)) = c104_lat /\ dget (snd p) "sst" = Some v)
    by (do 2 eexists; split; [vm_compute; reflexivity|]; repeat split).
  destruct O as (p & v & O & E1 & E2 & G). exists c104_capitals, p, v. repeat (split; [assumption|]). split.
  - do 3 eexists. split; [do 3 right; left; reflexivity|]. split; [left; reflexivity|]. split; [right; left; reflexivity|]. reflexivity.
  - assert (R : RectFile c104_capitals "lon" "lat" c104_lon c104_lat).
    { assert (Ce : forall a n, In a ["LON"; "LAT"; "time"; "sst"] -> CaseEq a n -> lower n = lower a) by (intros a n _ C; apply GridTypeProofs.lower_eq in C; auto).
      assert (Nm : forall b u, In (b, u) (fi_vars c104_capitals) -> In b ["LON"; "LAT"; "time"; "sst"]) by (intros b u I; change (In b (map fst (fi_vars c104_capitals))); apply in_map_iff; exists (b, u); auto).
      split; [unfold UniqueNames; cbn [c104_capitals fi_vars map fst]; distinct|]. split; [intros g H; discriminate H|]. split; [|split; [|split]].
      - intros n w r I. cbn [c104_capitals fi_vars In] in I. destruct I as [I|[I|[I|[I|[]]]]]; injection I as <- <-; intros A; discriminate A.
      - intros n Hn (a & w & I & C). pose proof (Ce a n (Nm a w I) C) as E. pose proof (Nm a w I) as Ia. clear - Hn Ia E. cbn [In] in Hn, Ia.
        destruct Hn as [<-|[<-|[<-|[<-|[<-|[]]]]]]; destruct Ia as [<-|[<-|[<-|[<-|[]]]]]; discriminate E.
      - exists [("node_lon", "node_lat")], [("lon_psi", "lat_psi"); ("longitude", "latitude")]. split; [reflexivity|]. split.
        + split; cbn [fst snd]; [exists "LON", (c104_axis "LON" c104_lon)|exists "LAT", (c104_axis "LAT" c104_lat)]; (split; [cbn [c104_capitals fi_vars In]; auto|apply GridTypeProofs.lower_eq; reflexivity]).
        + intros y [<-|[]] ((a & w & I & C) & _). cbn [fst] in C. pose proof (Ce a _ (Nm a w I) C) as E. pose proof (Nm a w I) as Ia. cbn [In] in Ia. destruct Ia as [<-|[<-|[<-|[<-|[]]]]]; discriminate E.
      - exists (c104_axis "LON" c104_lon), (c104_axis "LAT" c104_lat).
        split; [exists "LON"|split; [exists "LAT"|repeat split]];
        (split; [cbn [c104_capitals fi_vars In]; auto|split; [apply GridTypeProofs.lower_eq; reflexivity|]]);
        intros b u I C; pose proof (Ce b _ (Nm b u I) C) as E; pose proof (Nm b u I) as Ib; cbn [In] in Ib; destruct Ib as [<-|[<-|[<-|[<-|[]]]]]; try reflexivity; discriminate E. }
    refine (c104_other_dimensions demo_dateutil demo_cftime c104_now c104_capitals "lon" "lat" c104_lon c104_lat p "sst" _ "node" c102_times 2 4 ["time"] "LAT" "LON" R O _ _ _ _ _ _ _ _).
    + do 3 right. left. reflexivity.
    + discriminate.
    + discriminate.
    + destruct (open_inv _ _ _ _ _ _ _ R p O) as (-> & _). right. split; [intros l H; discriminate H|vm_compute; reflexivity].
    + destruct (c102_instants c102_temp ltac:(eexists; reflexivity) eq_refl) as (n & aw & _ & _ & _ & _ & X). exists "time", c102_time.
      split; [right; split; [intros m [A _]; discriminate A|split; [eexists; reflexivity|exists "", ""; reflexivity]]|]. split; [do 2 right; left; reflexivity|]. split; [|split; [|exact X]].
      * exists "hours since 2024-01-01T00:00:00", hour, 0%Z, 0%Z. split; [reflexivity|]. split; [reflexivity|]. repeat constructor.
      * exists "hours since 2024-01-01T00:00:00". split; [reflexivity|]. exists "hours ", " 2024-01-01T00:00:00". reflexivity.
    + reflexivity.
    + reflexivity.
    + intros [[H|[H|[]]] _]; discriminate H.
Qed.
Print Assumptions c104_capitals_refuted.
