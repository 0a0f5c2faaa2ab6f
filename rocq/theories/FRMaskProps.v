(** C115 for variables in files of ROMS. *)
From Coq Require Import Reals String Lra.
From Verif Require Import Common CommonProofs TimeModel TimeSpec VariableSpec GridTypeModel GridTypeSpec GridTypeProofs MaskModel MaskSpec VariableModel DepthModel DepthSpec SGridModel SGridSpec
  TFileModel TFileSpec TFileProps LoadModel LoadSpec LoadProofs SLoadModel VLoadModel SGridInterpModel SGridInterpSpec SGridInterpProps FMeshModel FMeshSpec FMeshProofs FMeshProps FRectSpec FRectProofs WholeSpec WholeProofs WholeProps
  SWholeModel SWholeSpec SWholeProofs SWholeProps RTerrModel RTerrSpec RTerrProofs RTerrProps FStagModel FStagSpec FStagRead FStagProofs FStagProps FRomsModel FRomsSpec FRomsProofs FRomsProps
  SMaskSpec SMaskProofs SMaskProps RMaskProps.
Open Scope string_scope.
Open Scope list_scope.
Open Scope nat_scope.

(** On the layers, at any of the points. *)
Theorem c115_roms_layers_partial :
  forall dateutil cftime now find s y g rho sf p k w a b loc ts n place_of col expct d q q' ex pts sit H hm z,
  let nr := a_r (sf_nums s (p_x (y_nodes y))) in let nc := a_c (sf_nums s (p_x (y_nodes y))) in
  RomsFile (sf_file s) y nr nc g rho sf -> MaskSized s y -> open_roms_dataset dateutil cftime now s = Ok p -> In (k, w) (fi_vars (sf_file s)) -> ~ In k (grid_words y) ->
  SitsAt nr nc y w a b loc -> InstantsIn cftime (sf_file s) w ts -> fm_shape w = [length ts; n - 1; a; b] -> (forall nt, sf = Some nt -> nt = length ts) ->
  SameShape (st_grid (fst p)) -> Answers (st_grid (fst p)) (center_size s y) loc a b col expct -> Finds (st_grid (fst p)) find place_of (map fst pts) ->
  Stores (sf_data s k) (Some ts) (Some (n - 1)) a b d -> TimeOk (Some ts) ex q q' ->
  SigmaSized g n -> BedIn s rho nr nc H hm -> SurfaceOver s rho ts nr nc q' place_of sf z ->
  (forall x, In x pts -> Column g (fun x => node_expected (snap nr nc H hm) (fst x, place_of (fst x))) z x (sit x)) ->
  exists cs, ask_roms dateutil cftime now find s k q ex pts = Ok cs /\
  Forall2 (fun x c => match sit x with
    | Between j _ => OverTime (Some ts) ex q (fun u => expct (d u j) (fst x, place_of (fst x))) c
    | _ => c = RMask
    end) pts cs.
Proof.
  intros dateutil cftime now find s y g rho sf p k w a b loc ts n place_of col expct d q q' ex pts sit H hm z nr nc F M O I NG Si In_ Sh Hn SS An Fi Ho TO Sg Bd Su Co.
  destruct (roms_sits dateutil cftime now s y g rho sf F M p O loc a b col expct An) as (Ep & St). rewrite Ep in *.
  destruct (roms_asked dateutil cftime now s y g rho sf F p O k w I NG a b loc Si ts [n - 1] In_ Sh find (n - 1) eq_refl Hn) as (tm & Td & E). rewrite E.
  pose proof (columns s y g rho sf F place_of ts tm q q' ex n pts sit H hm z Td Sg Bd Su TO Co) as Cs. subst ts.
  apply (c115_terrain_layers_partial (st_grid (stag_of s y)) find place_of (terr_of s g rho sf tm) loc a b col expct (sf_data s k) (Some tm) n d q q' ex BExtrapolate DepthModel.BMask pts sit SS St Fi Ho TO Cs).
  intros x Ix Eb. destruct (Co x Ix) as (prof & _ & _ & Se). rewrite Eb in Se. inversion Se. discriminate.
Qed.
Print Assumptions c115_roms_layers_partial.
(** On the levels, at points other than the centers. *)
Theorem c115_roms_levels_partial :
  forall dateutil cftime now find s y g rho sf p k w a b loc ts n place_of expct d q q' ex pts sit H hm z,
  let nr := a_r (sf_nums s (p_x (y_nodes y))) in let nc := a_c (sf_nums s (p_x (y_nodes y))) in
  RomsFile (sf_file s) y nr nc g rho sf -> MaskSized s y -> open_roms_dataset dateutil cftime now s = Ok p -> In (k, w) (fi_vars (sf_file s)) -> ~ In k (grid_words y) ->
  SitsAt nr nc y w a b loc -> InstantsIn cftime (sf_file s) w ts -> fm_shape w = [length ts; n; a; b] -> (forall nt, sf = Some nt -> nt = length ts) ->
  SameShape (st_grid (fst p)) -> Answers (st_grid (fst p)) (center_size s y) loc a b false expct -> Finds (st_grid (fst p)) find place_of (map fst pts) ->
  Stores (sf_data s k) (Some ts) (Some n) a b d -> TimeOk (Some ts) ex q q' ->
  SigmaSized g n -> BedIn s rho nr nc H hm -> SurfaceOver s rho ts nr nc q' place_of sf z ->
  (forall x, In x pts -> Column g (fun x => node_expected (snap nr nc H hm) (fst x, place_of (fst x))) z x (sit x)) ->
  exists cs, ask_roms dateutil cftime now find s k q ex pts = Ok cs /\
  Forall2 (fun x c => exists e, (forall u, AtSeat n (sit x) (fun j => expct (d u j) (fst x, place_of (fst x))) (e u)) /\ OverTime (Some ts) ex q e c) pts cs.
Proof.
  intros dateutil cftime now find s y g rho sf p k w a b loc ts n place_of expct d q q' ex pts sit H hm z nr nc F M O I NG Si In_ Sh Hn SS An Fi Ho TO Sg Bd Su Co.
  destruct (roms_sits dateutil cftime now s y g rho sf F M p O loc a b false expct An) as (Ep & St). rewrite Ep in *.
  destruct (roms_asked dateutil cftime now s y g rho sf F p O k w I NG a b loc Si ts [n] In_ Sh find n eq_refl Hn) as (tm & Td & E). rewrite E.
  pose proof (columns s y g rho sf F place_of ts tm q q' ex n pts sit H hm z Td Sg Bd Su TO Co) as Cs. subst ts.
  exact (c115_terrain_partial (st_grid (stag_of s y)) find place_of (terr_of s g rho sf tm) loc a b expct (sf_data s k) (Some tm) n d q q' ex BExtrapolate DepthModel.BMask pts sit SS St Fi Ho TO Cs).
Qed.
Print Assumptions c115_roms_levels_partial.
(** At any of the points, one point at a time. *)
Theorem c115_roms_one_point_partial :
  forall dateutil cftime now find s y g rho sf p k w a b loc ts n place_of col expct d q q' ex x at_ H hm z,
  let nr := a_r (sf_nums s (p_x (y_nodes y))) in let nc := a_c (sf_nums s (p_x (y_nodes y))) in
  RomsFile (sf_file s) y nr nc g rho sf -> MaskSized s y -> open_roms_dataset dateutil cftime now s = Ok p -> In (k, w) (fi_vars (sf_file s)) -> ~ In k (grid_words y) ->
  SitsAt nr nc y w a b loc -> InstantsIn cftime (sf_file s) w ts -> fm_shape w = [length ts; n; a; b] -> (forall nt, sf = Some nt -> nt = length ts) ->
  SameShape (st_grid (fst p)) -> Answers (st_grid (fst p)) (center_size s y) loc a b col expct -> Finds (st_grid (fst p)) find place_of [fst x] ->
  Stores (sf_data s k) (Some ts) (Some n) a b d -> TimeOk (Some ts) ex q q' ->
  SigmaSized g n -> BedIn s rho nr nc H hm -> SurfaceOver s rho ts nr nc q' place_of sf z ->
  Column g (fun x => node_expected (snap nr nc H hm) (fst x, place_of (fst x))) z x at_ ->
  exists c e, ask_roms dateutil cftime now find s k q ex [x] = Ok [c] /\
  (forall u, AtSeat n at_ (fun j => expct (d u j) (fst x, place_of (fst x))) (e u)) /\ OverTime (Some ts) ex q e c.
Proof.
  intros dateutil cftime now find s y g rho sf p k w a b loc ts n place_of col expct d q q' ex x at_ H hm z nr nc F M O I NG Si In_ Sh Hn SS An Fi Ho TO Sg Bd Su Co.
  destruct (roms_sits dateutil cftime now s y g rho sf F M p O loc a b col expct An) as (Ep & St). rewrite Ep in *.
  destruct (roms_asked dateutil cftime now s y g rho sf F p O k w I NG a b loc Si ts [n] In_ Sh find n eq_refl Hn) as (tm & Td & E). rewrite E.
  assert (Cs : Columns (st_grid (stag_of s y)) (terr_of s g rho sf tm) place_of q ex n BExtrapolate DepthModel.BMask [x] (fun _ => at_)).
  { refine (columns s y g rho sf F place_of ts tm q q' ex n [x] (fun _ => at_) H hm z Td Sg Bd Su TO _). intros x' [<-|[]]. exact Co. }
  subst ts.
  exact (c115_terrain_one_point_partial (st_grid (stag_of s y)) find place_of (terr_of s g rho sf tm) loc a b col expct (sf_data s k) (Some tm) n d q q' ex BExtrapolate DepthModel.BMask x (fun _ => at_) SS St Fi Ho TO Cs).
Qed.
Print Assumptions c115_roms_one_point_partial.

(** ** Example: the file of C106 with the lower layer of the second sample missing;
    the first point is in that layer. *)
Definition c115_roms_layer (t : Z) (j : nat) : arr rd := mkArr 4 4 (fun i _ => mkRd (7 * INR j + INR i + 1)%R (Z.eqb t (2 * hour) && Nat.eqb j 0)).
Definition c115_roms_data (n : string) : nvar :=
  if String.eqb n "temp" then mkNvar [2; 2] (fun ix => c115_roms_layer (nth (nth 0 ix 0) c102_times 0%Z) (nth 1 ix 0)) else c106_data n.
Definition c115_roms_s : sfile := mkSfile c106_roms (c105_nums c105_sizes) (fun _ => (MPlain, mkArr 4 4 (fun _ _ => mkM 1 false))) c115_roms_data.
Lemma c115_half (e : Z -> rcell) c : OverTime (Some c102_times) false c106_time e c -> Blend (e hour) (e (2 * hour)%Z) ((IZR c106_time - IZR hour) / (IZR (2 * hour) - IZR hour)) c.
Proof.
  intros [(u & A & _)|(t0 & t1 & (k & H0 & H1 & _) & Bl)].
  - exfalso. destruct A as [(X & _)|[(X & C)|(X & C)]]; [discriminate|injection X as <-; destruct C as [C|(C & _)]; discriminate..].
  - destruct k as [|[|k]]; [|discriminate H1|destruct k; discriminate H0].
    assert (E0 : t0 = hour) by (injection H0 as X; symmetry; exact X). assert (E1 : t1 = (2 * hour)%Z) by (injection H1 as X; symmetry; exact X). subst t0 t1. exact Bl.
Qed.
Lemma c115_roms_surface q : SurfaceOver c115_roms_s true c102_times 3 3 q c98_place (Some 2) (fun x => node_expected (snap 3 3 (fun _ _ => IZR q / IZR hour)%R (fun _ _ => false)) (fst x, c98_place (fst x))).
Proof.
  refine (MovingOver c115_roms_s true c102_times 3 3 q c98_place (fun t _ _ => IZR t / IZR hour)%R (fun _ _ => false) 2 _).
  exists (fun t _ _ => IZR t / IZR hour)%R, (fun _ _ => false). split; [|split; [|reflexivity]].
  - split; [reflexivity|]. split.
    + intros ix u j (i & -> & Hi). split; [reflexivity|]. split; [reflexivity|]. intros r c. split; [reflexivity|]. intros _. cbn [c115_roms_s sf_data c115_roms_data c106_data String.eqb nv_at a_at d_val nth].
      destruct i as [|[|i]]; [injection Hi as <-; reflexivity|injection Hi as <-; reflexivity|destruct i; discriminate].
    + intros l r c k E _. injection E as <-. intros i t0 t1 u _ _ _. unfold Rdiv. ring.
  - intros t i j. unfold mean4. field. unfold hour. Lra.lra.
Qed.
Example c115_roms_example :
  ask_roms demo_dateutil demo_cftime c105_now c98_find c115_roms_s "temp" c106_time false c106_pts = Ok [RMask; RMask; RVal 10%R].
Proof.
  destruct (c106_opens demo_dateutil demo_cftime c105_now c115_roms_s c105_layout c106_sigma true (Some 2) c106_file_ok c106_sound) as (t & vs & O & _).
  assert (Ep : fst (t, vs) = stag_of c115_roms_s c105_layout) by apply (roms_open_inv demo_dateutil demo_cftime c105_now c115_roms_s c105_layout (t, vs) c106_stag O).
  destruct (c115_roms_layers_partial demo_dateutil demo_cftime c105_now c98_find c115_roms_s c105_layout c106_sigma true (Some 2) (t, vs) "temp" (c106_temp 2) 4 4 "center" c102_times 3 c98_place true (fun var => center_expected var (PadBoth, PadBoth))
    c115_roms_layer c106_time c106_time false c106_pts c106_sit (fun i _ => 98 + 4 * INR i)%R (fun _ _ => false) c106_surface_at) as (cs & E & F); auto.
  - exact c106_file_ok.
  - intros c m Hc Hm. injection Hc as <-. injection Hm as <-. split; reflexivity.
  - do 16 right. left. reflexivity.
  - apply (c106_not_grid "temp"); [reflexivity|cbn; tauto].
  - exact (c106_temp_sits 2).
  - apply c106_instants; [exact c106_time_in|eexists; reflexivity|reflexivity].
  - intros nt E. injection E as <-. reflexivity.
  - rewrite Ep. split; reflexivity.
  - rewrite Ep. exact (AtRho (st_grid (stag_of c115_roms_s c105_layout)) (center_size c115_roms_s c105_layout) eq_refl).
  - rewrite Ep. exact c98_found.
  - split; [reflexivity|]. intros ix u j (i & -> & Hi & Hj). cbn [c115_roms_s sf_data c115_roms_data String.eqb Ascii.eqb nv_at nth].
    destruct i as [|[|i]]; [injection Hi as <-; repeat split|injection Hi as <-; repeat split|destruct i; discriminate].
  - exact c105_time_ok.
  - exact c106_sized.
  - exact c106_bed.
  - exact (c115_roms_surface c106_time).
  - exact c106_columns.
  - rewrite E. f_equal. unfold c106_pts in F. inversion F as [|? c1 ? r1 G1 F3]; subst. inversion F3 as [|? c2 ? r2 G2 F4]; subst. inversion F4 as [|? c3 ? r3 G3 F5]; subst. inversion F5; subst.
    clear F F3 F4 F5 E O. unfold c106_sit in G1, G2, G3. rewrite c106_at1 in G1. rewrite c106_at2 in G2. rewrite c106_at3 in G3. apply c115_half in G1, G3.
    assert (E1 : c1 = RMask) by (destruct G1 as [(_ & X)|(v1 & v2 & _ & X & _)]; [exact X|discriminate X]).
    assert (E3 : c3 = RVal 10%R).
    { destruct G3 as [([X|X] & _)|(v1 & v2 & X1 & X2 & ->)]; [discriminate X|discriminate X|].
      assert (V1 : v1 = 10%R) by (injection X1 as <-; cbn; Lra.lra). assert (V2 : v2 = 10%R) by (injection X2 as <-; cbn; Lra.lra). rewrite V1, V2. f_equal. ring. }
    rewrite E1, G2, E3. reflexivity.
Qed.
