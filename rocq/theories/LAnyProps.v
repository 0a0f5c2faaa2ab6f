(** C94, C102, C104 and C109 for data on layers at any depth, where the levels are
    listed downwards. *)
From Coq Require Import String Lqa.
From Verif Require Import Common CommonProofs TimeModel TimeSpec TimeProofs GridTypeModel GridTypeSpec MaskModel MaskSpec MaskProofs VariableModel VariableSpec VariableProofs DepthModel DepthSpec DepthProofs
  UGridGeomModel UGridGeomSpec UGridGeomProofs UGridLocProofs UGridInterpProofs RGridModel RGridSpec RGridProofs TFileModel TFileSpec TFileProps LoadModel LoadSpec LoadProofs VLoadModel UFileModel UFileSpec WholeModel WholeSpec WholeProofs WholeProps
  FMeshModel FMeshSpec FMeshProofs FMeshProps FRectModel FRectSpec FRectProofs FRectProps WMaskSpec WMaskProofs WMaskProps SWholeSpec AnyDepthSpec LayerSpec LayerProofs LayerProps LFileProps LAboveProps LAnyProofs.
Open Scope string_scope.
Open Scope list_scope.
Open Scope nat_scope.

(** NaN above the first level, masked from the last level down, as [P] says in the
    layer between. *)
Definition AnyLayer (ls : list Q) (z : Q) (j : nat) (P : cell -> Prop) (c : cell) : Prop :=
  (forall a, First ls a -> (z < a)%Q -> c = CNaN) /\ (forall b, Last ls b -> (b <= z)%Q -> c = CMasked) /\ (InLayer ls z j -> P c).
(** [lay] names the layer of the points that are in one. *)
Definition Names (ls : list Q) (lay : spot -> nat) : Prop := forall s j, InLayer ls (deep s) j -> lay s = j.

Lemma some_layer ls a b z : Ascending ls -> 2 <= length ls -> First ls a -> Last ls b -> (a <= z < b)%Q -> exists j, InLayer ls z j.
Proof.
  intros A N Ha Hb B. destruct (l_point_asc ls BMask BMask z A N) as (r & _ & R). destruct (R a b Ha Hb) as (_ & _ & R3). destruct (R3 B) as (i & al & _ & (x & y & Hx & Hy & Ba & Ez) & L1).
  exists i, x, y. split; [exact Hx|split; [exact Hy|left]]. split; [exact A|]. pose proof (A i (S i) x y ltac:(lia) Hx Hy). split; nra.
Qed.
Lemma any_lift g interp leaf time ls rest q q' ex pts lay (P : spot -> cell -> Prop) :
  let ask sbc := at_grid interp (order_of (some time) true g) (layer_shape time ls rest) time (Some (l_view deep ls (Some (length ls)) sbc BMask)) q ex pts in
  TimeOk (option_map t_data time) ex q q' -> 2 <= length ls -> Ascending ls -> Names ls lay ->
  (forall ix u j, SlotAt (option_map t_data time) (Some (length ls - 1)) ix u j -> forall ps, interp ix ps = Ok (map (leaf ix) ps)) ->
  ((forall s, In s pts -> Layered ls BMask BMask (deep s) (lay s)) -> exists v0, ask BMask = Ok v0 /\ Forall2 (fun s => AtLayer ls BMask BMask (deep s) (lay s) (P s)) pts v0) ->
  exists v, ask BExtrapolate = Ok v /\ Forall2 (fun s => AnyLayer ls (deep s) (lay s) (P s)) pts v.
Proof.
  intros ask T N A Na HI H. destruct (ends_exist ls N) as (a & b & Ha & Hb). unfold First, Last in *. destruct H as (v0 & E0 & F).
  { intros s _. destruct (Qlt_le_dec (deep s) a) as [X|X]; [right; exists a, b; repeat split; auto|]. destruct (Qlt_le_dec (deep s) b) as [Y|Y]; [|right; exists a, b; repeat split; auto].
    left. destruct (some_layer ls a b (deep s) A N Ha Hb (conj X Y)) as (j & I). now rewrite (Na s j I). }
  destruct (composed_above g interp leaf time ls rest q q' ex a pts T N A Ha HI v0 E0) as (v & E & L0 & L & K). exists v. split; [exact E|].
  apply TerrProofs.forall2_nth; [exact L|]. intros k s Hs. destruct (K k s Hs) as [K1 K2].
  assert (G : exists c0, nth_error v0 k = Some c0 /\ AtLayer ls BMask BMask (deep s) (lay s) (P s) c0).
  { clear - F Hs. revert k Hs. induction F as [|x y l m R _ IH]; intros [|k] Hs; try discriminate; cbn in *; [injection Hs as <-; eauto|auto]. }
  destruct G as (c0 & Hc & G1 & G2). pose proof (A 0 (length ls - 1) a b ltac:(lia) Ha Hb) as AB. destruct (Qlt_le_dec (deep s) a) as [X|X].
  - exists CNaN. split; [now apply K1|]. split; [reflexivity|]. split.
    + intros b' Hb' Y. unfold Last in *. rewrite Hb in Hb'. injection Hb' as <-. lra.
    + intros I. exfalso. eapply (layer_not ls BMask BMask); eauto. exists a, b. repeat split; auto.
  - exists c0. split; [rewrite K2; [exact Hc|now apply Qle_not_lt]|]. split; [|split; [|exact G2]].
    + intros a' Ha' Y. unfold First in *. rewrite Ha in Ha'. injection Ha' as <-. lra.
    + intros b' Hb' Y. unfold Last in *. rewrite Hb in Hb'. injection Hb' as <-. apply G1. exists a, b. repeat split; auto.
Qed.

(** Node data on meshes, default boundary conditions, points at any depth. *)
Theorem c94_mesh_nodes_layers_any_depth_partial :
  forall tree hist nodes faces find data time ls q q' ex (f : Z -> nat -> point -> Q) lay pts,
  (forall ps, tree nodes faces ps = map find ps) -> (forall ix ps, Forall asks (hist ix ps)) ->
  TriMesh nodes faces -> FindsFaces nodes faces find ->
  TimeOk (option_map t_data time) ex q q' -> 2 <= length ls -> Ascending ls -> Names ls lay ->
  LayersChange (option_map t_data time) f ->
  (forall ix t j, SlotAt (option_map t_data time) (Some (length ls - 1)) ix t j -> NodeSamples nodes (f t j) (data ix) /\ LinearOverFaces nodes faces (f t j)) ->
  exists vs, at_grid (mesh_interp tree hist nodes faces VNode data) (order_of (some time) true GOther) (layer_shape time ls [length nodes]) time
      (Some (l_view deep ls (Some (length ls)) default_sbc default_bbc)) q ex pts = Ok vs /\
    Forall2 (fun s => AnyLayer ls (deep s) (lay s) (fun c => (find (place s) <> (-1)%Z -> Shows (f q' (lay s) (place s)) c) /\ (find (place s) = (-1)%Z -> Shows 0 c))) pts vs.
Proof.
  intros tree hist nodes faces find data time ls q q' ex f lay pts HT HH M FF T N A Na Ch S.
  apply (any_lift GOther (mesh_interp tree hist nodes faces VNode data) (fun ix => node_leaf nodes faces find (data ix)) time ls [length nodes] q q' ex pts lay
    (fun s c => (find (place s) <> (-1)%Z -> Shows (f q' (lay s) (place s)) c) /\ (find (place s) = (-1)%Z -> Shows 0 c)) T N A Na).
  - intros ix t j HS. destruct (S ix t j HS) as [NS L]. destruct (samples_numbers _ _ _ NS) as [Nu Ln]. intros. now apply mesh_nodes.
  - intros D. exact (c94_mesh_nodes_layers_partial tree hist nodes faces find data time ls BMask BMask q q' ex f lay pts HT HH M FF T N (or_introl A) D Ch S).
Qed.
Print Assumptions c94_mesh_nodes_layers_any_depth_partial.

(** Data over longitude and latitude axes. *)
Theorem c94_rectangular_layers_any_depth_partial :
  forall g dims sw vals time ls q q' ex (f : Z -> nat -> point -> Q) lay pts,
  let y := fst (yx_axes g sw) in let x := snd (yx_axes g sw) in let shape := layer_shape time ls [length y; length x] in
  lonlat_to_yx g dims shape = Ok sw -> Monotone (rg_lon g) -> Monotone (rg_lat g) -> 2 <= length (rg_lon g) -> 2 <= length (rg_lat g) ->
  TimeOk (option_map t_data time) ex q q' -> 2 <= length ls -> Ascending ls -> Names ls lay ->
  LayersChange (option_map t_data time) f ->
  (forall ix t j, SlotAt (option_map t_data time) (Some (length ls - 1)) ix t j ->
     TableSamples y x (fun a b => f t j (if sw then (a, b) else (b, a))) (vals ix) /\ BilinearOverCells (rg_lon g) (rg_lat g) (f t j)) ->
  exists vs, at_grid (rect_interp g dims shape vals) (order_of (some time) true GStructured) shape time (Some (l_view deep ls (Some (length ls)) default_sbc default_bbc)) q ex pts = Ok vs /\
    Forall2 (fun s => AnyLayer ls (deep s) (lay s) (fun c => let inside := Spans (rg_lon g) (fst (place s)) /\ Spans (rg_lat g) (snd (place s)) in
       (inside -> Shows (f q' (lay s) (place s)) c) /\ (~ inside -> Shows 0 c))) pts vs.
Proof.
  intros g dims sw vals time ls q q' ex f lay pts y x shape HO M1 M2 N1 N2 T N A Na Ch S.
  apply (any_lift GStructured (rect_interp g dims shape vals) (fun ix => rect_leaf g sw (vals ix)) time ls [length y; length x] q q' ex pts lay
    (fun s c => let inside := Spans (rg_lon g) (fst (place s)) /\ Spans (rg_lat g) (snd (place s)) in (inside -> Shows (f q' (lay s) (place s)) c) /\ (~ inside -> Shows 0 c)) T N A Na).
  - intros ix t j HS. destruct (S ix t j HS) as [TS B]. intros. apply rect_all; auto. eapply table_shape; eauto.
  - intros D. exact (c94_rectangular_layers_partial g dims sw vals time ls BMask BMask q q' ex f lay pts HO M1 M2 N1 N2 T N (or_introl A) D Ch S).
Qed.
Print Assumptions c94_rectangular_layers_any_depth_partial.

(** Face data with missing values. *)
Theorem c109_mesh_faces_layers_any_depth_partial :
  forall tree hist nodes faces find data time ls q q' ex (f : Z -> nat -> nat -> Q) (m : Z -> nat -> nat -> bool) lay pts,
  (forall ps, tree nodes faces ps = map find ps) -> (forall ix ps, Forall asks (hist ix ps)) ->
  faces <> [] -> FindsFaces nodes faces find ->
  TimeOk (option_map t_data time) ex q q' -> 2 <= length ls -> Ascending ls -> Names ls lay ->
  LayersChange (option_map t_data time) f ->
  (forall ix t j, SlotAt (option_map t_data time) (Some (length ls - 1)) ix t j -> MaskedSamples (length faces) (m t j) (f t j) (data ix)) ->
  exists vs, at_grid (mesh_interp tree hist nodes faces VFace data) (order_of (some time) true GOther) (layer_shape time ls [length faces]) time
      (Some (l_view deep ls (Some (length ls)) default_sbc default_bbc)) q ex pts = Ok vs /\
    Forall2 (fun s => AnyLayer ls (deep s) (lay s) (fun r => forall k, FaceAsked (length faces) (find (place s)) k ->
      let missing := exists u, UsesTime (option_map t_data time) ex q q' u /\ m u (lay s) k = true in
      (find (place s) <> (-1)%Z -> Sees missing (f q' (lay s) k) r) /\ (find (place s) = (-1)%Z -> Sees missing 0 r))) pts vs.
Proof.
  intros tree hist nodes faces find data time ls q q' ex f m lay pts HT HH Ne FF T N A Na Ch S.
  apply (any_lift GOther (mesh_interp tree hist nodes faces VFace data) (fun ix => face_leaf find (data ix)) time ls [length faces] q q' ex pts lay
    (fun s r => forall k, FaceAsked (length faces) (find (place s)) k ->
      let missing := exists u, UsesTime (option_map t_data time) ex q q' u /\ m u (lay s) k = true in
      (find (place s) <> (-1)%Z -> Sees missing (f q' (lay s) k) r) /\ (find (place s) = (-1)%Z -> Sees missing 0 r)) T N A Na).
  - intros ix u j HS ps. exact (mesh_face_masked tree hist nodes faces find HT HH data _ _ ix ps Ne FF (S ix u j HS)).
  - intros D. exact (c109_mesh_faces_layers_partial tree hist nodes faces find data time ls BMask BMask q q' ex f m lay pts HT HH Ne FF T N (or_introl A) D Ch S).
Qed.
Print Assumptions c109_mesh_faces_layers_any_depth_partial.

(** Files with a mesh. *)
Theorem c102_layers_any_depth_nodes_partial :
  forall dateutil cftime now tree hist f m vs mv nodes faces find k w ts ls (F : Z -> nat -> point -> Q) q q' ex lay pts,
  UniqueNames f -> MeshVarOf f mv -> NodesIn f mv nodes -> FacesIn f mv faces -> TriMesh nodes faces ->
  open_dataset dateutil cftime f = Ok (m, vs) ->
  (forall ps, tree nodes faces ps = map find ps) -> (forall ix ps, Forall asks (hist ix ps)) -> FindsFaces nodes faces find ->
  In (k, w) (fi_vars f) -> Unmentioned mv k -> Attr w "location" "node" ->
  InstantsIn cftime f w ts -> LevelsIn f (Some ls) -> fm_shape w = [length ts; length ls - 1; length nodes] ->
  LayersChange (Some ts) F ->
  (forall ix t j, SlotAt (Some ts) (Some (length ls - 1)) ix t j -> NodeSamples nodes (F t j) (fm_part w ix) /\ LinearOverFaces nodes faces (F t j)) ->
  TimeOk (Some ts) ex q q' -> Ascending ls -> Names ls lay ->
  exists cs, ask_file dateutil cftime now tree hist f k q ex pts = Ok cs /\
    Forall2 (fun s => AnyLayer ls (deep s) (lay s) (fun c =>
      (find (place s) <> (-1)%Z -> Shows (F q' (lay s) (place s)) c) /\ (find (place s) = (-1)%Z -> Shows 0 c))) pts cs.
Proof.
  intros dateutil cftime now tree hist f m vs mv nodes faces find k w ts ls F q q' ex lay pts U MV NI FI T O HT HH FF I Un Lo In_ Lv Sh Ch Sa TO A Na.
  destruct (mesh_layers_asked dateutil cftime now tree hist f m vs mv nodes faces k "node" w ts ls (length nodes) U MV NI FI T O I Un Lo ltac:(unfold ValidLocation; auto 10) In_ Lv Sh)
    as (t & Td & L2 & Mo & E).
  rewrite E. subst ts.
  exact (c94_mesh_nodes_layers_any_depth_partial tree hist nodes faces find (fm_part w) (Some t) ls q q' ex F lay pts HT HH T FF TO L2 A Na Ch Sa).
Qed.
Print Assumptions c102_layers_any_depth_nodes_partial.
Theorem c109_file_layers_any_depth_faces_partial :
  forall dateutil cftime now tree hist f m vs mv nodes faces find k w ts ls (F : Z -> nat -> nat -> Q) (M : Z -> nat -> nat -> bool) q q' ex lay pts,
  UniqueNames f -> MeshVarOf f mv -> NodesIn f mv nodes -> FacesIn f mv faces -> TriMesh nodes faces ->
  open_dataset dateutil cftime f = Ok (m, vs) ->
  (forall ps, tree nodes faces ps = map find ps) -> (forall ix ps, Forall asks (hist ix ps)) -> FindsFaces nodes faces find ->
  In (k, w) (fi_vars f) -> Unmentioned mv k -> Attr w "location" "face" ->
  InstantsIn cftime f w ts -> LevelsIn f (Some ls) -> fm_shape w = [length ts; length ls - 1; length faces] ->
  LayersChange (Some ts) F ->
  (forall ix t j, SlotAt (Some ts) (Some (length ls - 1)) ix t j -> MaskedSamples (length faces) (M t j) (F t j) (fm_part w ix)) ->
  TimeOk (Some ts) ex q q' -> Ascending ls -> Names ls lay ->
  exists cs, ask_file dateutil cftime now tree hist f k q ex pts = Ok cs /\
    Forall2 (fun s => AnyLayer ls (deep s) (lay s) (fun r => forall j, FaceAsked (length faces) (find (place s)) j ->
      let missing := exists u, UsesTime (Some ts) ex q q' u /\ M u (lay s) j = true in
      (find (place s) <> (-1)%Z -> Sees missing (F q' (lay s) j) r) /\ (find (place s) = (-1)%Z -> Sees missing 0 r))) pts cs.
Proof.
  intros dateutil cftime now tree hist f m vs mv nodes faces find k w ts ls F M q q' ex lay pts U MV NI FI T O HT HH FF I Un Lo In_ Lv Sh Ch Sa TO A Na.
  destruct (mesh_layers_asked dateutil cftime now tree hist f m vs mv nodes faces k "face" w ts ls (length faces) U MV NI FI T O I Un Lo ltac:(unfold ValidLocation; auto 10) In_ Lv Sh)
    as (t & Td & L2 & Mo & E).
  rewrite E. subst ts.
  exact (c109_mesh_faces_layers_any_depth_partial tree hist nodes faces find (fm_part w) (Some t) ls q q' ex F M lay pts HT HH ltac:(apply T) FF TO L2 A Na Ch Sa).
Qed.
Print Assumptions c109_file_layers_any_depth_faces_partial.

(** Files with a rectangular grid. *)
Theorem c104_layers_any_depth_partial :
  forall dateutil cftime now f ln la lon lat p k w sw loc ts ls (F : Z -> nat -> point -> Q) q q' ex lay pts,
  RectFile f ln la lon lat -> Monotone lon -> Monotone lat -> 2 <= length lon -> 2 <= length lat -> open_rect_dataset dateutil cftime f = Ok p ->
  In (k, w) (fi_vars f) -> k <> ln -> k <> la -> Placed w sw loc -> InstantsIn cftime f w ts -> LevelsIn f (Some ls) ->
  OnAxes w ln la (length lon) (length lat) (length ts) (Some (skipn 1 ls)) sw ->
  LayersChange (Some ts) F ->
  (forall ix t j, SlotAt (Some ts) (Some (length ls - 1)) ix t j -> RowsSample w ix sw lon lat (F t j) /\ BilinearOverCells lon lat (F t j)) ->
  TimeOk (Some ts) ex q q' -> Ascending ls -> Names ls lay ->
  exists cs, ask_rect dateutil cftime now f k q ex pts = Ok cs /\
    Forall2 (fun s => AnyLayer ls (deep s) (lay s) (fun c => let inside := Spans lon (fst (place s)) /\ Spans lat (snd (place s)) in
      (inside -> Shows (F q' (lay s) (place s)) c) /\ (~ inside -> Shows 0 c))) pts cs.
Proof.
  intros dateutil cftime now f ln la lon lat p k w sw loc ts ls F q q' ex lay pts R M1 M2 L1 L2 O I N1 N2 Pl In_ Lv Ox Ch Sa TO A Na.
  destruct (placed_location ln la lon lat _ _ _ _ _ Pl Ox) as [HL _].
  pose proof (on_axes_yx w ln la lon lat _ _ _ (proj2 (proj2 (axis_words _ _ _ _ _ R))) Ox) as Yx. destruct Ox as (Dm & Sh).
  set (g := rg_new lon lat (Some (la, ln))) in *.
  assert (Eo : Over sw (length lat) (length lon) = [length (fst (yx_axes g sw)); length (snd (yx_axes g sw))]) by (destruct sw; reflexivity).
  rewrite Eo, skipn_length in Sh. cbn [app] in Sh.
  destruct (rect_layers_asked dateutil cftime now f ln la lon lat p k w ts ls loc _ _ R O I N1 N2 HL In_ Lv Sh) as (t & Td & N & Mo & E). fold g in E.
  subst ts. assert (Es : fm_shape w = layer_shape (Some t) ls [length (fst (yx_axes g sw)); length (snd (yx_axes g sw))]) by exact Sh. rewrite Es in Yx.
  destruct (c94_rectangular_layers_any_depth_partial g (Some (fm_dims w)) sw (FRectModel.table_of w) (Some t) ls q q' ex F lay pts) as (cs & Ec & V); auto.
  - intros ix u d HS. destruct (Sa ix u d HS) as [Rs B]. split; [|exact B].
    assert (El : nth (length ix) (fm_shape w) 0 = length (fst (yx_axes g sw))) by (rewrite Es; destruct HS as (i & -> & _); reflexivity).
    unfold TableSamples, FRectModel.table_of. rewrite El. apply rows_table. intros j a Hj. specialize (Rs j a). destruct sw; apply Rs; exact Hj.
  - exists cs. split; [rewrite E; exact Ec|]. exact V.
Qed.
Print Assumptions c104_layers_any_depth_partial.

(** A question with points above the surface, in both layers and below the bottom. *)
Definition la_pts : list spot := ((1 # 4, 1 # 4), -1)%Q :: lf_pts.
Lemma la_names : Names c94_levels ly_lay.
Proof.
  intros s j (x & y & Hx & Hy & [(_ & B)|(D & _)]); [|exact (False_ind _ (AnyDepthProofs.asc_desc c94_levels ltac:(cbn; lia) ly_ascending D))]. unfold ly_lay.
  destruct j as [|[|j]]; cbn in Hx, Hy; [| |destruct j; discriminate Hy]; injection Hx as <-; injection Hy as <-.
  - now rewrite (proj2 (Qlt_bool_iff _ _) (proj2 B)).
  - now rewrite (proj2 (Qlt_bool_false _ _) (proj1 B)).
Qed.
Example c102_layers_any_depth_example :
  (exists a b c d, c102_ask (lf_file c94_levels) "dens" lf_half false la_pts = Ok [CNaN; CVal a; CVal b; CVal c; CVal d; CMasked]) /\
  exists cs, c102_ask (lf_file c94_levels) "dens" lf_half false la_pts = Ok cs /\
    Forall2 (fun s => AnyLayer c94_levels (deep s) (ly_lay s) (fun c =>
      (c94_find (place s) <> (-1)%Z -> Shows (lf_dens_field lf_half (ly_lay s) (place s)) c) /\ (c94_find (place s) = (-1)%Z -> Shows 0 c))) la_pts cs.
Proof.
  split; [do 4 eexists; vm_compute; reflexivity|]. destruct (lf_open c94_levels (or_introl eq_refl)) as ([m vs] & O).
  apply (c102_layers_any_depth_nodes_partial demo_dateutil demo_cftime (mkTime [0%Z] None None) c94_tree (fun _ _ => []) (lf_file c94_levels) m vs c102_mesh_var c94_nodes c94_faces c94_find "dens" lf_dens
    c102_times c94_levels lf_dens_field lf_half lf_half false ly_lay la_pts (lf_unique _) (lf_mesh_of _) (lf_nodes_of _) (lf_faces_of _) c94_mesh O).
  - reflexivity.
  - intros. constructor.
  - exact c94_finds.
  - do 7 right. left. reflexivity.
  - apply c102_unmentioned. cbn [In]. intros H. repeat (destruct H as [H|H]; [discriminate H|]). exact H.
  - reflexivity.
  - apply lf_instants; [eexists; reflexivity|reflexivity].
  - exact lf_levels_of.
  - reflexivity.
  - intros l _ j p i t0 t1 u _ _ _. unfold lf_dens_field, Qdiv. ring.
  - intros ix t j HS. split; [exact (lf_dens_samples ix t j HS)|].
    intros a b c A B C _ _ _ _. exists (inject_Z t / inject_Z hour + inject_Z (Z.of_nat j) * 10)%Q, 1%Q, (-2)%Q. intros p _. unfold lf_dens_field. ring.
  - exact lf_time.
  - exact ly_ascending.
  - exact la_names.
Qed.
Example c104_layers_any_depth_example :
  exists a, ask_rect demo_dateutil demo_cftime c104_now lr_file "crs" lf_half false [((2, 3), 2); ((2, 3), -1); ((2, 3), 20)]%Q = Ok [CVal a; CNaN; CMasked].
Proof. eexists. vm_compute. reflexivity. Qed.
