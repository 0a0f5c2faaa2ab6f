(** C94, C102, C104 and C109 at any depth. *)
From Coq Require Import String Lqa.
From Verif Require Import Common CommonProofs TimeModel TimeSpec TimeProofs GridTypeModel GridTypeSpec MaskModel MaskSpec MaskProofs VariableModel VariableSpec VariableProofs DepthModel DepthSpec DepthProofs
  UGridGeomModel UGridGeomSpec UGridGeomProofs UGridLocProofs UGridInterpProofs RGridModel RGridSpec RGridProofs TFileModel TFileSpec TFileProps LoadModel LoadSpec LoadProofs VLoadModel UFileModel UFileSpec WholeModel WholeSpec WholeProofs WholeProps
  FMeshModel FMeshSpec FMeshProofs FMeshProps FRectModel FRectSpec FRectProofs FRectProps FStagSpec FRomsModel FRomsSpec FFvcomModel FFvcomSpec FFvcomRead FFvcomProofs FFvcomProps WMaskSpec WMaskProofs WMaskProps FMaskProps AnyDepthSpec AnyDepthProofs.
Open Scope string_scope.
Open Scope list_scope.
Open Scope nat_scope.

(** Node data on a triangle mesh, at any depth.  Missing: depths at or beyond
    the level listed last, where answers are not masked. *)
Theorem c94_any_depth_nodes_partial :
  forall tree hist nodes faces find data time levels sbc bbc q q' ex (f : quantity) pts,
  (forall ps, tree nodes faces ps = map find ps) -> (forall ix ps, Forall asks (hist ix ps)) ->
  TriMesh nodes faces -> FindsFaces nodes faces find ->
  TimeOk (option_map t_data time) ex q q' -> LevelsOk levels ->
  (forall s, In s pts -> Answerable levels sbc bbc (deep s)) ->
  Changes (option_map t_data time) levels f ->
  (forall ix t d, SampleAt (option_map t_data time) levels ix t d -> NodeSamples nodes (f t d) (data ix) /\ LinearOverFaces nodes faces (f t d)) ->
  exists vs, at_grid (mesh_interp tree hist nodes faces VNode data) (order_of (some time) (some levels) GOther) (shape_of time levels [length nodes]) time
      (option_map (fun ls => l_view deep ls (Some (length ls)) sbc bbc) levels) q ex pts = Ok vs /\
    Forall2 (fun s => AtAnyDepth levels sbc bbc (deep s) (fun z c =>
      (find (place s) <> (-1)%Z -> Shows (f q' z (place s)) c) /\ (find (place s) = (-1)%Z -> Shows 0 c))) pts vs.
Proof.
  intros tree hist nodes faces find data time levels sbc bbc q q' ex f pts HT HH M FF T D' D Ch S.
  destruct (whole_any GOther (mesh_interp tree hist nodes faces VNode data) (fun ix => node_leaf nodes faces find (data ix)) time levels sbc bbc [length nodes] q q' ex
    (fun t d s => if (find (place s) =? -1)%Z then 0%Q else f t d (place s)) pts T D' D (changes_if _ _ _ _ _ Ch)) as (vs & E & V).
  - intros ix t d HS. destruct (S ix t d HS) as [NS L]. destruct (samples_numbers _ _ _ NS) as [N Ln]. split; intros; [now apply mesh_nodes|now apply node_shows].
  - exists vs. split; [exact E|]. revert V. apply Forall2_impl'. intros s c. apply any_impl. clear c. intros z c H. destruct (Z.eqb_spec (find (place s)) (-1)); split; intros; tauto.
Qed.
Print Assumptions c94_any_depth_nodes_partial.

(** Face data. *)
Theorem c94_any_depth_faces_partial :
  forall tree hist nodes faces find data time levels sbc bbc q q' ex (f : Z -> Q -> nat -> Q) pts,
  (forall ps, tree nodes faces ps = map find ps) -> (forall ix ps, Forall asks (hist ix ps)) ->
  faces <> [] -> FindsFaces nodes faces find ->
  TimeOk (option_map t_data time) ex q q' -> LevelsOk levels ->
  (forall s, In s pts -> Answerable levels sbc bbc (deep s)) ->
  Changes (option_map t_data time) levels f ->
  (forall ix t d, SampleAt (option_map t_data time) levels ix t d ->
     length (data ix) = length faces /\ forall k c, nth_error (data ix) k = Some c -> Shows (f t d k) c) ->
  exists vs, at_grid (mesh_interp tree hist nodes faces VFace data) (order_of (some time) (some levels) GOther) (shape_of time levels [length faces]) time
      (option_map (fun ls => l_view deep ls (Some (length ls)) sbc bbc) levels) q ex pts = Ok vs /\
    Forall2 (fun s => AtAnyDepth levels sbc bbc (deep s) (fun z c =>
      (forall k, find (place s) = Z.of_nat k -> Shows (f q' z k) c) /\ (find (place s) = (-1)%Z -> Shows 0 c))) pts vs.
Proof.
  intros tree hist nodes faces find data time levels sbc bbc q q' ex f pts HT HH Ne FF T D' D Ch S.
  destruct (whole_any GOther (mesh_interp tree hist nodes faces VFace data) (fun ix => face_leaf find (data ix)) time levels sbc bbc [length faces] q q' ex
    (fun t d s => if (find (place s) =? -1)%Z then 0%Q else f t d (Z.to_nat (find (place s)))) pts T D' D
    (changes_if _ _ (fun s => (find (place s) =? -1)%Z) _ (fun s => Z.to_nat (find (place s))) Ch)) as (vs & E & V).
  - intros ix t d HS. destruct (S ix t d HS) as [L H].
    assert (Nd : data ix <> []) by (intros X; rewrite X in L; destruct faces; [congruence|discriminate]).
    assert (N : UGridGeomSpec.Numbers (data ix)). { apply Forall_forall. intros c Hc. apply In_nth_error in Hc. destruct Hc as [k Hk]. destruct (H k c Hk) as (v & -> & _). eauto. }
    split; intros; [apply mesh_faces; auto; intros p; rewrite L; eapply finds_good; eauto|eapply face_shows; eauto].
  - exists vs. split; [exact E|]. revert V. apply Forall2_impl'. intros s c. apply any_impl. clear c. intros z c H. destruct (Z.eqb_spec (find (place s)) (-1)) as [X|X].
    + split; intros; [lia|assumption].
    + split; intros; [|congruence]. rewrite H0, Nat2Z.id in H. exact H.
Qed.
Print Assumptions c94_any_depth_faces_partial.

(** Data over two axes. *)
Theorem c94_any_depth_rectangular_partial :
  forall g dims sw vals time levels sbc bbc q q' ex (f : quantity) pts,
  let y := fst (yx_axes g sw) in let x := snd (yx_axes g sw) in let shape := shape_of time levels [length y; length x] in
  lonlat_to_yx g dims shape = Ok sw -> Monotone (rg_lon g) -> Monotone (rg_lat g) -> 2 <= length (rg_lon g) -> 2 <= length (rg_lat g) ->
  TimeOk (option_map t_data time) ex q q' -> LevelsOk levels ->
  (forall s, In s pts -> Answerable levels sbc bbc (deep s)) ->
  Changes (option_map t_data time) levels f ->
  (forall ix t d, SampleAt (option_map t_data time) levels ix t d ->
     TableSamples y x (fun a b => f t d (if sw then (a, b) else (b, a))) (vals ix) /\ BilinearOverCells (rg_lon g) (rg_lat g) (f t d)) ->
  exists vs, at_grid (rect_interp g dims shape vals) (order_of (some time) (some levels) GStructured) shape time
      (option_map (fun ls => l_view deep ls (Some (length ls)) sbc bbc) levels) q ex pts = Ok vs /\
    Forall2 (fun s => AtAnyDepth levels sbc bbc (deep s) (fun z c => let inside := Spans (rg_lon g) (fst (place s)) /\ Spans (rg_lat g) (snd (place s)) in
       (inside -> Shows (f q' z (place s)) c) /\ (~ inside -> Shows 0 c))) pts vs.
Proof.
  intros g dims sw vals time levels sbc bbc q q' ex f pts y x shape HO M1 M2 N1 N2 T D' D Ch S.
  destruct (whole_any GStructured (rect_interp g dims shape vals) (fun ix => rect_leaf g sw (vals ix)) time levels sbc bbc [length y; length x] q q' ex
    (fun t d s => if negb (within (rg_lon g) (fst (place s)) && within (rg_lat g) (snd (place s))) then 0%Q else f t d (place s)) pts T D' D
    (changes_if _ _ (fun s => negb (within (rg_lon g) (fst (place s)) && within (rg_lat g) (snd (place s)))) f place Ch)) as (vs & E & V).
  - intros ix t d HS. destruct (S ix t d HS) as [TS B]. split; intros.
    + apply rect_all; auto. eapply table_shape; eauto.
    + pose proof (rect_shows g dims shape vals sw HO M1 M2 N1 N2 (vals ix) (f t d) s TS B) as H. destruct (_ && _); exact H.
  - exists vs. split; [exact E|]. revert V. apply Forall2_impl'. intros s c. apply any_impl. clear c. intros z c H. cbv zeta. rewrite <- !within_spec, <- andb_true_iff by auto.
    destruct (_ && _); cbn [negb] in H; split; intros; tauto || congruence.
Qed.
Print Assumptions c94_any_depth_rectangular_partial.

(** Missing values, at any depth: node data, where the three nodes of the
    triangles asked for are missing together. *)
Theorem c109_any_depth_nodes_partial :
  forall tree hist nodes faces find data time levels sbc bbc q q' ex (f : quantity) (m : Z -> Q -> nat -> bool) pts,
  (forall ps, tree nodes faces ps = map find ps) -> (forall ix ps, Forall asks (hist ix ps)) ->
  TriMesh nodes faces -> FindsFaces nodes faces find ->
  TimeOk (option_map t_data time) ex q q' -> LevelsOk levels ->
  (forall s, In s pts -> Answerable levels sbc bbc (deep s)) ->
  Changes (option_map t_data time) levels f ->
  (forall ix t d, SampleAt (option_map t_data time) levels ix t d ->
     MaskedSamples (length nodes) (m t d) (FieldAt nodes (f t d)) (data ix) /\ LinearOverFaces nodes faces (f t d) /\
     forall s k a b c, In s pts -> FaceAsked (length faces) (find (place s)) k -> nth_error faces k = Some [Z.of_nat a; Z.of_nat b; Z.of_nat c] ->
       m t d b = m t d a /\ m t d c = m t d a) ->
  exists vs, at_grid (mesh_interp tree hist nodes faces VNode data) (order_of (some time) (some levels) GOther) (shape_of time levels [length nodes]) time
      (option_map (fun ls => l_view deep ls (Some (length ls)) sbc bbc) levels) q ex pts = Ok vs /\
    Forall2 (fun s r => exists k a b c, FaceAsked (length faces) (find (place s)) k /\ nth_error faces k = Some [Z.of_nat a; Z.of_nat b; Z.of_nat c] /\
      AtAnyDepth levels sbc bbc (deep s) (fun z r => let missing := Missing (option_map t_data time) levels ex q q' (deep s) z (fun u d => m u d a) in
      (find (place s) <> (-1)%Z -> Sees missing (f q' z (place s)) r) /\ (find (place s) = (-1)%Z -> Sees missing 0 r)) r) pts vs.
Proof.
  intros tree hist nodes faces find data time levels sbc bbc q q' ex f m pts HT HH M FF T L D Ch S.
  (* the first corner *)
  assert (exists cor : spot -> nat * nat * nat, forall s, let '(a, b, c) := cor s in corners_of faces find s a b c) as (cor & HC).
  { exists (fun s => let k := if (find (place s) =? -1)%Z then length faces - 1 else Z.to_nat (find (place s)) in
      match nth k faces [] with [a; b; c] => (Z.to_nat a, Z.to_nat b, Z.to_nat c) | _ => (0, 0, 0) end).
    intros s. destruct (corners_exist nodes faces find s M FF) as (a & b & c & A & B & C & Co & _).
    destruct Co as (k & Fk & Hf). cbv zeta.
    assert ((if (find (place s) =? -1)%Z then length faces - 1 else Z.to_nat (find (place s))) = k) as ->.
    { destruct Fk as [-> | [-> ->]]; [destruct (Z.eqb_spec (Z.of_nat k) (-1)); [lia|now rewrite Nat2Z.id]|reflexivity]. }
    rewrite (nth_error_nth _ _ [] Hf), !Nat2Z.id. exists k. auto. }
  destruct (composed_any GOther (mesh_interp tree hist nodes faces VNode data) (fun ix => node_leaf nodes faces find (data ix)) time levels sbc bbc [length nodes] q q' ex
    (fun u d s => m u d (fst (fst (cor s)))) (fun t d s => if (find (place s) =? -1)%Z then 0%Q else f t d (place s)) pts T L D (changes_if _ _ _ _ _ Ch)) as (vs & E & V).
  - intros ix u d HS ps. destruct (S ix u d HS) as (MS & _). exact (mesh_masked tree hist nodes faces find HT HH data _ _ ix ps M FF MS).
  - intros ix u d s HS Hs. destruct (S ix u d HS) as (MS & Li & Un). specialize (HC s). destruct (cor s) as [[a b] c]. cbn [fst].
    destruct (corners_exist nodes faces find s M FF) as (a' & b' & c' & A & B & C & Co & HA & HB & HCn & X). destruct (corners_unique _ _ _ _ _ _ _ _ _ HC Co) as (-> & -> & ->).
    destruct (node_sees nodes faces find s (data ix) _ _ a' b' c' A B C HC HA HB HCn X MS) as (al & x & v & w & _ & _ & HCo & Sn).
    destruct HC as (k & Fk & Hf).
    apply (sees_iff (m u d a' && m u d a' && m u d a' = true)); [destruct (m u d a'); tauto|]. destruct (Un s k a' b' c' Hs Fk Hf) as (Eb & Ec). rewrite Eb, Ec in Sn.
    destruct (Z.eqb_spec (find (place s)) (-1)) as [H|H]; [exact Sn|].
    destruct Sn as [Sn|[Nm Sn]]; [now left|right]. split; [exact Nm|]. eapply shows_eq; [exact Sn|].
    destruct (m u d a'); [exfalso; apply Nm; reflexivity|]. cbn [kept]. unfold FieldAt. rewrite HA, HB, HCn.
    destruct (FF (place s)) as [|(k' & a2 & b2 & c2 & A2 & B2 & C2 & Ek & Hk & HA2 & HB2 & HC2 & In3)]; [congruence|].
    assert (k' = k) as -> by (destruct Fk as [Fk|[Fk _]]; lia). rewrite Hf in Hk. injection Hk as Ea Eb2 Ec2. apply Nat2Z.inj in Ea, Eb2, Ec2. subst a2 b2 c2.
    assert (A2 = A) by congruence. assert (B2 = B) by congruence. assert (C2 = C) by congruence. subst A2 B2 C2.
    symmetry. exact (linear_combination nodes faces (f u d) (place s) a' b' c' A B C x v w Li (nth_error_In _ _ Hf) HA HB HCn In3 HCo).
  - exists vs. split; [exact E|]. revert V. apply Forall2_impl'. intros s r H. unfold any_sees in H. specialize (HC s). destruct (cor s) as [[a b] c]. cbn [fst] in H. destruct HC as (k & Fk & Hf).
    exists k, a, b, c. split; [exact Fk|split; [exact Hf|]]. revert H. unfold any_sees. apply any_impl. cbn [fst]. clear r. intros z r H. cbv zeta. destruct (Z.eqb_spec (find (place s)) (-1)); split; intros; tauto || congruence.
Qed.
Print Assumptions c109_any_depth_nodes_partial.

(** Face data. *)
Theorem c109_any_depth_faces_partial :
  forall tree hist nodes faces find data time levels sbc bbc q q' ex (f : Z -> Q -> nat -> Q) (m : Z -> Q -> nat -> bool) pts,
  (forall ps, tree nodes faces ps = map find ps) -> (forall ix ps, Forall asks (hist ix ps)) ->
  faces <> [] -> FindsFaces nodes faces find ->
  TimeOk (option_map t_data time) ex q q' -> LevelsOk levels ->
  (forall s, In s pts -> Answerable levels sbc bbc (deep s)) ->
  Changes (option_map t_data time) levels f ->
  (forall ix t d, SampleAt (option_map t_data time) levels ix t d -> MaskedSamples (length faces) (m t d) (f t d) (data ix)) ->
  exists vs, at_grid (mesh_interp tree hist nodes faces VFace data) (order_of (some time) (some levels) GOther) (shape_of time levels [length faces]) time
      (option_map (fun ls => l_view deep ls (Some (length ls)) sbc bbc) levels) q ex pts = Ok vs /\
    Forall2 (fun s r => forall k, FaceAsked (length faces) (find (place s)) k ->
      AtAnyDepth levels sbc bbc (deep s) (fun z r => let missing := Missing (option_map t_data time) levels ex q q' (deep s) z (fun u d => m u d k) in
      (find (place s) <> (-1)%Z -> Sees missing (f q' z k) r) /\ (find (place s) = (-1)%Z -> Sees missing 0 r)) r) pts vs.
Proof.
  intros tree hist nodes faces find data time levels sbc bbc q q' ex f m pts HT HH Ne FF T L D Ch S.
  set (num := fun s => if (find (place s) =? -1)%Z then length faces - 1 else Z.to_nat (find (place s))).
  assert (Nu : forall s k, FaceAsked (length faces) (find (place s)) k -> num s = k).
  { intros s k Fk. unfold num. destruct Fk as [-> | [-> ->]]; [destruct (Z.eqb_spec (Z.of_nat k) (-1)); [lia|now rewrite Nat2Z.id]|reflexivity]. }
  destruct (composed_any GOther (mesh_interp tree hist nodes faces VFace data) (fun ix => face_leaf find (data ix)) time levels sbc bbc [length faces] q q' ex
    (fun u d s => m u d (num s)) (fun t d s => if (find (place s) =? -1)%Z then 0%Q else f t d (num s)) pts T L D (changes_if _ _ (fun s => (find (place s) =? -1)%Z) _ num Ch)) as (vs & E & V).
  - intros ix u d HS ps. exact (mesh_face_masked tree hist nodes faces find HT HH data _ _ ix ps Ne FF (S ix u d HS)).
  - intros ix u d s HS Hs. destruct (face_asked nodes faces find s Ne FF) as (k & Fk & Lk). rewrite (Nu s k Fk). apply (face_sees faces find s (data ix) _ _ k Fk Lk (S ix u d HS)).
  - exists vs. split; [exact E|]. revert V. apply Forall2_impl'. intros s r H k Fk. revert H. unfold any_sees. rewrite (Nu s k Fk). apply any_impl. clear r. intros z r H. cbv zeta.
    destruct (Z.eqb_spec (find (place s)) (-1)); split; intros; tauto || congruence.
Qed.
Print Assumptions c109_any_depth_faces_partial.

(** A file with a mesh and levels listed downwards, asked at any depth: above
    the first level, the field at that level; from the last level down, masked. *)
Theorem c102_any_depth_nodes_partial :
  forall dateutil cftime now tree hist f m vs mv nodes faces find k w ts levels (F : quantity) q q' ex pts,
  UniqueNames f -> MeshVarOf f mv -> NodesIn f mv nodes -> FacesIn f mv faces -> TriMesh nodes faces ->
  open_dataset dateutil cftime f = Ok (m, vs) ->
  (forall ps, tree nodes faces ps = map find ps) -> (forall ix ps, Forall asks (hist ix ps)) -> FindsFaces nodes faces find ->
  In (k, w) (fi_vars f) -> Unmentioned mv k -> Attr w "location" "node" ->
  InstantsIn cftime f w ts -> LevelsIn f levels -> Shaped w (length ts) levels (length nodes) ->
  Changes (Some ts) levels F ->
  (forall ix t d, SampleAt (Some ts) levels ix t d -> NodeSamples nodes (F t d) (fm_part w ix) /\ LinearOverFaces nodes faces (F t d)) ->
  TimeOk (Some ts) ex q q' -> Downwards levels ->
  exists cs, ask_file dateutil cftime now tree hist f k q ex pts = Ok cs /\
    Forall2 (fun s => InWater levels (deep s) (fun z c =>
      (find (place s) <> (-1)%Z -> Shows (F q' z (place s)) c) /\ (find (place s) = (-1)%Z -> Shows 0 c))) pts cs.
Proof.
  intros dateutil cftime now tree hist f m vs mv nodes faces find k w ts levels F q q' ex pts U MV NI FI T O HT HH FF I Un Lo In_ Lv Sh Ch Sa TO DO.
  destruct (opened_answer dateutil cftime now tree hist f m vs mv nodes faces U MV NI FI T O k "node" w ts levels (length nodes) I Un Lo ltac:(unfold ValidLocation; auto 10) In_ Lv Sh)
    as (t & Td & LO & _ & _ & E).
  rewrite E. subst ts.
  destruct (c94_any_depth_nodes_partial tree hist nodes faces find (fm_part w) (Some t) levels default_sbc default_bbc q q' ex F pts) as (cs & Ec & V); auto.
  - intros s _. now apply downwards_any.
  - exists cs. split; [exact Ec|]. revert V. apply Forall2_impl'. intros s c. apply downwards_water; auto.
Qed.
Print Assumptions c102_any_depth_nodes_partial.

Theorem c102_any_depth_faces_partial :
  forall dateutil cftime now tree hist f m vs mv nodes faces find k w ts levels (F : Z -> Q -> nat -> Q) q q' ex pts,
  UniqueNames f -> MeshVarOf f mv -> NodesIn f mv nodes -> FacesIn f mv faces -> TriMesh nodes faces ->
  open_dataset dateutil cftime f = Ok (m, vs) ->
  (forall ps, tree nodes faces ps = map find ps) -> (forall ix ps, Forall asks (hist ix ps)) -> FindsFaces nodes faces find ->
  In (k, w) (fi_vars f) -> Unmentioned mv k -> Attr w "location" "face" ->
  InstantsIn cftime f w ts -> LevelsIn f levels -> Shaped w (length ts) levels (length faces) ->
  Changes (Some ts) levels F ->
  (forall ix t d, SampleAt (Some ts) levels ix t d ->
     length (fm_part w ix) = length faces /\ forall j c, nth_error (fm_part w ix) j = Some c -> Shows (F t d j) c) ->
  TimeOk (Some ts) ex q q' -> Downwards levels ->
  exists cs, ask_file dateutil cftime now tree hist f k q ex pts = Ok cs /\
    Forall2 (fun s => InWater levels (deep s) (fun z c =>
      (forall j, find (place s) = Z.of_nat j -> Shows (F q' z j) c) /\ (find (place s) = (-1)%Z -> Shows 0 c))) pts cs.
Proof.
  intros dateutil cftime now tree hist f m vs mv nodes faces find k w ts levels F q q' ex pts U MV NI FI T O HT HH FF I Un Lo In_ Lv Sh Ch Sa TO DO.
  destruct (opened_answer dateutil cftime now tree hist f m vs mv nodes faces U MV NI FI T O k "face" w ts levels (length faces) I Un Lo ltac:(unfold ValidLocation; auto 10) In_ Lv Sh)
    as (t & Td & LO & _ & _ & E).
  rewrite E. subst ts.
  destruct (c94_any_depth_faces_partial tree hist nodes faces find (fm_part w) (Some t) levels default_sbc default_bbc q q' ex F pts) as (cs & Ec & V); auto.
  - apply T.
  - intros s _. now apply downwards_any.
  - exists cs. split; [exact Ec|]. revert V. apply Forall2_impl'. intros s c. apply downwards_water; auto.
Qed.
Print Assumptions c102_any_depth_faces_partial.

(** A file with a regular grid. *)
Theorem c104_any_depth_partial :
  forall dateutil cftime now f ln la lon lat p k w sw loc ts levels (F : quantity) q q' ex pts,
  RectFile f ln la lon lat -> Monotone lon -> Monotone lat -> 2 <= length lon -> 2 <= length lat -> open_rect_dataset dateutil cftime f = Ok p ->
  In (k, w) (fi_vars f) -> k <> ln -> k <> la -> Placed w sw loc -> InstantsIn cftime f w ts -> LevelsIn f levels ->
  OnAxes w ln la (length lon) (length lat) (length ts) levels sw ->
  Changes (Some ts) levels F ->
  (forall ix t d, SampleAt (Some ts) levels ix t d -> RowsSample w ix sw lon lat (F t d) /\ BilinearOverCells lon lat (F t d)) ->
  TimeOk (Some ts) ex q q' -> Downwards levels ->
  exists cs, ask_rect dateutil cftime now f k q ex pts = Ok cs /\
    Forall2 (fun s => InWater levels (deep s) (fun z c => let inside := Spans lon (fst (place s)) /\ Spans lat (snd (place s)) in
      (inside -> Shows (F q' z (place s)) c) /\ (~ inside -> Shows 0 c))) pts cs.
Proof.
  intros dateutil cftime now f ln la lon lat p k w sw loc ts levels F q q' ex pts R M1 M2 L1 L2 O I N1 N2 Pl In_ Lv Ox Ch Sa TO DO.
  destruct (placed_location ln la lon lat _ _ _ _ _ Pl Ox) as [HL _].
  pose proof (on_axes_yx w ln la lon lat _ _ _ (proj2 (proj2 (axis_words _ _ _ _ _ R))) Ox) as Yx. destruct Ox as (Dm & Sh).
  set (g := rg_new lon lat (Some (la, ln))) in *.
  assert (Eo : Over sw (length lat) (length lon) = [length (fst (yx_axes g sw)); length (snd (yx_axes g sw))]) by (destruct sw; reflexivity).
  rewrite Eo in Sh.
  destruct (rect_asked dateutil cftime now f ln la lon lat R p O k w ts levels loc I N1 N2 HL In_ Lv _ _ Sh) as (t & Td & LO & E). fold g in E.
  subst ts. assert (Es : fm_shape w = shape_of (Some t) levels [length (fst (yx_axes g sw)); length (snd (yx_axes g sw))]) by exact Sh. rewrite Es in Yx.
  destruct (c94_any_depth_rectangular_partial g (Some (fm_dims w)) sw (FRectModel.table_of w) (Some t) levels default_sbc default_bbc q q' ex F pts) as (cs & Ec & V); auto.
  - intros s _. now apply downwards_any.
  - intros ix u d HS. destruct (Sa ix u d HS) as [Rs B]. split; [|exact B].
    assert (El : nth (length ix) (fm_shape w) 0 = length (fst (yx_axes g sw))).
    { rewrite Es. destruct levels as [ls|]; cbn [SampleAt option_map] in HS.
      - destruct HS as (i & j & -> & _). reflexivity.
      - destruct HS as (i & -> & _). reflexivity. }
    unfold TableSamples, FRectModel.table_of. rewrite El. apply rows_table. intros j a Hj. specialize (Rs j a). destruct sw; apply Rs; exact Hj.
  - exists cs. split; [rewrite E; exact Ec|]. revert V. apply Forall2_impl'. intros s c. apply downwards_water; auto.
Qed.
Print Assumptions c104_any_depth_partial.

(** Whole sessions with such variables, whose answers are cached. *)
Theorem c102_any_depth_session_partial :
  forall dateutil cftime now tree hist f m vs mv nodes faces find k w ts levels (F : quantity) qa ex opts reqs,
  UniqueNames f -> MeshVarOf f mv -> NodesIn f mv nodes -> FacesIn f mv faces -> TriMesh nodes faces ->
  open_dataset dateutil cftime f = Ok (m, vs) ->
  (forall ps, tree nodes faces ps = map find ps) -> (forall ix ps, Forall asks (hist ix ps)) -> FindsFaces nodes faces find ->
  In (k, w) (fi_vars f) -> Unmentioned mv k -> Attr w "location" "node" ->
  InstantsIn cftime f w ts -> LevelsIn f levels -> Shaped w (length ts) levels (length nodes) ->
  Changes (Some ts) levels F ->
  (forall ix t d, SampleAt (Some ts) levels ix t d -> NodeSamples nodes (F t d) (fm_part w ix) /\ LinearOverFaces nodes faces (F t d)) ->
  Downwards levels -> Forall (fun r => uniform 3 opts r /\ TimeOk (Some ts) ex (rq_time r) (qa (rq_time r))) reqs ->
  Forall2 (fun r a => exists cs, a = Some (Ok cs) /\ Forall2 (fun row c => let p := (nth 0 row 0, nth 1 row 0)%Q in
      InWater levels (nth 2 row 0%Q) (fun z c => (find p <> (-1)%Z -> Shows (F (qa (rq_time r)) z p) c) /\ (find p = (-1)%Z -> Shows 0 c)) c) (rq_pts r) cs)
    reqs (snd (at_run (at_request (fun file q pts => ask_file dateutil cftime now tree hist file k q ex pts)) (mkAt f []) (map Call reqs))).
Proof.
  intros dateutil cftime now tree hist f m vs mv nodes faces find k w ts levels F qa ex opts reqs U MV NI FI T O HT HH FF I Un Lo In_ Lv Sh Ch Sa Dw R.
  rewrite (at_run_transparent_fresh _ 3 opts f (map Call reqs)); [|lia|].
  2: { apply Forall_forall. intros o Ho. apply in_map_iff in Ho. destruct Ho as (r & <- & Hr). rewrite Forall_forall in R. apply R. auto. }
  induction R as [|r reqs (_ & TO) _ IH]; cbn [map at_ref]; constructor; auto.
  destruct (c102_any_depth_nodes_partial dateutil cftime now tree hist f m vs mv nodes faces find k w ts levels F (rq_time r) (qa (rq_time r)) ex (map spot_of (rq_pts r))) as (cs & E & V); auto.
  exists cs. split; [unfold at_request; f_equal; exact E|]. clear - V. revert cs V. induction (rq_pts r) as [|row rows IH]; intros cs V; inversion V; subst; constructor; auto.
Qed.
Print Assumptions c102_any_depth_session_partial.

Theorem c104_any_depth_session_partial :
  forall dateutil cftime now f ln la lon lat p k w sw loc ts levels (F : quantity) qa ex opts reqs,
  RectFile f ln la lon lat -> Monotone lon -> Monotone lat -> 2 <= length lon -> 2 <= length lat -> open_rect_dataset dateutil cftime f = Ok p ->
  In (k, w) (fi_vars f) -> k <> ln -> k <> la -> Placed w sw loc -> InstantsIn cftime f w ts -> LevelsIn f levels ->
  OnAxes w ln la (length lon) (length lat) (length ts) levels sw ->
  Changes (Some ts) levels F ->
  (forall ix t d, SampleAt (Some ts) levels ix t d -> RowsSample w ix sw lon lat (F t d) /\ BilinearOverCells lon lat (F t d)) ->
  Downwards levels -> Forall (fun r => uniform 3 opts r /\ TimeOk (Some ts) ex (rq_time r) (qa (rq_time r))) reqs ->
  Forall2 (fun r a => exists cs, a = Some (Ok cs) /\ Forall2 (fun row c => let x := nth 0 row 0%Q in let y := nth 1 row 0%Q in
      InWater levels (nth 2 row 0%Q) (fun z c => (Spans lon x /\ Spans lat y -> Shows (F (qa (rq_time r)) z (x, y)) c) /\ (~ (Spans lon x /\ Spans lat y) -> Shows 0 c)) c) (rq_pts r) cs)
    reqs (snd (at_run (at_request (fun file q pts => ask_rect dateutil cftime now file k q ex pts)) (mkAt f []) (map Call reqs))).
Proof.
  intros dateutil cftime now f ln la lon lat p k w sw loc ts levels F qa ex opts reqs R M1 M2 L1 L2 O I N1 N2 Pl In_ Lv Ox Ch Sa Dw Rq.
  rewrite (at_run_transparent_fresh _ 3 opts f (map Call reqs)); [|lia|].
  2: { apply Forall_forall. intros o Ho. apply in_map_iff in Ho. destruct Ho as (r & <- & Hr). rewrite Forall_forall in Rq. apply Rq. auto. }
  induction Rq as [|r reqs (_ & TO) _ IH]; cbn [map at_ref]; constructor; auto.
  destruct (c104_any_depth_partial dateutil cftime now f ln la lon lat p k w sw loc ts levels F (rq_time r) (qa (rq_time r)) ex (map spot_of (rq_pts r))) as (cs & E & V); auto.
  exists cs. split; [unfold at_request; f_equal; exact E|]. clear - V. revert cs V. induction (rq_pts r) as [|row rows IH]; intros cs V; inversion V; subst; constructor; auto.
Qed.
Print Assumptions c104_any_depth_session_partial.

(** Missing values in a file, at any depth. *)
Theorem c109_file_any_depth_nodes_partial :
  forall dateutil cftime now tree hist f p vs mv nodes faces find k w ts levels (F : quantity) (m : Z -> Q -> nat -> bool) q q' ex pts,
  UniqueNames f -> MeshVarOf f mv -> NodesIn f mv nodes -> FacesIn f mv faces -> TriMesh nodes faces ->
  open_dataset dateutil cftime f = Ok (p, vs) ->
  (forall ps, tree nodes faces ps = map find ps) -> (forall ix ps, Forall asks (hist ix ps)) -> FindsFaces nodes faces find ->
  In (k, w) (fi_vars f) -> Unmentioned mv k -> Attr w "location" "node" ->
  InstantsIn cftime f w ts -> LevelsIn f levels -> Shaped w (length ts) levels (length nodes) ->
  Changes (Some ts) levels F ->
  (forall ix t d, SampleAt (Some ts) levels ix t d ->
     MaskedSamples (length nodes) (m t d) (FieldAt nodes (F t d)) (fm_part w ix) /\ LinearOverFaces nodes faces (F t d) /\
     forall s j a b c, In s pts -> FaceAsked (length faces) (find (place s)) j -> nth_error faces j = Some [Z.of_nat a; Z.of_nat b; Z.of_nat c] ->
       m t d b = m t d a /\ m t d c = m t d a) ->
  TimeOk (Some ts) ex q q' -> Downwards levels ->
  exists cs, ask_file dateutil cftime now tree hist f k q ex pts = Ok cs /\
    Forall2 (fun s r => exists j a b c, FaceAsked (length faces) (find (place s)) j /\ nth_error faces j = Some [Z.of_nat a; Z.of_nat b; Z.of_nat c] /\
      InWater levels (deep s) (fun z r => let missing := Missing (Some ts) levels ex q q' (deep s) z (fun u d => m u d a) in
      (find (place s) <> (-1)%Z -> Sees missing (F q' z (place s)) r) /\ (find (place s) = (-1)%Z -> Sees missing 0 r)) r) pts cs.
Proof.
  intros dateutil cftime now tree hist f p vs mv nodes faces find k w ts levels F m q q' ex pts U MV NI FI T O HT HH FF I Un Lo In_ Lv Sh Ch Sa TO DO.
  destruct (opened_answer dateutil cftime now tree hist f p vs mv nodes faces U MV NI FI T O k "node" w ts levels (length nodes) I Un Lo ltac:(unfold ValidLocation; auto 10) In_ Lv Sh)
    as (t & Td & LO & _ & _ & E).
  rewrite E. subst ts.
  destruct (c109_any_depth_nodes_partial tree hist nodes faces find (fm_part w) (Some t) levels default_sbc default_bbc q q' ex F m pts) as (cs & Ec & V); auto.
  - intros s _. now apply downwards_any.
  - exists cs. split; [exact Ec|]. revert V. apply Forall2_impl'. intros s r H. destruct H as (j & a & b & c & Fk & Hf & H). exists j, a, b, c. split; [exact Fk|split; [exact Hf|]]. revert H. apply downwards_water; auto.
Qed.
Print Assumptions c109_file_any_depth_nodes_partial.

Theorem c109_file_any_depth_faces_partial :
  forall dateutil cftime now tree hist f p vs mv nodes faces find k w ts levels (F : Z -> Q -> nat -> Q) (m : Z -> Q -> nat -> bool) q q' ex pts,
  UniqueNames f -> MeshVarOf f mv -> NodesIn f mv nodes -> FacesIn f mv faces -> TriMesh nodes faces ->
  open_dataset dateutil cftime f = Ok (p, vs) ->
  (forall ps, tree nodes faces ps = map find ps) -> (forall ix ps, Forall asks (hist ix ps)) -> FindsFaces nodes faces find ->
  In (k, w) (fi_vars f) -> Unmentioned mv k -> Attr w "location" "face" ->
  InstantsIn cftime f w ts -> LevelsIn f levels -> Shaped w (length ts) levels (length faces) ->
  Changes (Some ts) levels F ->
  (forall ix t d, SampleAt (Some ts) levels ix t d -> MaskedSamples (length faces) (m t d) (F t d) (fm_part w ix)) ->
  TimeOk (Some ts) ex q q' -> Downwards levels ->
  exists cs, ask_file dateutil cftime now tree hist f k q ex pts = Ok cs /\
    Forall2 (fun s r => forall j, FaceAsked (length faces) (find (place s)) j ->
      InWater levels (deep s) (fun z r => let missing := Missing (Some ts) levels ex q q' (deep s) z (fun u d => m u d j) in
      (find (place s) <> (-1)%Z -> Sees missing (F q' z j) r) /\ (find (place s) = (-1)%Z -> Sees missing 0 r)) r) pts cs.
Proof.
  intros dateutil cftime now tree hist f p vs mv nodes faces find k w ts levels F m q q' ex pts U MV NI FI T O HT HH FF I Un Lo In_ Lv Sh Ch Sa TO DO.
  destruct (opened_answer dateutil cftime now tree hist f p vs mv nodes faces U MV NI FI T O k "face" w ts levels (length faces) I Un Lo ltac:(unfold ValidLocation; auto 10) In_ Lv Sh)
    as (t & Td & LO & _ & _ & E).
  rewrite E. subst ts.
  destruct (c109_any_depth_faces_partial tree hist nodes faces find (fm_part w) (Some t) levels default_sbc default_bbc q q' ex F m pts) as (cs & Ec & V); auto.
  - apply T.
  - intros s _. now apply downwards_any.
  - exists cs. split; [exact Ec|]. revert V. apply Forall2_impl'. intros s r H. intros j Fk. specialize (H j Fk). revert H. apply downwards_water; auto.
Qed.
Print Assumptions c109_file_any_depth_faces_partial.

(** A file with levels 0, 5 and 10, asked above them, among them and below them. *)
Definition any_depth_spots : list spot := [((1 # 4, 1 # 4), -3); ((3 # 4, 3 # 4), 3); ((1 # 4, 1 # 4), 10); ((3 # 4, 3 # 4), 50)]%Q.
Example c102_any_depth_example :
  exists v w cs, c102_ask c102_file "temp" (hour + 1800000000)%Z false any_depth_spots = Ok cs /\ cs = [CVal v; CVal w; CMasked; CMasked] /\
    (v == c102_field (hour + 1800000000)%Z 0 (1 # 4, 1 # 4))%Q /\ (w == c102_field (hour + 1800000000)%Z 3 (3 # 4, 3 # 4))%Q.
Proof.
  assert (O : exists p, open_dataset demo_dateutil demo_cftime c102_file = Ok p) by (eexists; vm_compute; reflexivity).
  destruct O as ([m vs] & O). 
  destruct (c102_any_depth_nodes_partial demo_dateutil demo_cftime (mkTime [0%Z] None None) c94_tree (fun _ _ => []) c102_file m vs c102_mesh_var c94_nodes c94_faces c94_find "temp" c102_temp c102_times
    (Some c94_levels) c102_field (hour + 1800000000)%Z (hour + 1800000000)%Z false any_depth_spots c102_unique c102_mesh_of c102_nodes_of c102_faces_of c94_mesh O) as (cs & E & V).
  - reflexivity.
  - intros. constructor.
  - exact c94_finds.
  - do 6 right. left. reflexivity.
  - apply c102_unmentioned. cbn [In]. intros H. repeat (destruct H as [H|H]; [discriminate H|]). exact H.
  - reflexivity.
  - apply c102_instants; [eexists; reflexivity|reflexivity].
  - exact c102_levels_of.
  - reflexivity.
  - split; intros l _; intros; unfold c102_field.
    + intros k t0 t1 q _ _ _. unfold Qdiv. ring.
    + intros k a b s _ _ _ w ->. ring.
  - intros ix t d (i & j & -> & Hi & Hj). split.
    + apply nth_error_nth with (d := 0%Z) in Hi. apply nth_error_nth with (d := 0%Q) in Hj. cbn [c102_temp c102_var fm_part c102_data]. rewrite Hi, Hj. unfold NodeSamples.
      repeat constructor; (eexists; split; reflexivity).
    + intros a b c A B C _ _ _ _. exists (inject_Z t / inject_Z hour + d * 3)%Q, 1%Q, 2%Q. intros p _. unfold c102_field. ring.
  - intros l H. injection H as <-. split; [|split; [discriminate|left; split; [|reflexivity]]].
    + destruct (c102_instants c102_temp ltac:(eexists; reflexivity) eq_refl) as (n & aw & _ & _ & _ & _ & X). exact X.
    + exists hour, (2 * hour)%Z. split; [reflexivity|]. split; [reflexivity|]. unfold hour. lia.
  - intros l H. injection H as <-. exact c102_ascending.
  - inversion V as [|s1 c1 l1 m1 V1 F1]; subst. inversion F1 as [|s2 c2 l2 m2 V2 F2]; subst. inversion F2 as [|s3 c3 l3 m3 V3 F3]; subst. inversion F3 as [|s4 c4 l4 m4 V4 F4]; subst. inversion F4; subst.
    unfold InWater in *. destruct (V1 0%Q 10%Q eq_refl eq_refl) as (A1 & _). destruct (V2 0%Q 10%Q eq_refl eq_refl) as (_ & A2 & _). destruct (V3 0%Q 10%Q eq_refl eq_refl) as (_ & _ & A3). destruct (V4 0%Q 10%Q eq_refl eq_refl) as (_ & _ & A4).
    destruct (A1 ltac:(reflexivity)) as [B1 _]. destruct (A2 ltac:(split; [discriminate|reflexivity])) as [B2 _].
    destruct (B1 ltac:(discriminate)) as (v & -> & Hv). destruct (B2 ltac:(discriminate)) as (w & -> & Hw). rewrite (A3 ltac:(discriminate)), (A4 ltac:(discriminate)) in *.
    exists v, w. eexists. split; [exact E|]. split; [reflexivity|]. split; assumption.
Qed.
(** The deepest level is missing at the first instant: above the first level the
    deepest is looked at, so the answer there is missing. *)
Example c109_any_depth_example :
  exists cs v, c102_ask c109_file "temp" (hour + 1800000000)%Z false any_depth_spots = Ok cs /\ cs = [CMasked; CVal v; CMasked; CMasked] /\
    (v == c102_field (hour + 1800000000)%Z 3 (3 # 4, 3 # 4))%Q /\
    Forall2 (fun s r => exists j a b c, FaceAsked 2 (c94_find (place s)) j /\ nth_error c94_faces j = Some [Z.of_nat a; Z.of_nat b; Z.of_nat c] /\
      InWater (Some c94_levels) (deep s) (fun z r => let missing := Missing (Some c102_times) (Some c94_levels) false (hour + 1800000000)%Z (hour + 1800000000)%Z (deep s) z (fun u d => c109_file_mask u d a) in
      (c94_find (place s) <> (-1)%Z -> Sees missing (c102_field (hour + 1800000000)%Z z (place s)) r) /\ (c94_find (place s) = (-1)%Z -> Sees missing 0 r)) r) any_depth_spots cs.
Proof.
  assert (O : exists p, open_dataset demo_dateutil demo_cftime c109_file = Ok p) by (eexists; vm_compute; reflexivity).
  destruct O as ([m vs] & O).
  destruct (c109_file_any_depth_nodes_partial demo_dateutil demo_cftime (mkTime [0%Z] None None) c94_tree (fun _ _ => []) c109_file m vs c102_mesh_var c94_nodes c94_faces c94_find "temp" c109_temp c102_times
    (Some c94_levels) c102_field c109_file_mask (hour + 1800000000)%Z (hour + 1800000000)%Z false any_depth_spots c109_unique c109_mesh_of c109_nodes_of c109_faces_of c94_mesh O) as (cs & E & V).
  - reflexivity.
  - intros. constructor.
  - exact c94_finds.
  - do 6 right. left. reflexivity.
  - apply c102_unmentioned. cbn [In]. intros H. repeat (destruct H as [H|H]; [discriminate H|]). exact H.
  - reflexivity.
  - apply c109_instants; [eexists; reflexivity|reflexivity].
  - exact c109_levels_of.
  - reflexivity.
  - split; intros l _; intros; unfold c102_field.
    + intros k t0 t1 q _ _ _. unfold Qdiv. ring.
    + intros k a b s _ _ _ w ->. ring.
  - intros ix t d (i & j & -> & Hi & Hj). split; [|split; [|intros; split; reflexivity]].
    + destruct i as [|[|i]]; cbn in Hi; try (destruct i; discriminate); injection Hi as <-; (destruct j as [|[|[|j]]]; cbn in Hj; try (destruct j; discriminate); injection Hj as <-); (split; [reflexivity|]);
        intros [|[|[|[|[|k]]]]] c H; cbn in H; try discriminate; injection H as <-; ((left; split; reflexivity) || (right; split; [discriminate|eexists; split; reflexivity])).
    + intros a b c A B C _ _ _ _. exists (inject_Z t / inject_Z hour + d * 3)%Q, 1%Q, 2%Q. intros p _. unfold c102_field. ring.
  - intros l H. injection H as <-. split; [|split; [discriminate|left; split; [|reflexivity]]].
    + destruct (c109_instants c109_temp ltac:(eexists; reflexivity) eq_refl) as (n & aw & _ & _ & _ & _ & X). exact X.
    + exists hour, (2 * hour)%Z. split; [reflexivity|]. split; [reflexivity|]. unfold hour. lia.
  - intros l H. injection H as <-. exact c102_ascending.
  - assert (X : exists v, c102_ask c109_file "temp" (hour + 1800000000)%Z false any_depth_spots = Ok [CMasked; CVal v; CMasked; CMasked] /\ (v == c102_field (hour + 1800000000)%Z 3 (3 # 4, 3 # 4))%Q)
      by (eexists; split; vm_compute; reflexivity).
    destruct X as (v & Ev & V1). exists cs, v. split; [exact E|]. split; [unfold c102_ask in Ev; rewrite Ev in E; injection E as <-; reflexivity|]. auto.
Qed.
Example c104_any_depth_example :
  forall sw : bool, let f := c104_file (if sw then [("location", "node")] else []) sw [] in
  exists cs, ask_rect demo_dateutil demo_cftime c104_now f "temp" (hour + 1800000000)%Z false any_depth_spots = Ok cs /\
    Forall2 (fun s => InWater (Some c94_levels) (deep s) (fun z c => let inside := Spans c104_lon (fst (place s)) /\ Spans c104_lat (snd (place s)) in
      (inside -> Shows (c104_field (hour + 1800000000)%Z z (place s)) c) /\ (~ inside -> Shows 0 c))) any_depth_spots cs.
Proof.
  intros sw f. set (at_ := (if sw then [("location", "node")] else []) : dict string) in f.
  assert (R : RectFile f "lon" "lat" c104_lon c104_lat) by (apply c104_rect; [left; reflexivity|destruct sw; reflexivity]).
  assert (Pl : Placed (c104_temp at_ sw) sw "node").
  { destruct sw; [left; split; [reflexivity|unfold ValidLocation; auto 10]|right; repeat split]. }
  destruct (c104_opens demo_dateutil demo_cftime f _ _ _ _ R) as (r & vs & O & E1 & E2).
  { apply (c104_sound at_ sw "node"); auto; destruct sw; reflexivity. }
  destruct (c104_any_depth_partial demo_dateutil demo_cftime c104_now f "lon" "lat" c104_lon c104_lat (r, vs) "temp" (c104_temp at_ sw) sw "node" c102_times (Some c94_levels) c104_field
    (hour + 1800000000)%Z (hour + 1800000000)%Z false any_depth_spots) as (cs & E & V); auto; try apply c104_ascending; try (cbn; lia); try discriminate.
  - subst f. cbn [c104_file fi_vars app In]. tauto.
  - apply c104_instants; [eexists; reflexivity|destruct sw; reflexivity].
  - apply c104_levels; [left; reflexivity| |]; destruct sw; reflexivity.
  - apply c104_on_axes.
  - split; intros l _; intros; unfold c104_field.
    + intros k t0 t1 q _ _ _. unfold Qdiv. ring.
    + intros k a b s _ _ _ w ->. ring.
  - intros ix t d (i & j & -> & Hi & Hj). split.
    + apply nth_error_nth with (d := 0%Z) in Hi. apply nth_error_nth with (d := 0%Q) in Hj. intros n a Hn. cbn [app c104_temp c102_var fm_part c104_data].
      rewrite Hi, Hj. destruct sw; apply nth_error_nth with (d := 0%Q) in Hn; rewrite Hn; repeat constructor; (eexists; split; reflexivity).
    + intros p i1 i2 u u' j1 j2 v v' a a' b b' (xa & xb & X1 & X2 & _ & _ & _ & Su & Ep) (ya & yb & Y1 & Y2 & _ & _ & _ & Sv & Eq) Ha Ha' Hb Hb'.
      assert (xa = a) by congruence. assert (xb = a') by congruence. assert (ya = b) by congruence. assert (yb = b') by congruence. subst xa xb ya yb.
      unfold c104_field. cbn [fst snd]. assert (Eu' : (u' == 1 - u)%Q) by lra. assert (Ev' : (v' == 1 - v)%Q) by lra. rewrite Ep, Eq, Eu', Ev'. ring.
  - intros l H. injection H as <-. split; [|split; [discriminate|left; split; [|reflexivity]]].
    + destruct (c102_instants c102_temp ltac:(eexists; reflexivity) eq_refl) as (n & aw & _ & _ & _ & _ & X). exact X.
    + exists hour, (2 * hour)%Z. split; [reflexivity|]. split; [reflexivity|]. unfold hour. lia.
  - intros l H. injection H as <-. exact c102_ascending.
  - exists cs. auto.
Qed.
