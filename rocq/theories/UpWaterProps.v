(** C102, C104 and C109 for levels listed upwards, asked below the last. *)
From Coq Require Import String Lqa.
From Verif Require Import Common CommonProofs TimeModel TimeSpec TimeProofs GridTypeModel GridTypeSpec MaskModel MaskSpec MaskProofs VariableModel VariableSpec VariableProofs DepthModel DepthSpec DepthProofs
  UGridGeomModel UGridGeomSpec UGridGeomProofs UGridLocProofs UGridInterpProofs RGridModel RGridSpec RGridProofs TFileModel TFileSpec TFileProps LoadModel LoadSpec LoadProofs VLoadModel UFileModel UFileSpec WholeModel WholeSpec WholeProofs WholeProps
  FMeshModel FMeshSpec FMeshProofs FMeshProps FRectModel FRectSpec FRectProofs FRectProps FStagSpec FRomsModel FRomsSpec FFvcomModel FFvcomSpec FFvcomRead FFvcomProofs FFvcomProps WMaskSpec WMaskProofs WMaskProps FMaskProps AnyDepthSpec AnyDepthProofs AnyDepthProps UpSpec UpWaterSpec UpWaterProofs UpProps.
Open Scope string_scope.
Open Scope list_scope.
Open Scope nat_scope.

Theorem c102_upwards_nodes_partial :
  forall dateutil cftime now tree hist f m vs mv nodes faces find k w ts levels (F : quantity) q q' ex pts,
  UniqueNames f -> MeshVarOf f mv -> NodesIn f mv nodes -> FacesIn f mv faces -> TriMesh nodes faces ->
  open_dataset dateutil cftime f = Ok (m, vs) ->
  (forall ps, tree nodes faces ps = map find ps) -> (forall ix ps, Forall asks (hist ix ps)) -> FindsFaces nodes faces find ->
  In (k, w) (fi_vars f) -> Unmentioned mv k -> Attr w "location" "node" ->
  InstantsIn cftime f w ts -> LevelsIn f levels -> Shaped w (length ts) levels (length nodes) ->
  Changes (Some ts) levels F ->
  (forall ix t d, SampleAt (Some ts) levels ix t d -> NodeSamples nodes (F t d) (fm_part w ix) /\ LinearOverFaces nodes faces (F t d)) ->
  TimeOk (Some ts) ex q q' -> Upwards levels -> (forall s, In s pts -> ~ AtTop levels (deep s)) ->
  exists cs, ask_file dateutil cftime now tree hist f k q ex pts = Ok cs /\
    Forall2 (fun s => UnderWater levels (deep s) (fun z c =>
      (find (place s) <> (-1)%Z -> Shows (F q' z (place s)) c) /\ (find (place s) = (-1)%Z -> Shows 0 c))) pts cs.
Proof.
  intros dateutil cftime now tree hist f m vs mv nodes faces find k w ts levels F q q' ex pts U MV NI FI T O HT HH FF I Un Lo In_ Lv Sh Ch Sa TO DO NT.
  destruct (opened_answer dateutil cftime now tree hist f m vs mv nodes faces U MV NI FI T O k "node" w ts levels (length nodes) I Un Lo ltac:(unfold ValidLocation; auto 10) In_ Lv Sh)
    as (t & Td & LO & _ & _ & E).
  rewrite E. subst ts.
  destruct (c94_any_depth_nodes_partial tree hist nodes faces find (fm_part w) (Some t) levels default_sbc default_bbc q q' ex F pts) as (cs & Ec & V); auto.
  - intros s Hs. apply upwards_any; auto.
  - exists cs. split; [exact Ec|]. revert V. apply Forall2_in. intros s c Hs. apply upwards_water; auto.
Qed.
Print Assumptions c102_upwards_nodes_partial.

Theorem c102_upwards_faces_partial :
  forall dateutil cftime now tree hist f m vs mv nodes faces find k w ts levels (F : Z -> Q -> nat -> Q) q q' ex pts,
  UniqueNames f -> MeshVarOf f mv -> NodesIn f mv nodes -> FacesIn f mv faces -> TriMesh nodes faces ->
  open_dataset dateutil cftime f = Ok (m, vs) ->
  (forall ps, tree nodes faces ps = map find ps) -> (forall ix ps, Forall asks (hist ix ps)) -> FindsFaces nodes faces find ->
  In (k, w) (fi_vars f) -> Unmentioned mv k -> Attr w "location" "face" ->
  InstantsIn cftime f w ts -> LevelsIn f levels -> Shaped w (length ts) levels (length faces) ->
  Changes (Some ts) levels F ->
  (forall ix t d, SampleAt (Some ts) levels ix t d ->
     length (fm_part w ix) = length faces /\ forall j c, nth_error (fm_part w ix) j = Some c -> Shows (F t d j) c) ->
  TimeOk (Some ts) ex q q' -> Upwards levels -> (forall s, In s pts -> ~ AtTop levels (deep s)) ->
  exists cs, ask_file dateutil cftime now tree hist f k q ex pts = Ok cs /\
    Forall2 (fun s => UnderWater levels (deep s) (fun z c =>
      (forall j, find (place s) = Z.of_nat j -> Shows (F q' z j) c) /\ (find (place s) = (-1)%Z -> Shows 0 c))) pts cs.
Proof.
  intros dateutil cftime now tree hist f m vs mv nodes faces find k w ts levels F q q' ex pts U MV NI FI T O HT HH FF I Un Lo In_ Lv Sh Ch Sa TO DO NT.
  destruct (opened_answer dateutil cftime now tree hist f m vs mv nodes faces U MV NI FI T O k "face" w ts levels (length faces) I Un Lo ltac:(unfold ValidLocation; auto 10) In_ Lv Sh)
    as (t & Td & LO & _ & _ & E).
  rewrite E. subst ts.
  destruct (c94_any_depth_faces_partial tree hist nodes faces find (fm_part w) (Some t) levels default_sbc default_bbc q q' ex F pts) as (cs & Ec & V); auto.
  - apply T.
  - intros s Hs. apply upwards_any; auto.
  - exists cs. split; [exact Ec|]. revert V. apply Forall2_in. intros s c Hs. apply upwards_water; auto.
Qed.
Print Assumptions c102_upwards_faces_partial.

Theorem c104_upwards_partial :
  forall dateutil cftime now f ln la lon lat p k w sw loc ts levels (F : quantity) q q' ex pts,
  RectFile f ln la lon lat -> Monotone lon -> Monotone lat -> 2 <= length lon -> 2 <= length lat -> open_rect_dataset dateutil cftime f = Ok p ->
  In (k, w) (fi_vars f) -> k <> ln -> k <> la -> Placed w sw loc -> InstantsIn cftime f w ts -> LevelsIn f levels ->
  OnAxes w ln la (length lon) (length lat) (length ts) levels sw ->
  Changes (Some ts) levels F ->
  (forall ix t d, SampleAt (Some ts) levels ix t d -> RowsSample w ix sw lon lat (F t d) /\ BilinearOverCells lon lat (F t d)) ->
  TimeOk (Some ts) ex q q' -> Upwards levels -> (forall s, In s pts -> ~ AtTop levels (deep s)) ->
  exists cs, ask_rect dateutil cftime now f k q ex pts = Ok cs /\
    Forall2 (fun s => UnderWater levels (deep s) (fun z c => let inside := Spans lon (fst (place s)) /\ Spans lat (snd (place s)) in
      (inside -> Shows (F q' z (place s)) c) /\ (~ inside -> Shows 0 c))) pts cs.
Proof.
  intros dateutil cftime now f ln la lon lat p k w sw loc ts levels F q q' ex pts R M1 M2 L1 L2 O I N1 N2 Pl In_ Lv Ox Ch Sa TO DO NT.
  destruct (placed_location ln la lon lat _ _ _ _ _ Pl Ox) as [HL _].
  pose proof (on_axes_yx w ln la lon lat _ _ _ (proj2 (proj2 (axis_words _ _ _ _ _ R))) Ox) as Yx. destruct Ox as (Dm & Sh).
  set (g := rg_new lon lat (Some (la, ln))) in *.
  assert (Eo : Over sw (length lat) (length lon) = [length (fst (yx_axes g sw)); length (snd (yx_axes g sw))]) by (destruct sw; reflexivity).
  rewrite Eo in Sh.
  destruct (rect_asked dateutil cftime now f ln la lon lat R p O k w ts levels loc I N1 N2 HL In_ Lv _ _ Sh) as (t & Td & LO & E). fold g in E.
  subst ts. assert (Es : fm_shape w = shape_of (Some t) levels [length (fst (yx_axes g sw)); length (snd (yx_axes g sw))]) by exact Sh. rewrite Es in Yx.
  destruct (c94_any_depth_rectangular_partial g (Some (fm_dims w)) sw (FRectModel.table_of w) (Some t) levels default_sbc default_bbc q q' ex F pts) as (cs & Ec & V); auto.
  - intros s Hs. apply upwards_any; auto.
  - intros ix u d HS. destruct (Sa ix u d HS) as [Rs B]. split; [|exact B].
    assert (El : nth (length ix) (fm_shape w) 0 = length (fst (yx_axes g sw))).
    { rewrite Es. destruct levels as [ls|]; cbn [SampleAt option_map] in HS.
      - destruct HS as (i & j & -> & _). reflexivity.
      - destruct HS as (i & -> & _). reflexivity. }
    unfold TableSamples, FRectModel.table_of. rewrite El. apply rows_table. intros j a Hj. specialize (Rs j a). destruct sw; apply Rs; exact Hj.
  - exists cs. split; [rewrite E; exact Ec|]. revert V. apply Forall2_in. intros s c Hs. apply upwards_water; auto.
Qed.
Print Assumptions c104_upwards_partial.

Theorem c109_file_upwards_nodes_partial :
  forall dateutil cftime now tree hist f p vs mv nodes faces find k w ts levels (F : quantity) (m : Z -> Q -> nat -> bool) q q' ex pts,
  UniqueNames f -> MeshVarOf f mv -> NodesIn f mv nodes -> FacesIn f mv faces -> TriMesh nodes faces ->
  open_dataset dateutil cftime f = Ok (p, vs) ->
  (forall ps, tree nodes faces ps = map find ps) -> (forall ix ps, Forall asks (hist ix ps)) -> FindsFaces nodes faces find ->
  In (k, w) (fi_vars f) -> Unmentioned mv k -> Attr w "location" "node" ->
  InstantsIn cftime f w ts -> LevelsIn f levels -> Shaped w (length ts) levels (length nodes) ->
  Changes (Some ts) levels F ->
  (forall ix t d, SampleAt (Some ts) levels ix t d ->
     MaskedSamples (length nodes) (m t d) (FieldAt nodes (F t d)) (fm_part w ix) /\ LinearOverFaces nodes faces (F t d) /\
     forall s j a b c, In s pts -> FaceAsked (length faces) (find (place s)) j -> nth_error faces j = Some [Z.of_nat a; Z.of_nat b; Z.of_nat c] ->
       m t d b = m t d a /\ m t d c = m t d a) ->
  TimeOk (Some ts) ex q q' -> Upwards levels -> (forall s, In s pts -> ~ AtTop levels (deep s)) ->
  exists cs, ask_file dateutil cftime now tree hist f k q ex pts = Ok cs /\
    Forall2 (fun s r => exists j a b c, FaceAsked (length faces) (find (place s)) j /\ nth_error faces j = Some [Z.of_nat a; Z.of_nat b; Z.of_nat c] /\
      UnderWater levels (deep s) (fun z r => let missing := Missing (Some ts) levels ex q q' (deep s) z (fun u d => m u d a) in
      (find (place s) <> (-1)%Z -> Sees missing (F q' z (place s)) r) /\ (find (place s) = (-1)%Z -> Sees missing 0 r)) r) pts cs.
Proof.
  intros dateutil cftime now tree hist f p vs mv nodes faces find k w ts levels F m q q' ex pts U MV NI FI T O HT HH FF I Un Lo In_ Lv Sh Ch Sa TO DO NT.
  destruct (opened_answer dateutil cftime now tree hist f p vs mv nodes faces U MV NI FI T O k "node" w ts levels (length nodes) I Un Lo ltac:(unfold ValidLocation; auto 10) In_ Lv Sh)
    as (t & Td & LO & _ & _ & E).
  rewrite E. subst ts.
  destruct (c109_any_depth_nodes_partial tree hist nodes faces find (fm_part w) (Some t) levels default_sbc default_bbc q q' ex F m pts) as (cs & Ec & V); auto.
  - intros s Hs. apply upwards_any; auto.
  - exists cs. split; [exact Ec|]. revert V. apply Forall2_in. intros s r Hs H. destruct H as (j & a & b & c & Fk & Hf & H). exists j, a, b, c. split; [exact Fk|split; [exact Hf|]]. revert H. apply upwards_water; auto.
Qed.
Print Assumptions c109_file_upwards_nodes_partial.

Theorem c109_file_upwards_faces_partial :
  forall dateutil cftime now tree hist f p vs mv nodes faces find k w ts levels (F : Z -> Q -> nat -> Q) (m : Z -> Q -> nat -> bool) q q' ex pts,
  UniqueNames f -> MeshVarOf f mv -> NodesIn f mv nodes -> FacesIn f mv faces -> TriMesh nodes faces ->
  open_dataset dateutil cftime f = Ok (p, vs) ->
  (forall ps, tree nodes faces ps = map find ps) -> (forall ix ps, Forall asks (hist ix ps)) -> FindsFaces nodes faces find ->
  In (k, w) (fi_vars f) -> Unmentioned mv k -> Attr w "location" "face" ->
  InstantsIn cftime f w ts -> LevelsIn f levels -> Shaped w (length ts) levels (length faces) ->
  Changes (Some ts) levels F ->
  (forall ix t d, SampleAt (Some ts) levels ix t d -> MaskedSamples (length faces) (m t d) (F t d) (fm_part w ix)) ->
  TimeOk (Some ts) ex q q' -> Upwards levels -> (forall s, In s pts -> ~ AtTop levels (deep s)) ->
  exists cs, ask_file dateutil cftime now tree hist f k q ex pts = Ok cs /\
    Forall2 (fun s r => forall j, FaceAsked (length faces) (find (place s)) j ->
      UnderWater levels (deep s) (fun z r => let missing := Missing (Some ts) levels ex q q' (deep s) z (fun u d => m u d j) in
      (find (place s) <> (-1)%Z -> Sees missing (F q' z j) r) /\ (find (place s) = (-1)%Z -> Sees missing 0 r)) r) pts cs.
Proof.
  intros dateutil cftime now tree hist f p vs mv nodes faces find k w ts levels F m q q' ex pts U MV NI FI T O HT HH FF I Un Lo In_ Lv Sh Ch Sa TO DO NT.
  destruct (opened_answer dateutil cftime now tree hist f p vs mv nodes faces U MV NI FI T O k "face" w ts levels (length faces) I Un Lo ltac:(unfold ValidLocation; auto 10) In_ Lv Sh)
    as (t & Td & LO & _ & _ & E).
  rewrite E. subst ts.
  destruct (c109_any_depth_faces_partial tree hist nodes faces find (fm_part w) (Some t) levels default_sbc default_bbc q q' ex F m pts) as (cs & Ec & V); auto.
  - apply T.
  - intros s Hs. apply upwards_any; auto.
  - exists cs. split; [exact Ec|]. revert V. apply Forall2_in. intros s r Hs H. intros j Fk. specialize (H j Fk). revert H. apply upwards_water; auto.
Qed.
Print Assumptions c109_file_upwards_faces_partial.

(** The sea of [c102_file] with its depths listed upwards. *)
Definition up_spots : list spot := [((3 # 4, 3 # 4), 3); ((1 # 4, 1 # 4), 10); ((3 # 4, 3 # 4), 50)]%Q.
Example c102_upwards_below_example :
  exists v w cs, c102_ask up_file "temp" (hour + 1800000000)%Z false up_spots = Ok cs /\ cs = [CVal v; CVal w; CMasked] /\
    (v == c102_field (hour + 1800000000)%Z 3 (3 # 4, 3 # 4))%Q /\ (w == c102_field (hour + 1800000000)%Z 10 (1 # 4, 1 # 4))%Q.
Proof.
  assert (O : exists p, open_dataset demo_dateutil demo_cftime up_file = Ok p) by (eexists; vm_compute; reflexivity).
  destruct O as ([m vs] & O).
  destruct (c102_upwards_nodes_partial demo_dateutil demo_cftime (mkTime [0%Z] None None) c94_tree (fun _ _ => []) up_file m vs c102_mesh_var c94_nodes c94_faces c94_find "temp" up_temp c102_times
    (Some up_levels) c102_field (hour + 1800000000)%Z (hour + 1800000000)%Z false up_spots up_unique up_mesh_of up_nodes_of up_faces_of c94_mesh O) as (cs & E & V).
  - reflexivity.
  - intros. constructor.
  - exact c94_finds.
  - do 6 right. left. reflexivity.
  - apply c102_unmentioned. cbn [In]. intros H. repeat (destruct H as [H|H]; [discriminate H|]). exact H.
  - reflexivity.
  - apply up_axis; [do 4 right; left; reflexivity|eexists; reflexivity|reflexivity].
  - exact up_levels_of.
  - reflexivity.
  - split; intros l _; intros; unfold c102_field.
    + intros k t0 t1 q _ _ _. unfold Qdiv. ring.
    + intros k a b s _ _ _ w ->. ring.
  - intros ix t d HS. split; [exact (proj1 c102_upwards_refuted ix t d HS)|].
    intros a b c A B C _ _ _ _. exists (inject_Z t / inject_Z hour + d * 3)%Q, 1%Q, 2%Q. intros p _. unfold c102_field. ring.
  - exact up_time.
  - exact up_upwards.
  - intros s Hs (ls & b & El & Hb & L). injection El as <-. injection Hb as <-. destruct Hs as [<-|[<-|[<-|[]]]]; vm_compute in L; apply L; reflexivity.
  - inversion V as [|s1 c1 l1 m1 V1 F1]; subst. inversion F1 as [|s2 c2 l2 m2 V2 F2]; subst. inversion F2 as [|s3 c3 l3 m3 V3 F3]; subst. inversion F3; subst.
    destruct (V1 10%Q eq_refl) as [_ A1]. destruct (V2 10%Q eq_refl) as [_ A2]. destruct (V3 10%Q eq_refl) as [A3 _].
    assert (D1 : (3 <= 10)%Q) by discriminate. assert (D2 : (10 <= 10)%Q) by discriminate. assert (D3 : (10 < 50)%Q) by reflexivity.
    destruct (proj1 (A1 D1)) as (v & -> & Ev); [vm_compute; discriminate|]. destruct (proj1 (A2 D2)) as (w & -> & Ew); [vm_compute; discriminate|].
    exists v, w. eexists. split; [exact E|]. rewrite (A3 D3). auto.
Qed.
