(** C109: files with missing values. *)
From Coq Require Import String Lqa.
From Verif Require Import Common CommonProofs TimeModel TimeSpec TimeProofs GridTypeModel GridTypeSpec MaskModel MaskSpec MaskProofs VariableModel VariableSpec VariableProofs DepthModel DepthSpec DepthProofs
  UGridGeomModel UGridGeomSpec UGridLocProofs RGridModel RGridSpec TFileModel TFileSpec TFileProps LoadModel LoadSpec LoadProofs VLoadModel UFileModel UFileSpec WholeModel WholeSpec WholeProofs WholeProps
  FMeshModel FMeshSpec FMeshProofs FMeshProps FRectModel FRectSpec FRectProofs FRectProps FStagSpec FRomsModel FRomsSpec FFvcomModel FFvcomSpec FFvcomRead FFvcomProofs FFvcomProps WMaskSpec WMaskProofs WMaskProps.
Open Scope string_scope.
Open Scope list_scope.
Open Scope nat_scope.

(** A file with a mesh: data at the nodes, and at the faces. *)
Theorem c109_file_nodes_partial :
  forall dateutil cftime now tree hist f p vs mv nodes faces find k w ts levels (F : quantity) (m : Z -> Q -> nat -> bool) q q' ex z pts,
  UniqueNames f -> MeshVarOf f mv -> NodesIn f mv nodes -> FacesIn f mv faces -> TriMesh nodes faces ->
  open_dataset dateutil cftime f = Ok (p, vs) ->
  (forall ps, tree nodes faces ps = map find ps) -> (forall ix ps, Forall asks (hist ix ps)) -> FindsFaces nodes faces find ->
  In (k, w) (fi_vars f) -> Unmentioned mv k -> Attr w "location" "node" ->
  InstantsIn cftime f w ts -> LevelsIn f levels -> Shaped w (length ts) levels (length nodes) ->
  Changes (Some ts) levels F ->
  (forall ix t d, SampleAt (Some ts) levels ix t d ->
     MaskedSamples (length nodes) (m t d) (FieldAt nodes (F t d)) (fm_part w ix) /\ LinearOverFaces nodes faces (F t d) /\
     forall s j a b c, In s pts -> FaceAsked (length faces) (find (place s)) j -> nth_error faces j = Some [Z.of_nat a; Z.of_nat b; Z.of_nat c] ->
       m t d b = m t d a /\ m t d c = m t d a) ->
  TimeOk (Some ts) ex q q' -> (forall s, In s pts -> DepthOk levels default_sbc default_bbc (deep s) (z (deep s))) ->
  exists cs, ask_file dateutil cftime now tree hist f k q ex pts = Ok cs /\
    Forall2 (fun s r => exists j a b c, FaceAsked (length faces) (find (place s)) j /\ nth_error faces j = Some [Z.of_nat a; Z.of_nat b; Z.of_nat c] /\
      let missing := Missing (Some ts) levels ex q q' (deep s) (z (deep s)) (fun u d => m u d a) in
      (find (place s) <> (-1)%Z -> Sees missing (F q' (z (deep s)) (place s)) r) /\ (find (place s) = (-1)%Z -> Sees missing 0 r)) pts cs.
Proof.
  intros dateutil cftime now tree hist f p vs mv nodes faces find k w ts levels F m q q' ex z pts U MV NI FI T O HT HH FF I Un Lo In_ Lv Sh Ch Sa TO DO.
  destruct (opened_answer dateutil cftime now tree hist f p vs mv nodes faces U MV NI FI T O k "node" w ts levels (length nodes) I Un Lo ltac:(unfold ValidLocation; auto 10) In_ Lv Sh)
    as (t & Td & LO & _ & _ & E).
  rewrite E. subst ts. apply (c109_mesh_nodes_partial tree hist nodes faces find (fm_part w) (Some t) levels default_sbc default_bbc q q' ex F m z pts); auto.
Qed.
Print Assumptions c109_file_nodes_partial.
Theorem c109_file_faces_partial :
  forall dateutil cftime now tree hist f p vs mv nodes faces find k w ts levels (F : Z -> Q -> nat -> Q) (m : Z -> Q -> nat -> bool) q q' ex z pts,
  UniqueNames f -> MeshVarOf f mv -> NodesIn f mv nodes -> FacesIn f mv faces -> TriMesh nodes faces ->
  open_dataset dateutil cftime f = Ok (p, vs) ->
  (forall ps, tree nodes faces ps = map find ps) -> (forall ix ps, Forall asks (hist ix ps)) -> FindsFaces nodes faces find ->
  In (k, w) (fi_vars f) -> Unmentioned mv k -> Attr w "location" "face" ->
  InstantsIn cftime f w ts -> LevelsIn f levels -> Shaped w (length ts) levels (length faces) ->
  Changes (Some ts) levels F ->
  (forall ix t d, SampleAt (Some ts) levels ix t d -> MaskedSamples (length faces) (m t d) (F t d) (fm_part w ix)) ->
  TimeOk (Some ts) ex q q' -> (forall s, In s pts -> DepthOk levels default_sbc default_bbc (deep s) (z (deep s))) ->
  exists cs, ask_file dateutil cftime now tree hist f k q ex pts = Ok cs /\
    Forall2 (fun s r => forall j, FaceAsked (length faces) (find (place s)) j ->
      let missing := Missing (Some ts) levels ex q q' (deep s) (z (deep s)) (fun u d => m u d j) in
      (find (place s) <> (-1)%Z -> Sees missing (F q' (z (deep s)) j) r) /\ (find (place s) = (-1)%Z -> Sees missing 0 r)) pts cs.
Proof.
  intros dateutil cftime now tree hist f p vs mv nodes faces find k w ts levels F m q q' ex z pts U MV NI FI T O HT HH FF I Un Lo In_ Lv Sh Ch Sa TO DO.
  destruct (opened_answer dateutil cftime now tree hist f p vs mv nodes faces U MV NI FI T O k "face" w ts levels (length faces) I Un Lo ltac:(unfold ValidLocation; auto 10) In_ Lv Sh)
    as (t & Td & LO & _ & _ & E).
  rewrite E. subst ts. apply (c109_mesh_faces_partial tree hist nodes faces find (fm_part w) (Some t) levels default_sbc default_bbc q q' ex F m z pts); auto. apply T.
Qed.
Print Assumptions c109_file_faces_partial.

(** A file of FVCOM: data over time only, at the nodes and at the faces. *)
Theorem c109_fvcom_nodes_partial :
  forall dateutil cftime now tree hist find f p n nodes faces g b vs k w ts (X : Z -> point -> Q) (m : Z -> nat -> bool) q q' ex pts,
  FvcomFile f p n nodes faces g -> open_fvcom_dataset dateutil cftime now f = Ok (b, vs) ->
  (forall ps, tree nodes faces ps = map find ps) -> (forall ix ps, Forall asks (hist ix ps)) -> FindsFaces nodes faces find ->
  In (k, w) (fi_vars f) -> ~ In k (mesh_names p n) -> On (length nodes) (length faces) w (length nodes) "node" ->
  InstantsIn cftime f w ts -> fm_shape w = [length ts; length nodes] -> TimeOk (Some ts) ex q q' ->
  (forall i t, nth_error ts i = Some t -> MaskedSamples (length nodes) (m t) (FieldAt nodes (X t)) (fm_part w [i]) /\ LinearOverFaces nodes faces (X t) /\
     forall s j a b c, In s pts -> FaceAsked (length faces) (find (place s)) j -> nth_error faces j = Some [Z.of_nat a; Z.of_nat b; Z.of_nat c] -> m t b = m t a /\ m t c = m t a) ->
  (forall s, LinearInTime ts (fun t => X t s)) ->
  exists cs, ask_fvcom dateutil cftime now tree hist f k q ex pts = Ok cs /\
    Forall2 (fun s r => exists j a b c, FaceAsked (length faces) (find (place s)) j /\ nth_error faces j = Some [Z.of_nat a; Z.of_nat b; Z.of_nat c] /\
      let missing := exists u, TimeUsed ts ex q u /\ m u a = true in
      (find (place s) <> (-1)%Z -> Sees missing (X q' (place s)) r) /\ (find (place s) = (-1)%Z -> Sees missing 0 r)) pts cs.
Proof.
  intros dateutil cftime now tree hist find f p n nodes faces g b vs k w ts X m q q' ex pts F O HT HH FF I NG On_ In_ Sh TO Sm LT.
  destruct (fvcom_flat_asked dateutil cftime now f p n nodes faces g F (b, vs) O k w I NG (length nodes) "node" On_ ts [] In_ Sh tree hist eq_refl) as (tm & Td & E). rewrite E. subst ts.
  destruct (c109_mesh_nodes_partial tree hist nodes faces find (fm_part w) (Some tm) None default_sbc default_bbc q q' ex (fun t _ => X t) (fun t _ => m t) (fun z => z) pts HT HH (proj1 (proj2 F)) FF TO) as (cs & Ec & V).
  - intros l H. discriminate H.
  - intros s _ l H. discriminate H.
  - split; [|intros l H; discriminate H]. intros l H d r. cbn in H. injection H as <-. apply LT.
  - intros ix t d (i & -> & Hi). exact (Sm i t Hi).
  - exists cs. split; [exact Ec|]. revert V. apply Forall2_impl'. intros s r (j & a & b' & c & Fk & Hf & H1 & H2). exists j, a, b', c. split; [exact Fk|split; [exact Hf|]]. cbv zeta.
    assert (Q : Missing (Some (t_data tm)) None ex q q' (deep s) (deep s) (fun u _ => m u a) <-> exists u, TimeUsed (t_data tm) ex q u /\ m u a = true).
    { split; [intros (u & d & Hu & _ & H); eauto|intros (u & Hu & H); exists u, (deep s); auto]. repeat split; auto. }
    split; intros H; [specialize (H1 H)|specialize (H2 H)]; eapply sees_iff; eauto.
Qed.
Print Assumptions c109_fvcom_nodes_partial.
Theorem c109_fvcom_faces_partial :
  forall dateutil cftime now tree hist find f p n nodes faces g b vs k w ts (X : Z -> nat -> Q) (m : Z -> nat -> bool) q q' ex pts,
  FvcomFile f p n nodes faces g -> open_fvcom_dataset dateutil cftime now f = Ok (b, vs) ->
  (forall ps, tree nodes faces ps = map find ps) -> (forall ix ps, Forall asks (hist ix ps)) -> FindsFaces nodes faces find ->
  In (k, w) (fi_vars f) -> ~ In k (mesh_names p n) -> On (length nodes) (length faces) w (length faces) "face" ->
  InstantsIn cftime f w ts -> fm_shape w = [length ts; length faces] -> TimeOk (Some ts) ex q q' ->
  (forall i t, nth_error ts i = Some t -> MaskedSamples (length faces) (m t) (X t) (fm_part w [i])) ->
  (forall j, LinearInTime ts (fun t => X t j)) ->
  exists cs, ask_fvcom dateutil cftime now tree hist f k q ex pts = Ok cs /\
    Forall2 (fun s r => forall j, FaceAsked (length faces) (find (place s)) j -> let missing := exists u, TimeUsed ts ex q u /\ m u j = true in
      (find (place s) <> (-1)%Z -> Sees missing (X q' j) r) /\ (find (place s) = (-1)%Z -> Sees missing 0 r)) pts cs.
Proof.
  intros dateutil cftime now tree hist find f p n nodes faces g b vs k w ts X m q q' ex pts F O HT HH FF I NG On_ In_ Sh TO Sm LT.
  destruct (fvcom_flat_asked dateutil cftime now f p n nodes faces g F (b, vs) O k w I NG (length faces) "face" On_ ts [] In_ Sh tree hist eq_refl) as (tm & Td & E). rewrite E. subst ts.
  destruct (c109_mesh_faces_partial tree hist nodes faces find (fm_part w) (Some tm) None default_sbc default_bbc q q' ex (fun t _ => X t) (fun t _ => m t) (fun z => z) pts HT HH (proj1 (proj1 (proj2 F))) FF TO) as (cs & Ec & V).
  - intros l H. discriminate H.
  - intros s _ l H. discriminate H.
  - split; [|intros l H; discriminate H]. intros l H d r. cbn in H. injection H as <-. apply LT.
  - intros ix t d (i & -> & Hi). exact (Sm i t Hi).
  - exists cs. split; [exact Ec|]. revert V. apply Forall2_impl'. intros s r H j Fk. destruct (H j Fk) as [H1 H2]. cbv zeta.
    assert (Q : Missing (Some (t_data tm)) None ex q q' (deep s) (deep s) (fun u _ => m u j) <-> exists u, TimeUsed (t_data tm) ex q u /\ m u j = true).
    { split; [intros (u & d & Hu & _ & Hm); eauto|intros (u & Hu & Hm); exists u, (deep s)]. repeat split; auto. }
    split; intros H'; [specialize (H1 H')|specialize (H2 H')]; eapply sees_iff; eauto.
Qed.
Print Assumptions c109_fvcom_faces_partial.

(** A file with a regular grid. *)
Definition MaskedRows (w : mvar) (ix : list nat) (sw : bool) (lon lat : list Q) (m : nat -> nat -> bool) (F : point -> Q) : Prop :=
  forall i a, nth_error (if sw then lon else lat) i = Some a -> let row := fm_part w (ix ++ [i]) in let x := if sw then lat else lon in
  length row = length x /\ forall j b c, nth_error x j = Some b -> nth_error row j = Some c -> Sees (m i j = true) (F (if sw then (a, b) else (b, a))) c.
Lemma masked_rows (w : mvar) (ix : list nat) (sw : bool) (lon lat : list Q) (la ln : string) m (F : point -> Q) : nth (length ix) (fm_shape w) 0 = length (if sw then lon else lat) -> MaskedRows w ix sw lon lat m F ->
  let g := rg_new lon lat (Some (la, ln)) in MaskedTable (fst (yx_axes g sw)) (snd (yx_axes g sw)) m (fun a b => F (if sw then (a, b) else (b, a))) (FRectModel.table_of w ix).
Proof.
  intros El R g. unfold FRectModel.table_of. rewrite El.
  assert (Ey : fst (yx_axes g sw) = if sw then lon else lat) by (destruct sw; reflexivity). assert (Ex : snd (yx_axes g sw) = if sw then lat else lon) by (destruct sw; reflexivity).
  rewrite Ey, Ex. clear Ey Ex. set (y := if sw then lon else lat) in *. set (x := if sw then lat else lon) in *.
  assert (K : forall i row, nth_error (map (fun i => fm_part w (ix ++ [i])) (seq 0 (length y))) i = Some row -> row = fm_part w (ix ++ [i]) /\ i < length y).
  { intros i row H. pose proof (nth_error_Some_lt _ _ _ H) as Hl. rewrite map_length, seq_length in Hl. apply nth_map_some in H. destruct H as (k & Hk & ->).
    apply nth_error_nth with (d := 0) in Hk. rewrite seq_nth in Hk by exact Hl. cbn [Nat.add] in Hk. subst k. auto. }
  split; [now rewrite map_length, seq_length|]. split.
  - intros i row H. destruct (K i row H) as [-> Hl]. destruct (nth_error_lt_Some y i Hl) as [a Ha]. apply (R i a Ha).
  - intros i j row c a b H Hc Ha Hb. destruct (K i row H) as [-> _]. destruct (R i a Ha) as [_ R2]. exact (R2 j b c Hb Hc).
Qed.
Theorem c109_file_rect_as_zero_partial :
  forall dateutil cftime now f ln la lon lat p k w sw loc ts levels (F G : quantity) (m : Z -> Q -> nat -> nat -> bool) q q' ex z pts,
  RectFile f ln la lon lat -> Monotone lon -> Monotone lat -> 2 <= length lon -> 2 <= length lat -> open_rect_dataset dateutil cftime f = Ok p ->
  In (k, w) (fi_vars f) -> k <> ln -> k <> la -> Placed w sw loc -> InstantsIn cftime f w ts -> LevelsIn f levels ->
  OnAxes w ln la (length lon) (length lat) (length ts) levels sw ->
  Changes (Some ts) levels G ->
  (forall ix t d, SampleAt (Some ts) levels ix t d -> MaskedRows w ix sw lon lat (m t d) (F t d) /\ BilinearOverCells lon lat (G t d) /\
     forall i j a b, nth_error (if sw then lon else lat) i = Some a -> nth_error (if sw then lat else lon) j = Some b ->
       let p := if sw then (a, b) else (b, a) in (G t d p == if m t d i j then 0 else F t d p)%Q) ->
  TimeOk (Some ts) ex q q' -> (forall s, In s pts -> DepthOk levels default_sbc default_bbc (deep s) (z (deep s))) ->
  exists cs, ask_rect dateutil cftime now f k q ex pts = Ok cs /\
    Forall2 (fun s c => let inside := Spans lon (fst (place s)) /\ Spans lat (snd (place s)) in
      (inside -> Shows (G q' (z (deep s)) (place s)) c) /\ (~ inside -> Shows 0 c)) pts cs.
Proof.
  intros dateutil cftime now f ln la lon lat p k w sw loc ts levels F G m q q' ex z pts R M1 M2 L1 L2 O I N1 N2 Pl In_ Lv Ox Ch Sa TO DO.
  destruct (placed_location ln la lon lat _ _ _ _ _ Pl Ox) as [HL _].
  pose proof (on_axes_yx w ln la lon lat _ _ _ (proj2 (proj2 (axis_words _ _ _ _ _ R))) Ox) as Yx. destruct Ox as (Dm & Sh).
  set (g := rg_new lon lat (Some (la, ln))) in *.
  assert (Eo : Over sw (length lat) (length lon) = [length (fst (yx_axes g sw)); length (snd (yx_axes g sw))]) by (destruct sw; reflexivity).
  rewrite Eo in Sh.
  destruct (rect_asked dateutil cftime now f ln la lon lat R p O k w ts levels loc I N1 N2 HL In_ Lv _ _ Sh) as (t & Td & LO & E). fold g in E.
  subst ts. assert (Es : fm_shape w = shape_of (Some t) levels [length (fst (yx_axes g sw)); length (snd (yx_axes g sw))]) by exact Sh. rewrite Es in Yx.
  destruct (c109_rectangular_as_zero_partial g (Some (fm_dims w)) sw (FRectModel.table_of w) (Some t) levels default_sbc default_bbc q q' ex F G m z pts) as (cs & Ec & V); auto.
  - intros ix u d HS. destruct (Sa ix u d HS) as (Rs & B & Z0). split; [|split; [exact B|]].
    + apply masked_rows; [|exact Rs]. rewrite Es. destruct levels as [ls|]; cbn [SampleAt option_map] in HS; [destruct HS as (i & j & -> & _)|destruct HS as (i & -> & _)]; destruct sw; reflexivity.
    + intros i j a b. specialize (Z0 i j a b). destruct sw; exact Z0.
  - exists cs. split; [rewrite E; exact Ec|exact V].
Qed.
Print Assumptions c109_file_rect_as_zero_partial.
Theorem c109_file_rect_clear_partial :
  forall dateutil cftime now f ln la lon lat p k w sw loc ts levels (F : quantity) (m : Z -> Q -> nat -> nat -> bool) q q' ex z pts,
  RectFile f ln la lon lat -> Monotone lon -> Monotone lat -> 2 <= length lon -> 2 <= length lat -> open_rect_dataset dateutil cftime f = Ok p ->
  In (k, w) (fi_vars f) -> k <> ln -> k <> la -> Placed w sw loc -> InstantsIn cftime f w ts -> LevelsIn f levels ->
  OnAxes w ln la (length lon) (length lat) (length ts) levels sw ->
  Changes (Some ts) levels F ->
  (forall ix t d, SampleAt (Some ts) levels ix t d -> MaskedRows w ix sw lon lat (m t d) (F t d) /\ BilinearOverCells lon lat (F t d) /\
     forall s, In s pts -> if sw then ClearAt lon lat (m t d) (fst (place s)) (snd (place s)) else ClearAt lat lon (m t d) (snd (place s)) (fst (place s))) ->
  TimeOk (Some ts) ex q q' -> (forall s, In s pts -> DepthOk levels default_sbc default_bbc (deep s) (z (deep s))) ->
  exists cs, ask_rect dateutil cftime now f k q ex pts = Ok cs /\
    Forall2 (fun s c => let inside := Spans lon (fst (place s)) /\ Spans lat (snd (place s)) in
      (inside -> Shows (F q' (z (deep s)) (place s)) c) /\ (~ inside -> Shows 0 c)) pts cs.
Proof.
  intros dateutil cftime now f ln la lon lat p k w sw loc ts levels F m q q' ex z pts R M1 M2 L1 L2 O I N1 N2 Pl In_ Lv Ox Ch Sa TO DO.
  destruct (placed_location ln la lon lat _ _ _ _ _ Pl Ox) as [HL _].
  pose proof (on_axes_yx w ln la lon lat _ _ _ (proj2 (proj2 (axis_words _ _ _ _ _ R))) Ox) as Yx. destruct Ox as (Dm & Sh).
  set (g := rg_new lon lat (Some (la, ln))) in *.
  assert (Eo : Over sw (length lat) (length lon) = [length (fst (yx_axes g sw)); length (snd (yx_axes g sw))]) by (destruct sw; reflexivity).
  rewrite Eo in Sh.
  destruct (rect_asked dateutil cftime now f ln la lon lat R p O k w ts levels loc I N1 N2 HL In_ Lv _ _ Sh) as (t & Td & LO & E). fold g in E.
  subst ts. assert (Es : fm_shape w = shape_of (Some t) levels [length (fst (yx_axes g sw)); length (snd (yx_axes g sw))]) by exact Sh. rewrite Es in Yx.
  destruct (c109_rectangular_clear_partial g (Some (fm_dims w)) sw (FRectModel.table_of w) (Some t) levels default_sbc default_bbc q q' ex F m z pts) as (cs & Ec & V); auto.
  - intros ix u d HS. destruct (Sa ix u d HS) as (Rs & B & Cl). split; [|split; [exact B|]].
    + apply masked_rows; [|exact Rs]. rewrite Es. destruct levels as [ls|]; cbn [SampleAt option_map] in HS; [destruct HS as (i & j & -> & _)|destruct HS as (i & -> & _)]; destruct sw; reflexivity.
    + intros s Hs. specialize (Cl s Hs). destruct sw; exact Cl.
  - exists cs. split; [rewrite E; exact Ec|exact V].
Qed.
Print Assumptions c109_file_rect_clear_partial.

(** ** A file: the deepest level is missing at the first instant *)
Definition c109_file_mask (t : Z) (d : Q) (i : nat) : bool := ((t =? hour)%Z && Qle_bool 10 d)%bool.
Definition c109_part (ix : list nat) : list cell :=
  match ix with
  | [i; j] => let t := nth i c102_times 0%Z in let d := nth j c94_levels 0%Q in map (fun p => if c109_file_mask t d 0 then CMasked else CVal (c102_field t d p)) c94_nodes
  | _ => []
  end.
Definition c109_temp : mvar := c102_var ["time"; "depth"; "node"] [2; 3; 4] [("location", "node"); ("units", "C")] c109_part.
Definition c109_file : file := mkFile None ["node"; "face"; "three"; "time"; "depth"]
  (c102_grid_vars ++ [("time", c102_time); ("depth", c102_depth); ("temp", c109_temp)]).
Definition c109_spots : list spot := [((1 # 4, 1 # 4), 3); ((3 # 4, 3 # 4), 7); ((5, 5), 3)]%Q.
Lemma c109_unique : UniqueNames c109_file.
Proof. unfold UniqueNames. cbn [c109_file fi_vars c102_grid_vars app map fst]. distinct. Qed.
Lemma c109_mesh_of : MeshVarOf c109_file c102_mesh_var.
Proof.
  exists "mesh". split; [left; reflexivity|]. split; [exists "mesh_topology"; split; [reflexivity|]; exists "", ""; repeat split|]. split; [right; reflexivity|].
  intros n v r I. unfold Attr. cbn [c109_file fi_vars c102_grid_vars app In] in I.
  destruct I as [I|[I|[I|[I|[I|[I|[I|[]]]]]]]]; injection I as <- <-; intros A; vm_compute in A; try discriminate. reflexivity.
Qed.
Lemma c109_nodes_of : NodesIn c109_file c102_mesh_var c94_nodes.
Proof.
  exists "lon lat", "lon", "lat", (c102_coord "longitude" [0; 1; 0; 1]%Q), (c102_coord "latitude" [0; 0; 1; 1]%Q), [0; 1; 0; 1]%Q, [0; 0; 1; 1]%Q.
  split; [reflexivity|]. split; [exact (split_words "lon lat")|]. split; [right; left; reflexivity|]. split; [right; right; left; reflexivity|].
  split; [left|split; reflexivity]. split; [left; exists "longitude"; split; [reflexivity|left; reflexivity]|].
  split; [left; exists "latitude"; split; [reflexivity|left; reflexivity]|]. split; reflexivity.
Qed.
Lemma c109_faces_of : FacesIn c109_file c102_mesh_var c94_faces.
Proof.
  exists "nv", c102_nv, 1%Z. split; [reflexivity|]. split; [right; right; right; left; reflexivity|]. split; [reflexivity|]. split; [lia|].
  split; [repeat constructor|]. right. exists [[Some 0; Some 1]; [Some 1; Some 3]; [Some 2; Some 2]]%Z. split.
  - split; [reflexivity|]. split; [repeat constructor|]. intros i j Hi Hj. destruct i as [|[|i]]; [| |cbn in Hi; lia]; (destruct j as [|[|[|j]]]; [| | |lia]); reflexivity.
  - assert (E : forall i : Z, StoredEntry 1 None (Some i) (Some (i + 1)%Z)) by (intros; constructor; discriminate).
    repeat (constructor; [repeat (constructor; [exact (E _)|]); constructor|]). constructor.
Qed.
Lemma c109_instants w : (exists r, fm_dims w = "time" :: r) -> dget (fm_attrs w) "time" = None -> InstantsIn demo_cftime c109_file w c102_times.
Proof.
  intros (r & Hr) Ha. exists "time", c102_time. split; [|split; [do 4 right; left; reflexivity|]].
  - right. split; [intros n [A _]; cbn [to_load lv_attrs] in A; congruence|]. split; [exists r; exact Hr|]. exists "", "". reflexivity.
  - split; [|split].
    + exists "hours since 2024-01-01T00:00:00", hour, 0%Z, 0%Z. split; [reflexivity|]. split; [reflexivity|]. repeat constructor.
    + exists "hours since 2024-01-01T00:00:00". split; [reflexivity|]. exists "hours ", " 2024-01-01T00:00:00". reflexivity.
    + intros i j a b Hij Ha' Hb. destruct i as [|[|i]], j as [|[|j]]; cbn in Ha', Hb; try discriminate; try lia; try (destruct j; discriminate); try (destruct i; discriminate).
      injection Ha' as <-. injection Hb as <-. reflexivity.
Qed.
Lemma c109_levels_of : LevelsIn c109_file (Some c94_levels).
Proof.
  split.
  - intros n v I. cbn [c109_file fi_vars c102_grid_vars app In] in I. destruct I as [I|[I|[I|[I|[I|[I|[I|[]]]]]]]]; injection I as <- <-; (split; [discriminate|]);
      intros a l [<-|[<-|[]]] A; vm_compute in A; try discriminate; injection A as <-; cbn [In]; intros H; repeat (destruct H as [H|H]; [discriminate H|]); exact H.
  - exists c102_depth. split; [exists "depth", [], ["depth_levels"; "Depth"]; split; [reflexivity|]; split; [do 5 right; left; reflexivity|intros m []]|].
    split; [|split; [cbn; lia|split; [left; exact c102_ascending|]]].
    + split; [reflexivity|]. exists 0, 0%Q. split; [reflexivity|]. split; [reflexivity|]. intros [|[|[|[|i]]]] x H N; cbn in H; try congruence; try lia; injection H as <-; (split; reflexivity).
    + intros x [<-|[<-|[<-|[]]]]; discriminate.
Qed.
Example c109_file_example :
  exists cs v w, c102_ask c109_file "temp" (hour + 1800000000)%Z false c109_spots = Ok cs /\ cs = [CVal v; CMasked; CVal w] /\ (v == 45 # 4)%Q /\ (w == 0)%Q /\
    Forall2 (fun s r => exists j a b c, FaceAsked 2 (c94_find (place s)) j /\ nth_error c94_faces j = Some [Z.of_nat a; Z.of_nat b; Z.of_nat c] /\
      let missing := Missing (Some c102_times) (Some c94_levels) false (hour + 1800000000)%Z (hour + 1800000000)%Z (deep s) (deep s) (fun u d => c109_file_mask u d a) in
      (c94_find (place s) <> (-1)%Z -> Sees missing (c102_field (hour + 1800000000)%Z (deep s) (place s)) r) /\ (c94_find (place s) = (-1)%Z -> Sees missing 0 r)) c109_spots cs.
Proof.
  assert (O : exists p, open_dataset demo_dateutil demo_cftime c109_file = Ok p) by (eexists; vm_compute; reflexivity).
  destruct O as ([m vs] & O).
  destruct (c109_file_nodes_partial demo_dateutil demo_cftime (mkTime [0%Z] None None) c94_tree (fun _ _ => []) c109_file m vs c102_mesh_var c94_nodes c94_faces c94_find "temp" c109_temp c102_times
    (Some c94_levels) c102_field c109_file_mask (hour + 1800000000)%Z (hour + 1800000000)%Z false (fun z => z) c109_spots c109_unique c109_mesh_of c109_nodes_of c109_faces_of c94_mesh O) as (cs & E & V).
  - reflexivity.
  - intros. constructor.
  - exact c94_finds.
  - do 6 right. left. reflexivity.
  - apply c102_unmentioned. cbn [In]. intros H. repeat (destruct H as [H|H]; [discriminate H|]). exact H.
  - reflexivity.
  - apply c109_instants; [eexists; reflexivity|reflexivity].
  - exact c109_levels_of.
  - reflexivity.
  - split; intros l _; intros; unfold c102_field.
    + intros k t0 t1 q _ _ _. unfold Qdiv. ring.
    + intros k a b s _ _ _ w ->. ring.
  - intros ix t d (i & j & -> & Hi & Hj). split; [|split; [|intros; split; reflexivity]].
    + destruct i as [|[|i]]; cbn in Hi; try (destruct i; discriminate); injection Hi as <-; (destruct j as [|[|[|j]]]; cbn in Hj; try (destruct j; discriminate); injection Hj as <-); (split; [reflexivity|]);
        intros [|[|[|[|[|k]]]]] c H; cbn in H; try discriminate; injection H as <-; ((left; split; reflexivity) || (right; split; [discriminate|eexists; split; reflexivity])).
    + intros a b c A B C _ _ _ _. exists (inject_Z t / inject_Z hour + d * 3)%Q, 1%Q, 2%Q. intros p _. unfold c102_field. ring.
  - intros l H. injection H as <-. split; [|split; [discriminate|left; split; [|reflexivity]]].
    + destruct (c109_instants c109_temp ltac:(eexists; reflexivity) eq_refl) as (n & aw & _ & _ & _ & _ & X). exact X.
    + exists hour, (2 * hour)%Z. split; [reflexivity|]. split; [reflexivity|]. unfold hour. lia.
  - intros s Hs l H. injection H as <-. exists 0%Q, 10%Q. split; [reflexivity|split; [reflexivity|left]]. split; [exact c102_ascending|].
    destruct Hs as [<-|[<-|[<-|[]]]]; (split; [split; [discriminate|reflexivity]|reflexivity]).
  - assert (X : exists v w, c102_ask c109_file "temp" (hour + 1800000000)%Z false c109_spots = Ok [CVal v; CMasked; CVal w] /\ (v == 45 # 4)%Q /\ (w == 0)%Q) by (do 2 eexists; split; [vm_compute; reflexivity|split; reflexivity]).
    destruct X as (v & w & Ev & V1 & V2). exists cs, v, w. split; [exact E|]. split; [unfold c102_ask in Ev; rewrite Ev in E; injection E as <-; reflexivity|]. auto.
Qed.
