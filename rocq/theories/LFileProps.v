(** C102, C104 and C109 for data on the layers between the levels of a file. *)
From Coq Require Import String Lqa.
From Verif Require Import Common CommonProofs TimeModel TimeSpec TimeProofs GridTypeModel GridTypeSpec MaskModel MaskSpec MaskProofs VariableModel VariableSpec VariableProofs DepthModel DepthSpec DepthProofs
  UGridGeomModel UGridGeomSpec UGridGeomProofs UGridLocProofs UGridInterpProofs RGridModel RGridSpec RGridProofs TFileModel TFileSpec TFileProps LoadModel LoadSpec LoadProofs VLoadModel UFileModel UFileSpec WholeModel WholeSpec WholeProofs WholeProps
  FMeshModel FMeshSpec FMeshProofs FMeshProps FRectModel FRectSpec FRectProofs FRectProps WMaskSpec WMaskProofs WMaskProps SWholeSpec AnyDepthSpec LayerSpec LayerProofs LayerProps.
From Verif Require UpProps.
Open Scope string_scope.
Open Scope list_scope.
Open Scope nat_scope.

Section Opened.
  Context (dateutil : string -> dparse) (cftime : string -> option (Z * Z * Z)).
  Context (now : time_obj) (tree : list pt -> list (list Z) -> list pt -> list Z) (hist : list nat -> list spot -> list ug_op).
  Lemma mesh_layers_asked f m vs mv nodes faces k loc w ts ls n :
    UniqueNames f -> MeshVarOf f mv -> NodesIn f mv nodes -> FacesIn f mv faces -> TriMesh nodes faces -> open_dataset dateutil cftime f = Ok (m, vs) ->
    In (k, w) (fi_vars f) -> Unmentioned mv k -> Attr w "location" loc -> ValidLocation loc -> InstantsIn cftime f w ts -> LevelsIn f (Some ls) ->
    fm_shape w = [length ts; length ls - 1; n] ->
    exists t, t_data t = ts /\ 2 <= length ls /\ Monotone ls /\ forall q ex pts,
    ask_file dateutil cftime now tree hist f k q ex pts =
    at_grid (mesh_interp tree hist nodes faces (place_of loc) (fm_part w)) (order_of (some (Some t)) true GOther) (layer_shape (Some t) ls [n]) (Some t)
      (Some (l_view deep ls (Some (length ls)) default_sbc default_bbc)) q ex pts.
  Proof.
    intros U MV NI FI T O I Un Lo VL In_ Lv Sh.
    pose proof O as O'. unfold open_dataset in O'. apply bind_ok in O'. destruct O' as (m' & Om & H). apply bind_ok in H. destruct H as (vs' & Hv & H). injection H as -> ->.
    destruct (mesh_read f m mv nodes faces U MV NI FI T Om) as (En & Ef & d & D & Et).
    destruct (loaded dateutil cftime _ (api m) f U vs k w loc ts Hv I (not_grid_name m mv d k Et D Un) (location_of_attr _ _ _ Lo VL) In_) as (v & t & nm & G & Vl & Vk & Vs & Vt & Td & Vd).
    destruct (levels_read f ls U Lv) as (R & L2 & Mo). exists t. split; [exact Td|split; [exact L2|split; [exact Mo|]]].
    intros q ex pts. unfold ask_file. rewrite O. cbn [bind fst snd]. rewrite G. unfold answer. rewrite Vk, (dget_unique _ _ _ U I), Vl, Vs, Vt, En, Ef. unfold depth_of.
    rewrite Vd, Sh. cbn [length api ga_kind GridDimensions Nat.eqb Nat.add]. rewrite R. cbn [bind fst snd]. rewrite <- Td. reflexivity.
  Qed.
  Lemma rect_layers_asked f ln la lon lat p k w ts ls loc a b : RectFile f ln la lon lat -> open_rect_dataset dateutil cftime f = Ok p ->
    In (k, w) (fi_vars f) -> k <> ln -> k <> la -> LocationOf (rect_api (rect_of ln la lon lat)) (to_load w) loc -> InstantsIn cftime f w ts -> LevelsIn f (Some ls) ->
    fm_shape w = [length ts; length ls - 1; a; b] ->
    exists t, t_data t = ts /\ 2 <= length ls /\ Monotone ls /\ forall q ex pts,
    ask_rect dateutil cftime now f k q ex pts =
    at_grid (rect_interp (rg_new lon lat (Some (la, ln))) (Some (fm_dims w)) (layer_shape (Some t) ls [a; b]) (table_of w))
      (order_of (some (Some t)) true GStructured) (layer_shape (Some t) ls [a; b]) (Some t)
      (Some (l_view deep ls (Some (length ls)) default_sbc default_bbc)) q ex pts.
  Proof.
    intros R O I N1 N2 HL In_ Lv Sh. destruct (open_inv _ _ _ _ _ _ _ R p O) as (Ep & Hv).
    destruct (loaded dateutil cftime _ _ f ltac:(apply R) (snd p) k w loc ts Hv I) as (v & t & nm & G & Vl & Vk & Vs & Vt & Td & Vd); auto.
    { intros X. apply (rect_grid_name _ _ _ _ _ _ R) in X. destruct X; contradiction. }
    destruct (levels_read f ls ltac:(apply R) Lv) as (Rd & L2 & Mo). exists t. split; [exact Td|split; [exact L2|split; [exact Mo|]]].
    intros q ex pts. unfold ask_rect. rewrite O. cbn [bind]. rewrite G, Ep. unfold rect_answer.
    rewrite Vk, (dget_unique _ _ _ (proj1 R) I), Vs, Vt, Sh. unfold depth_of. rewrite Vd, Sh. cbn [length rect_api ga_kind GridDimensions Nat.eqb Nat.add].
    rewrite Rd. cbn [bind fst snd]. rewrite <- Td. reflexivity.
  Qed.
End Opened.

(** A file with a mesh and data with a layer fewer than levels: the field of the
    layer that the point is in.  Missing: points above the first of levels listed
    downwards, and at or above the last of levels listed upwards. *)
Theorem c102_layers_nodes_partial :
  forall dateutil cftime now tree hist f m vs mv nodes faces find k w ts ls (F : Z -> nat -> point -> Q) q q' ex lay pts,
  UniqueNames f -> MeshVarOf f mv -> NodesIn f mv nodes -> FacesIn f mv faces -> TriMesh nodes faces ->
  open_dataset dateutil cftime f = Ok (m, vs) ->
  (forall ps, tree nodes faces ps = map find ps) -> (forall ix ps, Forall asks (hist ix ps)) -> FindsFaces nodes faces find ->
  In (k, w) (fi_vars f) -> Unmentioned mv k -> Attr w "location" "node" ->
  InstantsIn cftime f w ts -> LevelsIn f (Some ls) -> fm_shape w = [length ts; length ls - 1; length nodes] ->
  LayersChange (Some ts) F ->
  (forall ix t j, SlotAt (Some ts) (Some (length ls - 1)) ix t j -> NodeSamples nodes (F t j) (fm_part w ix) /\ LinearOverFaces nodes faces (F t j)) ->
  TimeOk (Some ts) ex q q' -> (forall s, In s pts -> Layered ls default_sbc default_bbc (deep s) (lay s)) ->
  exists cs, ask_file dateutil cftime now tree hist f k q ex pts = Ok cs /\
    Forall2 (fun s => AtLayer ls default_sbc default_bbc (deep s) (lay s) (fun c =>
      (find (place s) <> (-1)%Z -> Shows (F q' (lay s) (place s)) c) /\ (find (place s) = (-1)%Z -> Shows 0 c))) pts cs.
Proof.
  intros dateutil cftime now tree hist f m vs mv nodes faces find k w ts ls F q q' ex lay pts U MV NI FI T O HT HH FF I Un Lo In_ Lv Sh Ch Sa TO DO.
  destruct (mesh_layers_asked dateutil cftime now tree hist f m vs mv nodes faces k "node" w ts ls (length nodes) U MV NI FI T O I Un Lo ltac:(unfold ValidLocation; auto 10) In_ Lv Sh)
    as (t & Td & L2 & Mo & E).
  rewrite E. subst ts.
  exact (c94_mesh_nodes_layers_partial tree hist nodes faces find (fm_part w) (Some t) ls default_sbc default_bbc q q' ex F lay pts HT HH T FF TO L2 Mo DO Ch Sa).
Qed.
Print Assumptions c102_layers_nodes_partial.

(** Data on the faces, where some is missing. *)
Theorem c109_file_layers_faces_partial :
  forall dateutil cftime now tree hist f m vs mv nodes faces find k w ts ls (F : Z -> nat -> nat -> Q) (M : Z -> nat -> nat -> bool) q q' ex lay pts,
  UniqueNames f -> MeshVarOf f mv -> NodesIn f mv nodes -> FacesIn f mv faces -> TriMesh nodes faces ->
  open_dataset dateutil cftime f = Ok (m, vs) ->
  (forall ps, tree nodes faces ps = map find ps) -> (forall ix ps, Forall asks (hist ix ps)) -> FindsFaces nodes faces find ->
  In (k, w) (fi_vars f) -> Unmentioned mv k -> Attr w "location" "face" ->
  InstantsIn cftime f w ts -> LevelsIn f (Some ls) -> fm_shape w = [length ts; length ls - 1; length faces] ->
  LayersChange (Some ts) F ->
  (forall ix t j, SlotAt (Some ts) (Some (length ls - 1)) ix t j -> MaskedSamples (length faces) (M t j) (F t j) (fm_part w ix)) ->
  TimeOk (Some ts) ex q q' -> (forall s, In s pts -> Layered ls default_sbc default_bbc (deep s) (lay s)) ->
  exists cs, ask_file dateutil cftime now tree hist f k q ex pts = Ok cs /\
    Forall2 (fun s => AtLayer ls default_sbc default_bbc (deep s) (lay s) (fun r => forall j, FaceAsked (length faces) (find (place s)) j ->
      let missing := exists u, UsesTime (Some ts) ex q q' u /\ M u (lay s) j = true in
      (find (place s) <> (-1)%Z -> Sees missing (F q' (lay s) j) r) /\ (find (place s) = (-1)%Z -> Sees missing 0 r))) pts cs.
Proof.
  intros dateutil cftime now tree hist f m vs mv nodes faces find k w ts ls F M q q' ex lay pts U MV NI FI T O HT HH FF I Un Lo In_ Lv Sh Ch Sa TO DO.
  destruct (mesh_layers_asked dateutil cftime now tree hist f m vs mv nodes faces k "face" w ts ls (length faces) U MV NI FI T O I Un Lo ltac:(unfold ValidLocation; auto 10) In_ Lv Sh)
    as (t & Td & L2 & Mo & E).
  rewrite E. subst ts.
  exact (c109_mesh_faces_layers_partial tree hist nodes faces find (fm_part w) (Some t) ls default_sbc default_bbc q q' ex F M lay pts HT HH ltac:(apply T) FF TO L2 Mo DO Ch Sa).
Qed.
Print Assumptions c109_file_layers_faces_partial.

(** A file with a regular grid. *)
Theorem c104_layers_partial :
  forall dateutil cftime now f ln la lon lat p k w sw loc ts ls (F : Z -> nat -> point -> Q) q q' ex lay pts,
  RectFile f ln la lon lat -> Monotone lon -> Monotone lat -> 2 <= length lon -> 2 <= length lat -> open_rect_dataset dateutil cftime f = Ok p ->
  In (k, w) (fi_vars f) -> k <> ln -> k <> la -> Placed w sw loc -> InstantsIn cftime f w ts -> LevelsIn f (Some ls) ->
  OnAxes w ln la (length lon) (length lat) (length ts) (Some (skipn 1 ls)) sw ->
  LayersChange (Some ts) F ->
  (forall ix t j, SlotAt (Some ts) (Some (length ls - 1)) ix t j -> RowsSample w ix sw lon lat (F t j) /\ BilinearOverCells lon lat (F t j)) ->
  TimeOk (Some ts) ex q q' -> (forall s, In s pts -> Layered ls default_sbc default_bbc (deep s) (lay s)) ->
  exists cs, ask_rect dateutil cftime now f k q ex pts = Ok cs /\
    Forall2 (fun s => AtLayer ls default_sbc default_bbc (deep s) (lay s) (fun c => let inside := Spans lon (fst (place s)) /\ Spans lat (snd (place s)) in
      (inside -> Shows (F q' (lay s) (place s)) c) /\ (~ inside -> Shows 0 c))) pts cs.
Proof.
  intros dateutil cftime now f ln la lon lat p k w sw loc ts ls F q q' ex lay pts R M1 M2 L1 L2 O I N1 N2 Pl In_ Lv Ox Ch Sa TO DO.
  destruct (placed_location ln la lon lat _ _ _ _ _ Pl Ox) as [HL _].
  pose proof (on_axes_yx w ln la lon lat _ _ _ (proj2 (proj2 (axis_words _ _ _ _ _ R))) Ox) as Yx. destruct Ox as (Dm & Sh).
  set (g := rg_new lon lat (Some (la, ln))) in *.
  assert (Eo : Over sw (length lat) (length lon) = [length (fst (yx_axes g sw)); length (snd (yx_axes g sw))]) by (destruct sw; reflexivity).
  rewrite Eo, skipn_length in Sh. cbn [app] in Sh.
  destruct (rect_layers_asked dateutil cftime now f ln la lon lat p k w ts ls loc _ _ R O I N1 N2 HL In_ Lv Sh) as (t & Td & N & Mo & E). fold g in E.
  subst ts. assert (Es : fm_shape w = layer_shape (Some t) ls [length (fst (yx_axes g sw)); length (snd (yx_axes g sw))]) by exact Sh. rewrite Es in Yx.
  destruct (c94_rectangular_layers_partial g (Some (fm_dims w)) sw (FRectModel.table_of w) (Some t) ls default_sbc default_bbc q q' ex F lay pts) as (cs & Ec & V); auto.
  - intros ix u d HS. destruct (Sa ix u d HS) as [Rs B]. split; [|exact B].
    assert (El : nth (length ix) (fm_shape w) 0 = length (fst (yx_axes g sw))) by (rewrite Es; destruct HS as (i & -> & _); reflexivity).
    unfold TableSamples, FRectModel.table_of. rewrite El. apply rows_table. intros j a Hj. specialize (Rs j a). destruct sw; apply Rs; exact Hj.
  - exists cs. split; [rewrite E; exact Ec|]. exact V.
Qed.
Print Assumptions c104_layers_partial.

(** The sea of [c102_file] with data on the faces in the two layers between its
    levels; in the lower one, the second face is missing at first. *)
Definition lf_field (t : Z) (j k : nat) : Q := (inject_Z t / inject_Z hour + inject_Z (Z.of_nat (100 * j + k)))%Q.
Definition lf_mask (t : Z) (j k : nat) : bool := (t =? hour)%Z && (j =? 1) && (k =? 1).
Definition lf_salt : mvar := c102_var ["time"; "layer"; "face"] [2; 2; 2] [("location", "face")]
  (fun ix => match ix with [i; j] => let t := nth i c102_times 0%Z in map (fun k => if lf_mask t j k then CMasked else CVal (lf_field t j k)) [0; 1] | _ => [] end).
Definition lf_dens_field (t : Z) (j : nat) (p : point) : Q := (inject_Z t / inject_Z hour + inject_Z (Z.of_nat j) * 10 + fst p - 2 * snd p)%Q.
Definition lf_dens : mvar := c102_var ["time"; "layer"; "node"] [2; 2; 4] [("location", "node")]
  (fun ix => match ix with [i; j] => map (fun p => CVal (lf_dens_field (nth i c102_times 0%Z) j p)) c94_nodes | _ => [] end).
Definition lf_depth (l : list Q) : mvar := mkMvar ["depth"] [3] [("units", "m")] None None None [] l [] (fun _ => []).
Definition lf_file (l : list Q) : file := mkFile None ["node"; "face"; "three"; "time"; "depth"; "layer"]
  (c102_grid_vars ++ [("time", c102_time); ("depth", lf_depth l); ("salt", lf_salt); ("dens", lf_dens)]).
Definition lf_pts : list spot := [((1 # 4, 1 # 4), 2); ((1 # 4, 1 # 4), 5); ((3 # 4, 3 # 4), 2); ((3 # 4, 3 # 4), 7); ((1 # 4, 1 # 4), 50)]%Q.
Definition lf_half : Z := (hour + 1800000000)%Z.
Lemma lf_unique l : UniqueNames (lf_file l).
Proof. unfold UniqueNames. cbn [lf_file fi_vars c102_grid_vars app map fst]. distinct. Qed.
Lemma lf_mesh_of l : MeshVarOf (lf_file l) c102_mesh_var.
Proof.
  exists "mesh". split; [left; reflexivity|]. split; [exists "mesh_topology"; split; [reflexivity|]; exists "", ""; repeat split|]. split; [right; reflexivity|].
  intros n v r I. unfold Attr. cbn [lf_file fi_vars c102_grid_vars app In] in I.
  destruct I as [I|[I|[I|[I|[I|[I|[I|[I|[]]]]]]]]]; injection I as <- <-; intros A; vm_compute in A; try discriminate. reflexivity.
Qed.
Lemma lf_nodes_of l : NodesIn (lf_file l) c102_mesh_var c94_nodes.
Proof.
  exists "lon lat", "lon", "lat", (c102_coord "longitude" [0; 1; 0; 1]%Q), (c102_coord "latitude" [0; 0; 1; 1]%Q), [0; 1; 0; 1]%Q, [0; 0; 1; 1]%Q.
  split; [reflexivity|]. split; [exact (split_words "lon lat")|]. split; [right; left; reflexivity|]. split; [right; right; left; reflexivity|].
  split; [left|split; reflexivity]. split; [left; exists "longitude"; split; [reflexivity|left; reflexivity]|].
  split; [left; exists "latitude"; split; [reflexivity|left; reflexivity]|]. split; reflexivity.
Qed.
Lemma lf_faces_of l : FacesIn (lf_file l) c102_mesh_var c94_faces.
Proof.
  destruct c102_faces_of as (n & v & b & A & I & R). cbn [c102_file fi_vars c102_grid_vars app In] in I. exists n, v, b. split; [exact A|split; [|exact R]].
  injection A as <-. destruct I as [I|[I|[I|[I|[I|[I|[I|[]]]]]]]]; try discriminate I. injection I as <-. right; right; right; left. reflexivity.
Qed.
Lemma lf_instants l w : (exists r, fm_dims w = "time" :: r) -> dget (fm_attrs w) "time" = None -> InstantsIn demo_cftime (lf_file l) w c102_times.
Proof. intros A B. apply UpProps.up_axis; auto. do 4 right. left. reflexivity. Qed.
Lemma lf_only l : OnlyLevels (lf_file l).
Proof.
  intros n v I. cbn [lf_file fi_vars c102_grid_vars app In] in I. destruct I as [I|[I|[I|[I|[I|[I|[I|[I|[]]]]]]]]]; injection I as <- <-; (split; [discriminate|]);
    intros a k [<-|[<-|[]]] A; vm_compute in A; try discriminate; injection A as <-; cbn [In]; intros H; repeat (destruct H as [H|H]; [discriminate H|]); exact H.
Qed.
Lemma lf_levels_of : LevelsIn (lf_file c94_levels) (Some c94_levels).
Proof.
  split; [apply lf_only|]. exists c102_depth. split; [exists "depth", [], ["depth_levels"; "Depth"]; split; [reflexivity|]; split; [do 5 right; left; reflexivity|intros m []]|].
  split; [|split; [cbn; lia|split; [left; exact c102_ascending|]]].
  - split; [reflexivity|]. exists 0, 0%Q. split; [reflexivity|]. split; [reflexivity|]. intros [|[|[|[|i]]]] x H N; cbn in H; try congruence; try lia; injection H as <-; (split; reflexivity).
  - intros x [<-|[<-|[<-|[]]]]; discriminate.
Qed.
Lemma lf_up_levels_of : LevelsIn (lf_file UpProps.up_levels) (Some UpProps.up_levels).
Proof. apply UpProps.up_level_var; [do 5 right; left; reflexivity|apply lf_only]. Qed.
Lemma lf_open l : l = c94_levels \/ l = UpProps.up_levels -> exists p, open_dataset demo_dateutil demo_cftime (lf_file l) = Ok p.
Proof. intros [-> | ->]; eexists; vm_compute; reflexivity. Qed.
Lemma lf_time : TimeOk (Some c102_times) false lf_half lf_half.
Proof.
  intros l H. injection H as <-. split; [|split; [discriminate|left; split; [|reflexivity]]].
  - destruct (c102_instants c102_temp ltac:(eexists; reflexivity) eq_refl) as (n & aw & _ & _ & _ & _ & X). exact X.
  - exists hour, (2 * hour)%Z. split; [reflexivity|]. split; [reflexivity|]. unfold lf_half, hour. lia.
Qed.
Lemma lf_layered s : In s lf_pts -> Layered c94_levels default_sbc default_bbc (deep s) (ly_lay s).
Proof.
  intros Hs. assert (L0 : forall z, (0 <= z < 5)%Q -> InLayer c94_levels z 0) by (intros z Hz; exists 0%Q, 5%Q; split; [reflexivity|split; [reflexivity|left; split; [exact ly_ascending|exact Hz]]]).
  assert (L1 : forall z, (5 <= z < 10)%Q -> InLayer c94_levels z 1) by (intros z Hz; exists 5%Q, 10%Q; split; [reflexivity|split; [reflexivity|left; split; [exact ly_ascending|exact Hz]]]).
  destruct Hs as [<-|[<-|[<-|[<-|[<-|[]]]]]].
  - left. apply L0. split; [discriminate|reflexivity].
  - left. apply L1. split; [discriminate|reflexivity].
  - left. apply L0. split; [discriminate|reflexivity].
  - left. apply L1. split; [discriminate|reflexivity].
  - right. exists 0%Q, 10%Q. split; [reflexivity|split; [reflexivity|]]. right. left. split; [exact ly_ascending|split; [discriminate|reflexivity]].
Qed.
Lemma lf_salt_samples ix t j : SlotAt (Some c102_times) (Some 2) ix t j -> MaskedSamples 2 (lf_mask t j) (lf_field t j) (fm_part lf_salt ix).
Proof.
  intros (i & -> & Hi & Hj). destruct i as [|[|i]]; cbn in Hi; try (destruct i; discriminate); injection Hi as <-; destruct j as [|[|j]]; try lia; (split; [reflexivity|]);
    intros [|[|[|k]]] c H; cbn in H; try discriminate; injection H as <-; ((left; split; reflexivity) || (right; split; [discriminate|eexists; split; reflexivity])).
Qed.
Lemma lf_dens_samples ix t j : SlotAt (Some c102_times) (Some 2) ix t j -> NodeSamples c94_nodes (lf_dens_field t j) (fm_part lf_dens ix).
Proof. intros (i & -> & Hi & Hj). apply nth_error_nth with (d := 0%Z) in Hi. cbn [lf_dens c102_var fm_part]. rewrite Hi. unfold NodeSamples. repeat constructor; (eexists; split; reflexivity). Qed.

Example c109_file_layers_example :
  (exists a b c, c102_ask (lf_file c94_levels) "salt" lf_half false lf_pts = Ok [CVal a; CVal b; CVal c; CMasked; CMasked] /\ (a == 3 # 2 /\ b == 203 # 2 /\ c == 5 # 2)%Q) /\
  exists cs, c102_ask (lf_file c94_levels) "salt" lf_half false lf_pts = Ok cs /\
    Forall2 (fun s => AtLayer c94_levels default_sbc default_bbc (deep s) (ly_lay s) (fun r => forall j, FaceAsked 2 (c94_find (place s)) j ->
      let missing := exists u, UsesTime (Some c102_times) false lf_half lf_half u /\ lf_mask u (ly_lay s) j = true in
      (c94_find (place s) <> (-1)%Z -> Sees missing (lf_field lf_half (ly_lay s) j) r) /\ (c94_find (place s) = (-1)%Z -> Sees missing 0 r))) lf_pts cs.
Proof.
  split; [do 3 eexists; split; [vm_compute; reflexivity|split; [reflexivity|split; reflexivity]]|].
  destruct (lf_open c94_levels (or_introl eq_refl)) as ([m vs] & O).
  apply (c109_file_layers_faces_partial demo_dateutil demo_cftime (mkTime [0%Z] None None) c94_tree (fun _ _ => []) (lf_file c94_levels) m vs c102_mesh_var c94_nodes c94_faces c94_find "salt" lf_salt
    c102_times c94_levels lf_field lf_mask lf_half lf_half false ly_lay lf_pts (lf_unique _) (lf_mesh_of _) (lf_nodes_of _) (lf_faces_of _) c94_mesh O).
  - reflexivity.
  - intros. constructor.
  - exact c94_finds.
  - do 6 right. left. reflexivity.
  - apply c102_unmentioned. cbn [In]. intros H. repeat (destruct H as [H|H]; [discriminate H|]). exact H.
  - reflexivity.
  - apply lf_instants; [eexists; reflexivity|reflexivity].
  - exact lf_levels_of.
  - reflexivity.
  - intros l _ j k i t0 t1 u _ _ _. unfold lf_field, Qdiv. ring.
  - exact lf_salt_samples.
  - exact lf_time.
  - exact lf_layered.
Qed.
Example c102_layers_example :
  exists cs, c102_ask (lf_file c94_levels) "dens" lf_half false lf_pts = Ok cs /\
    Forall2 (fun s => AtLayer c94_levels default_sbc default_bbc (deep s) (ly_lay s) (fun c =>
      (c94_find (place s) <> (-1)%Z -> Shows (lf_dens_field lf_half (ly_lay s) (place s)) c) /\ (c94_find (place s) = (-1)%Z -> Shows 0 c))) lf_pts cs.
Proof.
  destruct (lf_open c94_levels (or_introl eq_refl)) as ([m vs] & O).
  apply (c102_layers_nodes_partial demo_dateutil demo_cftime (mkTime [0%Z] None None) c94_tree (fun _ _ => []) (lf_file c94_levels) m vs c102_mesh_var c94_nodes c94_faces c94_find "dens" lf_dens
    c102_times c94_levels lf_dens_field lf_half lf_half false ly_lay lf_pts (lf_unique _) (lf_mesh_of _) (lf_nodes_of _) (lf_faces_of _) c94_mesh O).
  - reflexivity.
  - intros. constructor.
  - exact c94_finds.
  - do 7 right. left. reflexivity.
  - apply c102_unmentioned. cbn [In]. intros H. repeat (destruct H as [H|H]; [discriminate H|]). exact H.
  - reflexivity.
  - apply lf_instants; [eexists; reflexivity|reflexivity].
  - exact lf_levels_of.
  - reflexivity.
  - intros l _ j p i t0 t1 u _ _ _. unfold lf_dens_field, Qdiv. ring.
  - intros ix t j HS. split; [exact (lf_dens_samples ix t j HS)|].
    intros a b c A B C _ _ _ _. exists (inject_Z t / inject_Z hour + inject_Z (Z.of_nat j) * 10)%Q, 1%Q, (-2)%Q. intros p _. unfold lf_dens_field. ring.
  - exact lf_time.
  - exact lf_layered.
Qed.

(** Above the surface, where answers on levels are those of the first level
    ([c102_any_depth_nodes_partial]), data on layers answers NaN. *)
Theorem c102_layers_above_refuted :
  exists f ls w s, LevelsIn f (Some ls) /\ Ascending ls /\ default_sbc = BExtrapolate /\ In ("dens", w) (fi_vars f) /\
  (forall ix t j, SlotAt (Some c102_times) (Some (length ls - 1)) ix t j -> NodeSamples c94_nodes (lf_dens_field t j) (fm_part w ix)) /\
  c94_find (place s) = 0%Z /\ (deep s < 0)%Q /\ c102_ask f "dens" lf_half false [s] = Ok [CNaN].
Proof.
  exists (lf_file c94_levels), c94_levels, lf_dens, ((1 # 4, 1 # 4), -1)%Q. split; [exact lf_levels_of|]. split; [exact ly_ascending|]. split; [reflexivity|].
  split; [do 7 right; left; reflexivity|]. split; [exact lf_dens_samples|]. split; [reflexivity|]. split; [reflexivity|]. vm_compute. reflexivity.
Qed.
Print Assumptions c102_layers_above_refuted.
(** With levels listed upwards, a point at the surface makes the whole question
    raise. *)
Theorem c102_layers_surface_refuted :
  exists f ls w s s', LevelsIn f (Some ls) /\ Descending ls /\ In ("dens", w) (fi_vars f) /\
  (forall ix t j, SlotAt (Some c102_times) (Some (length ls - 1)) ix t j -> NodeSamples c94_nodes (lf_dens_field t j) (fm_part w ix)) /\
  c94_find (place s) = 0%Z /\ c94_find (place s') = 0%Z /\ (deep s == 0)%Q /\ InLayer ls (deep s') 1 /\
  (exists v, c102_ask f "dens" lf_half false [s'] = Ok [CVal v] /\ (v == lf_dens_field lf_half 1 (place s'))%Q) /\
  c102_ask f "dens" lf_half false [s'; s] = Err IndexError.
Proof.
  exists (lf_file UpProps.up_levels), UpProps.up_levels, lf_dens, ((1 # 4, 1 # 4), 0)%Q, ((1 # 4, 1 # 4), 3)%Q. split; [exact lf_up_levels_of|]. split; [exact UpProps.up_descending|].
  split; [do 7 right; left; reflexivity|]. split; [exact lf_dens_samples|]. split; [reflexivity|]. split; [reflexivity|]. split; [reflexivity|]. split; [|split].
  - exists 5%Q, 0%Q. split; [reflexivity|split; [reflexivity|right]]. split; [exact UpProps.up_descending|]. split; [reflexivity|discriminate].
  - eexists. split; [vm_compute; reflexivity|reflexivity].
  - vm_compute. reflexivity.
Qed.
Print Assumptions c102_layers_surface_refuted.

(** Layers over the axes of [c104_file], under a name that its lemmas know. *)
Definition lr_field (t : Z) (j : nat) (p : point) : Q := (inject_Z t / inject_Z hour + inject_Z (Z.of_nat j) * 10 + fst p * snd p)%Q.
Definition lr_var : mvar := c102_var ["time"; "layer"; "lat"; "lon"] [2; 2; 2; 4] []
  (fun ix => match ix with [i; j; k] => map (fun x => CVal (lr_field (nth i c102_times 0%Z) j (x, nth k c104_lat 0%Q))) c104_lon | _ => [] end).
Definition lr_file : file := c104_file [] false [("crs", lr_var)].
Definition lr_pts : list spot := [((2, 3), 2); ((1 # 2, 5), 15 # 2); ((5, 3), 5); ((2, 3), 20)]%Q.
Lemma lr_layered s : In s lr_pts -> Layered c94_levels default_sbc default_bbc (deep s) (ly_lay s).
Proof.
  intros [<-|[<-|[<-|[<-|[]]]]].
  - left. exists 0%Q, 5%Q. split; [reflexivity|split; [reflexivity|left; split; [exact ly_ascending|split; [discriminate|reflexivity]]]].
  - left. exists 5%Q, 10%Q. split; [reflexivity|split; [reflexivity|left; split; [exact ly_ascending|split; [discriminate|reflexivity]]]].
  - left. exists 5%Q, 10%Q. split; [reflexivity|split; [reflexivity|left; split; [exact ly_ascending|split; [discriminate|reflexivity]]]].
  - right. exists 0%Q, 10%Q. split; [reflexivity|split; [reflexivity|]]. right. left. split; [exact ly_ascending|split; [discriminate|reflexivity]].
Qed.
Example c104_layers_example :
  (exists a b c, ask_rect demo_dateutil demo_cftime c104_now lr_file "crs" lf_half false lr_pts = Ok [CVal a; CVal b; CVal c; CMasked] /\ (a == 15 # 2 /\ b == 14 /\ c == 0)%Q) /\
  exists cs, ask_rect demo_dateutil demo_cftime c104_now lr_file "crs" lf_half false lr_pts = Ok cs /\
    Forall2 (fun s => AtLayer c94_levels default_sbc default_bbc (deep s) (ly_lay s) (fun c => let inside := Spans c104_lon (fst (place s)) /\ Spans c104_lat (snd (place s)) in
      (inside -> Shows (lr_field lf_half (ly_lay s) (place s)) c) /\ (~ inside -> Shows 0 c))) lr_pts cs.
Proof.
  split; [do 3 eexists; split; [vm_compute; reflexivity|split; [reflexivity|split; reflexivity]]|].
  assert (R : RectFile lr_file "lon" "lat" c104_lon c104_lat) by (apply c104_rect; [right; exists lr_var; split; reflexivity|reflexivity]).
  assert (O : exists p, open_rect_dataset demo_dateutil demo_cftime lr_file = Ok p) by (eexists; vm_compute; reflexivity). destruct O as (p & O).
  apply (c104_layers_partial demo_dateutil demo_cftime c104_now lr_file "lon" "lat" c104_lon c104_lat p "crs" lr_var false "node" c102_times c94_levels lr_field lf_half lf_half false ly_lay lr_pts R);
    auto; try apply c104_ascending; try (cbn; lia); try discriminate.
  - do 5 right. left. reflexivity.
  - right. repeat split.
  - apply c104_instants; [eexists; reflexivity|reflexivity].
  - apply c104_levels; [right; exists lr_var; split; reflexivity|reflexivity|reflexivity].
  - split; [exists ["time"; "layer"]; reflexivity|reflexivity].
  - intros l _ j s i t0 t1 u _ _ _. unfold lr_field, Qdiv. ring.
  - intros ix t d (i & -> & Hi & Hj). split.
    + apply nth_error_nth with (d := 0%Z) in Hi. intros n a Hn. cbn [app lr_var c102_var fm_part].
      rewrite Hi. apply nth_error_nth with (d := 0%Q) in Hn. rewrite Hn. repeat constructor; (eexists; split; reflexivity).
    + intros s i1 i2 u u' j1 j2 v v' a a' b b' (xa & xb & X1 & X2 & _ & _ & _ & Su & Ep) (ya & yb & Y1 & Y2 & _ & _ & _ & Sv & Eq) Ha Ha' Hb Hb'.
      assert (xa = a) by congruence. assert (xb = a') by congruence. assert (ya = b) by congruence. assert (yb = b') by congruence. subst xa xb ya yb.
      unfold lr_field. cbn [fst snd]. assert (Eu' : (u' == 1 - u)%Q) by lra. assert (Ev' : (v' == 1 - v)%Q) by lra. rewrite Ep, Eq, Eu', Ev'. ring.
  - exact lf_time.
  - exact lr_layered.
Qed.
