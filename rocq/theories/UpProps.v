(** C94, C102 and C104 for levels listed upwards. *)
From Coq Require Import String Lqa.
From Verif Require Import Common CommonProofs TimeModel TimeSpec TimeProofs GridTypeModel GridTypeSpec MaskModel MaskSpec MaskProofs VariableModel VariableSpec VariableProofs DepthModel DepthSpec DepthProofs
  UGridGeomModel UGridGeomSpec RGridModel RGridSpec TFileModel TFileSpec TFileProps LoadModel LoadSpec VLoadModel UFileModel UFileSpec WholeModel WholeSpec WholeProofs WholeProps
  FMeshModel FMeshSpec FMeshProofs FMeshProps FRectModel FRectSpec FRectProofs FRectProps UpSpec UpProofs.
Open Scope string_scope.
Open Scope list_scope.
Open Scope nat_scope.

(** Whatever the grid answers, a point at or above the level listed last is not
    given a number. *)
Theorem c94_upwards_unanswered :
  forall g interp time levels sbc bbc rest q ex pts k s vs,
  LevelsOk levels -> Upwards levels -> bmask sbc = false -> nth_error pts k = Some s -> AtTop levels (deep s) ->
  at_grid interp (order_of (some time) (some levels) g) (shape_of time levels rest) time
    (option_map (fun ls => l_view deep ls (Some (length ls)) sbc bbc) levels) q ex pts = Ok vs -> nth_error vs k = Some CNaN.
Proof. intros g interp time levels sbc bbc rest q ex pts k s vs LO Up Ns Hk At H. exact (upwards_top g interp time levels sbc bbc rest ex LO Up Ns q pts k s vs Hk At H). Qed.
Print Assumptions c94_upwards_unanswered.
(** Asked for such points only, the variable raises. *)
Theorem c94_upwards_raises :
  forall g interp time levels sbc bbc rest q q' ex pts,
  LevelsOk levels -> Upwards levels -> bmask sbc = false -> TimeOk (option_map t_data time) ex q q' -> pts <> [] -> (forall s, In s pts -> AtTop levels (deep s)) ->
  at_grid interp (order_of (some time) (some levels) g) (shape_of time levels rest) time
    (option_map (fun ls => l_view deep ls (Some (length ls)) sbc bbc) levels) q ex pts = Err UnboundLocalError.
Proof. intros g interp time levels sbc bbc rest q q' ex pts LO Up Ns TO Np Tp. exact (upwards_raises g interp time levels sbc bbc rest ex LO Up Ns q q' pts TO Np Tp). Qed.
Print Assumptions c94_upwards_raises.

(** Files with a mesh. *)
Theorem c102_upwards_unanswered :
  forall dateutil cftime now tree hist f m vs mv nodes faces k w loc n ts levels q ex pts i s cs,
  UniqueNames f -> MeshVarOf f mv -> NodesIn f mv nodes -> FacesIn f mv faces -> TriMesh nodes faces ->
  open_dataset dateutil cftime f = Ok (m, vs) ->
  In (k, w) (fi_vars f) -> Unmentioned mv k -> Attr w "location" loc -> ValidLocation loc ->
  InstantsIn cftime f w ts -> LevelsIn f levels -> Shaped w (length ts) levels n ->
  Upwards levels -> nth_error pts i = Some s -> AtTop levels (deep s) ->
  ask_file dateutil cftime now tree hist f k q ex pts = Ok cs -> nth_error cs i = Some CNaN.
Proof.
  intros dateutil cftime now tree hist f m vs mv nodes faces k w loc n ts levels q ex pts i s cs U MV NI FI T O I Un Lo Vl In_ Lv Sh Up Hs At H.
  destruct (opened_answer dateutil cftime now tree hist f m vs mv nodes faces U MV NI FI T O k loc w ts levels n I Un Lo Vl In_ Lv Sh) as (t & Td & LO & _ & _ & E).
  rewrite E in H. eapply c94_upwards_unanswered; eauto; reflexivity.
Qed.
Print Assumptions c102_upwards_unanswered.
Theorem c102_upwards_raises :
  forall dateutil cftime now tree hist f m vs mv nodes faces k w loc n ts levels q q' ex pts,
  UniqueNames f -> MeshVarOf f mv -> NodesIn f mv nodes -> FacesIn f mv faces -> TriMesh nodes faces ->
  open_dataset dateutil cftime f = Ok (m, vs) ->
  In (k, w) (fi_vars f) -> Unmentioned mv k -> Attr w "location" loc -> ValidLocation loc ->
  InstantsIn cftime f w ts -> LevelsIn f levels -> Shaped w (length ts) levels n ->
  Upwards levels -> TimeOk (Some ts) ex q q' -> pts <> [] -> (forall s, In s pts -> AtTop levels (deep s)) ->
  ask_file dateutil cftime now tree hist f k q ex pts = Err UnboundLocalError.
Proof.
  intros dateutil cftime now tree hist f m vs mv nodes faces k w loc n ts levels q q' ex pts U MV NI FI T O I Un Lo Vl In_ Lv Sh Up TO Np At.
  destruct (opened_answer dateutil cftime now tree hist f m vs mv nodes faces U MV NI FI T O k loc w ts levels n I Un Lo Vl In_ Lv Sh) as (t & Td & LO & _ & _ & E).
  rewrite E. subst ts. eapply c94_upwards_raises; eauto; reflexivity.
Qed.
Print Assumptions c102_upwards_raises.

(** Files with a rectangular grid. *)
Theorem c104_upwards_unanswered :
  forall dateutil cftime now f ln la lon lat p k w sw loc ts levels q ex pts i s cs,
  RectFile f ln la lon lat -> open_rect_dataset dateutil cftime f = Ok p ->
  In (k, w) (fi_vars f) -> k <> ln -> k <> la -> Placed w sw loc -> InstantsIn cftime f w ts -> LevelsIn f levels ->
  OnAxes w ln la (length lon) (length lat) (length ts) levels sw ->
  Upwards levels -> nth_error pts i = Some s -> AtTop levels (deep s) ->
  ask_rect dateutil cftime now f k q ex pts = Ok cs -> nth_error cs i = Some CNaN.
Proof.
  intros dateutil cftime now f ln la lon lat p k w sw loc ts levels q ex pts i s cs R O I N1 N2 Pl In_ Lv Ox Up Hs At H.
  destruct (placed_location ln la lon lat _ _ _ _ _ Pl Ox) as [HL _]. destruct Ox as (Dm & Sh).
  set (g := rg_new lon lat (Some (la, ln))) in *.
  assert (Eo : Over sw (length lat) (length lon) = [length (fst (yx_axes g sw)); length (snd (yx_axes g sw))]) by (destruct sw; reflexivity). rewrite Eo in Sh.
  destruct (rect_asked dateutil cftime now f ln la lon lat R p O k w ts levels loc I N1 N2 HL In_ Lv _ _ Sh) as (t & Td & LO & E).
  rewrite E in H. eapply c94_upwards_unanswered; eauto; reflexivity.
Qed.
Print Assumptions c104_upwards_unanswered.
Theorem c104_upwards_raises :
  forall dateutil cftime now f ln la lon lat p k w sw loc ts levels q q' ex pts,
  RectFile f ln la lon lat -> open_rect_dataset dateutil cftime f = Ok p ->
  In (k, w) (fi_vars f) -> k <> ln -> k <> la -> Placed w sw loc -> InstantsIn cftime f w ts -> LevelsIn f levels ->
  OnAxes w ln la (length lon) (length lat) (length ts) levels sw ->
  Upwards levels -> TimeOk (Some ts) ex q q' -> pts <> [] -> (forall s, In s pts -> AtTop levels (deep s)) ->
  ask_rect dateutil cftime now f k q ex pts = Err UnboundLocalError.
Proof.
  intros dateutil cftime now f ln la lon lat p k w sw loc ts levels q q' ex pts R O I N1 N2 Pl In_ Lv Ox Up TO Np At.
  destruct (placed_location ln la lon lat _ _ _ _ _ Pl Ox) as [HL _]. destruct Ox as (Dm & Sh).
  set (g := rg_new lon lat (Some (la, ln))) in *.
  assert (Eo : Over sw (length lat) (length lon) = [length (fst (yx_axes g sw)); length (snd (yx_axes g sw))]) by (destruct sw; reflexivity). rewrite Eo in Sh.
  destruct (rect_asked dateutil cftime now f ln la lon lat R p O k w ts levels loc I N1 N2 HL In_ Lv _ _ Sh) as (t & Td & LO & E).
  rewrite E. subst ts. eapply c94_upwards_raises; eauto; reflexivity.
Qed.
Print Assumptions c104_upwards_raises.

(** ** Files whose depths are listed upwards *)
Definition up_levels : list Q := [10; 5; 0]%Q.
Definition up_depth : mvar := mkMvar ["depth"] [3] [("units", "m")] None None None [] up_levels [] (fun _ => []).
Definition up_data (nodes : list point) (F : quantity) (ix : list nat) : list cell :=
  match ix with
  | [i; j] => map (fun p => CVal (F (nth i c102_times 0%Z) (nth j up_levels 0%Q) p)) nodes
  | _ => []
  end.
Definition up_temp : mvar := c102_var ["time"; "depth"; "node"] [2; 3; 4] [("location", "node"); ("units", "C")] (up_data c94_nodes c102_field).
Definition up_file : file := mkFile None ["node"; "face"; "three"; "time"; "depth"]
  (c102_grid_vars ++ [("time", c102_time); ("depth", up_depth); ("temp", up_temp)]).
(** Of the same sea as [c102_file]: a point three metres down is answered
    rightly when it is asked alone; asked together with a point at the surface it is
    answered with the value at the surface, and the other is not a number. *)
Theorem c102_upwards_refuted :
  let down := ((3 # 4, 3 # 4), 3)%Q in let top := ((1 # 4, 1 # 4), 0)%Q in
  let q := (hour + 1800000000)%Z in
  (forall ix t d, SampleAt (Some c102_times) (Some up_levels) ix t d -> NodeSamples c94_nodes (c102_field t d) (fm_part up_temp ix)) /\
  (exists v, c102_ask up_file "temp" q false [down] = Ok [CVal v] /\ (v == c102_field q 3 (place down))%Q) /\
  (exists v, c102_ask up_file "temp" q false [down; top] = Ok [CVal v; CNaN] /\ (v == c102_field q 0 (place down))%Q /\ ~ (v == c102_field q 3 (place down))%Q) /\
  c102_ask up_file "temp" q false [top] = Err UnboundLocalError.
Proof.
  intros down top q. split; [|split; [|split]].
  - intros ix t d (i & j & -> & Hi & Hj). apply nth_error_nth with (d := 0%Z) in Hi. apply nth_error_nth with (d := 0%Q) in Hj. cbn [up_temp c102_var fm_part up_data]. rewrite Hi, Hj. unfold NodeSamples.
    repeat constructor; (eexists; split; reflexivity).
  - eexists. split; vm_compute; reflexivity.
  - eexists. split; [vm_compute; reflexivity|]. split; [vm_compute; reflexivity|vm_compute; discriminate].
  - vm_compute. reflexivity.
Qed.
Print Assumptions c102_upwards_refuted.

Lemma up_descending : Descending up_levels.
Proof. intros i j a b L Hi Hj. destruct i as [|[|[|i]]]; cbn in Hi; try (destruct i; discriminate); injection Hi as <-; (destruct j as [|[|[|j]]]; cbn in Hj; try (destruct j; discriminate); injection Hj as <-); try lia; reflexivity. Qed.
Lemma up_unique : UniqueNames up_file.
Proof. unfold UniqueNames. cbn [up_file fi_vars c102_grid_vars app map fst]. distinct. Qed.
Lemma up_mesh_of : MeshVarOf up_file c102_mesh_var.
Proof.
  exists "mesh". split; [left; reflexivity|]. split; [exists "mesh_topology"; split; [reflexivity|]; exists "", ""; repeat split|]. split; [right; reflexivity|].
  intros n v r I. unfold Attr. cbn [up_file fi_vars c102_grid_vars app In] in I.
  destruct I as [I|[I|[I|[I|[I|[I|[I|[]]]]]]]]; injection I as <- <-; intros A; vm_compute in A; try discriminate. reflexivity.
Qed.
Lemma up_nodes_of : NodesIn up_file c102_mesh_var c94_nodes.
Proof.
  exists "lon lat", "lon", "lat", (c102_coord "longitude" [0; 1; 0; 1]%Q), (c102_coord "latitude" [0; 0; 1; 1]%Q), [0; 1; 0; 1]%Q, [0; 0; 1; 1]%Q.
  split; [reflexivity|]. split; [exact (split_words "lon lat")|]. split; [right; left; reflexivity|]. split; [right; right; left; reflexivity|].
  split; [left|split; reflexivity]. split; [left; exists "longitude"; split; [reflexivity|left; reflexivity]|].
  split; [left; exists "latitude"; split; [reflexivity|left; reflexivity]|]. split; reflexivity.
Qed.
Lemma up_faces_of : FacesIn up_file c102_mesh_var c94_faces.
Proof.
  destruct c102_faces_of as (n & v & k & A & _ & B). exists "nv", c102_nv, 1%Z. split; [reflexivity|]. split; [right; right; right; left; reflexivity|]. split; [reflexivity|]. split; [lia|].
  split; [repeat constructor|]. right. exists [[Some 0; Some 1]; [Some 1; Some 3]; [Some 2; Some 2]]%Z. split.
  - split; [reflexivity|]. split; [repeat constructor|]. intros i j Hi Hj. destruct i as [|[|i]]; [| |cbn in Hi; lia]; (destruct j as [|[|[|j]]]; [| | |lia]); reflexivity.
  - assert (E : forall i : Z, StoredEntry 1 None (Some i) (Some (i + 1)%Z)) by (intros; constructor; discriminate).
    repeat (constructor; [repeat (constructor; [exact (E _)|]); constructor|]). constructor.
Qed.
Lemma up_axis f w : In ("time", c102_time) (fi_vars f) -> (exists r, fm_dims w = "time" :: r) -> dget (fm_attrs w) "time" = None -> InstantsIn demo_cftime f w c102_times.
Proof.
  intros I (r & Hr) Ha. destruct (c102_instants w ltac:(eauto) Ha) as (n & aw & Ax & Ia & K). exists "time", c102_time. split; [|split; [exact I|]].
  - right. split; [intros m [A _]; cbn [to_load lv_attrs] in A; congruence|]. split; [exists r; exact Hr|]. exists "", "". reflexivity.
  - split; [|split].
    + exists "hours since 2024-01-01T00:00:00", hour, 0%Z, 0%Z. split; [reflexivity|]. split; [reflexivity|]. repeat constructor.
    + exists "hours since 2024-01-01T00:00:00". split; [reflexivity|]. exists "hours ", " 2024-01-01T00:00:00". reflexivity.
    + apply K.
Qed.
Lemma up_level_var f : In ("depth", up_depth) (fi_vars f) -> OnlyLevels f -> LevelsIn f (Some up_levels).
Proof.
  intros I O. split; [exact O|]. exists up_depth.
  split; [exists "depth", [], ["depth_levels"; "Depth"]; split; [reflexivity|]; split; [exact I|intros m []]|].
  split; [|split; [cbn; lia|split; [right; exact up_descending|]]].
  - split; [reflexivity|]. exists 2, 0%Q. split; [reflexivity|]. split; [reflexivity|]. intros [|[|[|[|i]]]] x H N; cbn in H; try congruence; try lia; injection H as <-; (split; reflexivity).
  - intros x [<-|[<-|[<-|[]]]]; discriminate.
Qed.
Lemma up_levels_of : LevelsIn up_file (Some up_levels).
Proof.
  apply up_level_var; [do 5 right; left; reflexivity|].
  intros n v I. cbn [up_file fi_vars c102_grid_vars app In] in I. destruct I as [I|[I|[I|[I|[I|[I|[I|[]]]]]]]]; injection I as <- <-; (split; [discriminate|]);
    intros a l [<-|[<-|[]]] A; vm_compute in A; try discriminate; injection A as <-; cbn [In]; intros H; repeat (destruct H as [H|H]; [discriminate H|]); exact H.
Qed.
Lemma up_time : TimeOk (Some c102_times) false (hour + 1800000000)%Z (hour + 1800000000)%Z.
Proof.
  intros l H. injection H as <-. split; [|split; [discriminate|left; split; [|reflexivity]]].
  - destruct (c102_instants c102_temp ltac:(eexists; reflexivity) eq_refl) as (n & aw & _ & _ & _ & _ & X). exact X.
  - exists hour, (2 * hour)%Z. split; [reflexivity|]. split; [reflexivity|]. unfold hour. lia.
Qed.
Lemma up_top z : (z <= 0)%Q -> AtTop (Some up_levels) z.
Proof. intros H. exists up_levels, 0%Q. split; [reflexivity|split; [reflexivity|exact H]]. Qed.
Lemma up_upwards : Upwards (Some up_levels).
Proof. exists up_levels. split; [reflexivity|exact up_descending]. Qed.
(** Both theorems hold of that file: at the surface and above it. *)
Example c102_upwards_example :
  (forall now i q s pts cs, nth_error pts i = Some s -> (deep s <= 0)%Q ->
     ask_file demo_dateutil demo_cftime now c94_tree (fun _ _ => []) up_file "temp" q false pts = Ok cs -> nth_error cs i = Some CNaN) /\
  forall pts, pts <> [] -> (forall s, In s pts -> (deep s <= 0)%Q) -> c102_ask up_file "temp" (hour + 1800000000)%Z false pts = Err UnboundLocalError.
Proof.
  assert (O : exists p, open_dataset demo_dateutil demo_cftime up_file = Ok p) by (eexists; vm_compute; reflexivity). destruct O as ([m vs] & O).
  assert (Un : Unmentioned c102_mesh_var "temp"). { apply c102_unmentioned. cbn [In]. intros H. repeat (destruct H as [H|H]; [discriminate H|]). exact H. }
  assert (I : In ("temp", up_temp) (fi_vars up_file)) by (do 6 right; left; reflexivity).
  assert (Ax : InstantsIn demo_cftime up_file up_temp c102_times) by (apply up_axis; [do 4 right; left; reflexivity|eexists; reflexivity|reflexivity]).
  assert (Vl : ValidLocation "node") by (unfold ValidLocation; auto 10). split.
  - intros now i q s pts cs Hs Ls. eapply (c102_upwards_unanswered demo_dateutil demo_cftime now c94_tree (fun _ _ => []) up_file m vs c102_mesh_var c94_nodes c94_faces "temp" up_temp "node" 4 c102_times (Some up_levels));
      try exact Hs; auto using up_unique, up_mesh_of, up_nodes_of, up_faces_of, c94_mesh, up_levels_of, up_upwards, up_top; reflexivity.
  - intros pts Np Lp. eapply (c102_upwards_raises demo_dateutil demo_cftime (mkTime [0%Z] None None) c94_tree (fun _ _ => []) up_file m vs c102_mesh_var c94_nodes c94_faces "temp" up_temp "node" 4 c102_times (Some up_levels));
      try exact Np; try exact up_time; auto using up_unique, up_mesh_of, up_nodes_of, up_faces_of, c94_mesh, up_levels_of, up_upwards, up_top; reflexivity.
Qed.

(** The same on a rectangular grid. *)
Definition up_rect_data (ix : list nat) : list cell :=
  match ix with
  | [i; j; k] => map (fun x => CVal (c104_field (nth i c102_times 0%Z) (nth j up_levels 0%Q) (x, nth k c104_lat 0%Q))) c104_lon
  | _ => []
  end.
Definition up_rect_temp : mvar := c102_var ["time"; "depth"; "lat"; "lon"] [2; 3; 2; 4] [] up_rect_data.
Definition up_rect : file := mkFile None ["lon"; "lat"; "time"; "depth"]
  [("lon", c104_axis "lon" c104_lon); ("lat", c104_axis "lat" c104_lat); ("time", c102_time); ("depth", up_depth); ("temp", up_rect_temp)].
Lemma up_rect_of : RectFile up_rect "lon" "lat" c104_lon c104_lat.
Proof.
  assert (In_ : forall n v, In (n, v) (fi_vars up_rect) -> In n ["lon"; "lat"; "time"; "depth"; "temp"] /\ dget (fm_attrs v) "cf_role" = None).
  { intros n v I. cbn [up_rect fi_vars In] in I. destruct I as [I|[I|[I|[I|[I|[]]]]]]; injection I as <- <-; cbn [In]; (split; [tauto|]); reflexivity. }
  assert (Ce : forall a n, In a ["lon"; "lat"; "time"; "depth"; "temp"] -> CaseEq a n -> lower n = a).
  { intros a n I C. apply GridTypeProofs.lower_eq in C. rewrite <- C. cbn [In] in I. destruct I as [<-|[<-|[<-|[<-|[<-|[]]]]]]; reflexivity. }
  split; [|split; [|split; [|split; [|split]]]].
  - unfold UniqueNames. cbn [up_rect fi_vars map fst]. distinct.
  - intros g H. discriminate H.
  - intros n v r I A. unfold Attr in A. destruct (In_ n v I) as [_ X]. congruence.
  - intros n Hn (a & v & I & C). destruct (In_ a v I) as [Ia _]. pose proof (Ce a n Ia C) as E. clear - Hn Ia E. cbn [In] in Hn, Ia.
    destruct Hn as [<-|[<-|[<-|[<-|[<-|[]]]]]]; cbn in E; subst a; repeat (destruct Ia as [Ia|Ia]; [discriminate Ia|]); destruct Ia.
  - exists [("node_lon", "node_lat")], [("lon_psi", "lat_psi"); ("longitude", "latitude")]. split; [reflexivity|]. split.
    + split; cbn [fst snd]; [exists "lon", (c104_axis "lon" c104_lon)|exists "lat", (c104_axis "lat" c104_lat)]; (split; [cbn [up_rect fi_vars In]; auto|apply GridTypeProofs.lower_eq; reflexivity]).
    + intros y [<-|[]] ((a & v & I & C) & _). cbn [fst] in C. destruct (In_ a v I) as [Ia _]. pose proof (Ce a _ Ia C) as E. cbn in E. subst a. cbn [In] in Ia. repeat (destruct Ia as [Ia|Ia]; [discriminate Ia|]). destruct Ia.
  - exists (c104_axis "lon" c104_lon), (c104_axis "lat" c104_lat).
    split; [exists "lon"|split; [exists "lat"|repeat split]];
    (split; [cbn [up_rect fi_vars In]; auto|split; [apply GridTypeProofs.lower_eq; reflexivity|]]);
    intros b u I C; destruct (In_ b u I) as [Ib _]; exact (eq_sym (Ce b _ Ib C)).
Qed.
Example c104_upwards_example :
  (forall i q s pts cs, nth_error pts i = Some s -> (deep s <= 0)%Q ->
     ask_rect demo_dateutil demo_cftime c104_now up_rect "temp" q false pts = Ok cs -> nth_error cs i = Some CNaN) /\
  (forall pts, pts <> [] -> (forall s, In s pts -> (deep s <= 0)%Q) -> ask_rect demo_dateutil demo_cftime c104_now up_rect "temp" (hour + 1800000000)%Z false pts = Err UnboundLocalError) /\
  exists v, ask_rect demo_dateutil demo_cftime c104_now up_rect "temp" (hour + 1800000000)%Z false [((2, 3), 3); ((1 # 2, 5), 0)]%Q = Ok [CVal v; CNaN] /\
    (v == c104_field (hour + 1800000000)%Z 0 (2, 3))%Q /\ ~ (v == c104_field (hour + 1800000000)%Z 3 (2, 3))%Q.
Proof.
  assert (O : exists p, open_rect_dataset demo_dateutil demo_cftime up_rect = Ok p) by (eexists; vm_compute; reflexivity). destruct O as (p & O).
  assert (I : In ("temp", up_rect_temp) (fi_vars up_rect)) by (cbn [up_rect fi_vars In]; tauto).
  assert (Ax : InstantsIn demo_cftime up_rect up_rect_temp c102_times) by (apply up_axis; [cbn [up_rect fi_vars In]; tauto|eexists; reflexivity|reflexivity]).
  assert (Pl : Placed up_rect_temp false "node") by (right; repeat split).
  assert (Lv : LevelsIn up_rect (Some up_levels)).
  { apply up_level_var; [cbn [up_rect fi_vars In]; tauto|]. intros n v Iv. cbn [up_rect fi_vars In] in Iv. destruct Iv as [Iv|[Iv|[Iv|[Iv|[Iv|[]]]]]]; injection Iv as <- <-; (split; [discriminate|]);
      intros a l [<-|[<-|[]]] A; vm_compute in A; discriminate. }
  assert (Ox : OnAxes up_rect_temp "lon" "lat" (length c104_lon) (length c104_lat) (length c102_times) (Some up_levels) false) by (split; [exists ["time"; "depth"]; reflexivity|reflexivity]).
  split; [|split].
  - intros i q s pts cs Hs Ls. eapply (c104_upwards_unanswered demo_dateutil demo_cftime c104_now up_rect "lon" "lat" c104_lon c104_lat p "temp" up_rect_temp false "node" c102_times (Some up_levels));
      try exact Hs; auto using up_rect_of, up_upwards, up_top; discriminate.
  - intros pts Np Lp. eapply (c104_upwards_raises demo_dateutil demo_cftime c104_now up_rect "lon" "lat" c104_lon c104_lat p "temp" up_rect_temp false "node" c102_times (Some up_levels));
      try exact Np; try exact up_time; auto using up_rect_of, up_upwards, up_top; discriminate.
  - eexists. split; [vm_compute; reflexivity|]. split; [vm_compute; reflexivity|vm_compute; discriminate].
Qed.
