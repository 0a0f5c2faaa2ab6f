(** C102: from a file with a mesh to the answers of its variables. *)
From Coq Require Import String Lqa.
From Verif Require Import Common CommonProofs TimeModel TimeSpec TimeProofs GridTypeModel GridTypeSpec MaskModel MaskSpec MaskProofs VariableModel VariableProofs DepthModel DepthSpec DepthProofs
  UGridGeomModel UGridGeomSpec UGridLocProofs TFileModel TFileSpec TFileProps LoadModel LoadSpec VLoadModel UFileModel UFileSpec WholeModel WholeSpec WholeProofs WholeProps FMeshModel FMeshSpec FMeshProofs.
Open Scope string_scope.
Open Scope list_scope.
Open Scope nat_scope.

(** The grid of an opened file is the mesh in it. *)
Theorem c102_grid :
  forall dateutil cftime f m vs mv nodes faces,
  UniqueNames f -> MeshVarOf f mv -> NodesIn f mv nodes -> FacesIn f mv faces -> TriMesh nodes faces ->
  open_dataset dateutil cftime f = Ok (m, vs) -> me_nodes m = nodes /\ me_faces m = faces.
Proof.
  intros dateutil cftime f m vs mv nodes faces U MV NI FI T O. unfold open_dataset in O. apply bind_ok in O. destruct O as (m' & Om & H).
  apply bind_ok in H. destruct H as (vs' & Hv & H). injection H as -> ->. destruct (mesh_read f m mv nodes faces U MV NI FI T Om) as (A & B & _). auto.
Qed.
Print Assumptions c102_grid.

(** The variables opened: each variable of the file with a place, unless the
    mesh names it, with the instants of its samples. *)
Theorem c102_variable :
  forall dateutil cftime f m vs mv nodes faces k w loc ts levels n,
  UniqueNames f -> MeshVarOf f mv -> NodesIn f mv nodes -> FacesIn f mv faces -> TriMesh nodes faces ->
  open_dataset dateutil cftime f = Ok (m, vs) ->
  In (k, w) (fi_vars f) -> Unmentioned mv k -> Attr w "location" loc -> ValidLocation loc ->
  InstantsIn cftime f w ts -> LevelsIn f levels -> Shaped w (length ts) levels n ->
  exists v t nm, dget vs k = Some v /\ va_loc v = loc /\ va_varname v = k /\ va_shape v = fm_shape w /\
    va_time v = TimeRead t nm /\ t_data t = ts /\ va_depth v = match levels with Some _ => DepthRead | None => DepthNone end.
Proof. intros dateutil cftime f m vs mv nodes faces k w loc ts levels n U MV NI FI T O I Un Lo VL In_ Lv Sh. eapply (opened dateutil cftime f m vs mv nodes faces); eauto. Qed.
Print Assumptions c102_variable.

(** Data at the nodes that samples a field, linear over the triangles and
    between the instants and the levels: the answer is the field, for the
    points in a face.  Missing: masked data (C109) and depths
    outside [DepthAsked]. *)
Theorem c102_nodes_partial :
  forall dateutil cftime now tree hist f m vs mv nodes faces find k w ts levels (F : quantity) q q' ex z pts,
  UniqueNames f -> MeshVarOf f mv -> NodesIn f mv nodes -> FacesIn f mv faces -> TriMesh nodes faces ->
  open_dataset dateutil cftime f = Ok (m, vs) ->
  (forall ps, tree nodes faces ps = map find ps) -> (forall ix ps, Forall asks (hist ix ps)) -> FindsFaces nodes faces find ->
  In (k, w) (fi_vars f) -> Unmentioned mv k -> Attr w "location" "node" ->
  InstantsIn cftime f w ts -> LevelsIn f levels -> Shaped w (length ts) levels (length nodes) ->
  Changes (Some ts) levels F ->
  (forall ix t d, SampleAt (Some ts) levels ix t d -> NodeSamples nodes (F t d) (fm_part w ix) /\ LinearOverFaces nodes faces (F t d)) ->
  TimeOk (Some ts) ex q q' -> (forall s, In s pts -> DepthOk levels default_sbc default_bbc (deep s) (z (deep s))) ->
  exists cs, ask_file dateutil cftime now tree hist f k q ex pts = Ok cs /\
    Forall2 (fun s c => (find (place s) <> (-1)%Z -> Shows (F q' (z (deep s)) (place s)) c) /\ (find (place s) = (-1)%Z -> Shows 0 c)) pts cs.
Proof.
  intros dateutil cftime now tree hist f m vs mv nodes faces find k w ts levels F q q' ex z pts U MV NI FI T O HT HH FF I Un Lo In_ Lv Sh Ch Sa TO DO.
  destruct (opened_answer dateutil cftime now tree hist f m vs mv nodes faces U MV NI FI T O k "node" w ts levels (length nodes) I Un Lo ltac:(unfold ValidLocation; auto 10) In_ Lv Sh)
    as (t & Td & LO & _ & _ & E).
  rewrite E. subst ts. apply (c94_mesh_nodes_partial tree hist nodes faces find (fm_part w) (Some t) levels default_sbc default_bbc q q' ex F z pts); auto.
Qed.
Print Assumptions c102_nodes_partial.

(** Data at the faces: the answer is that of the face that holds the point. *)
Theorem c102_faces_partial :
  forall dateutil cftime now tree hist f m vs mv nodes faces find k w ts levels (F : Z -> Q -> nat -> Q) q q' ex z pts,
  UniqueNames f -> MeshVarOf f mv -> NodesIn f mv nodes -> FacesIn f mv faces -> TriMesh nodes faces ->
  open_dataset dateutil cftime f = Ok (m, vs) ->
  (forall ps, tree nodes faces ps = map find ps) -> (forall ix ps, Forall asks (hist ix ps)) -> FindsFaces nodes faces find ->
  In (k, w) (fi_vars f) -> Unmentioned mv k -> Attr w "location" "face" ->
  InstantsIn cftime f w ts -> LevelsIn f levels -> Shaped w (length ts) levels (length faces) ->
  Changes (Some ts) levels F ->
  (forall ix t d, SampleAt (Some ts) levels ix t d ->
     length (fm_part w ix) = length faces /\ forall j c, nth_error (fm_part w ix) j = Some c -> Shows (F t d j) c) ->
  TimeOk (Some ts) ex q q' -> (forall s, In s pts -> DepthOk levels default_sbc default_bbc (deep s) (z (deep s))) ->
  exists cs, ask_file dateutil cftime now tree hist f k q ex pts = Ok cs /\
    Forall2 (fun s c => (forall j, find (place s) = Z.of_nat j -> Shows (F q' (z (deep s)) j) c) /\ (find (place s) = (-1)%Z -> Shows 0 c)) pts cs.
Proof.
  intros dateutil cftime now tree hist f m vs mv nodes faces find k w ts levels F q q' ex z pts U MV NI FI T O HT HH FF I Un Lo In_ Lv Sh Ch Sa TO DO.
  destruct (opened_answer dateutil cftime now tree hist f m vs mv nodes faces U MV NI FI T O k "face" w ts levels (length faces) I Un Lo ltac:(unfold ValidLocation; auto 10) In_ Lv Sh)
    as (t & Td & LO & _ & _ & E).
  rewrite E. subst ts. apply (c94_mesh_faces_partial tree hist nodes faces find (fm_part w) (Some t) levels default_sbc default_bbc q q' ex F z pts); auto. apply T.
Qed.
Print Assumptions c102_faces_partial.

(** A whole session with the variable, whose answers are cached: every answer
    is the field. *)
Theorem c102_session_partial :
  forall dateutil cftime now tree hist f m vs mv nodes faces find k w ts levels (F : quantity) qa ex z opts reqs,
  UniqueNames f -> MeshVarOf f mv -> NodesIn f mv nodes -> FacesIn f mv faces -> TriMesh nodes faces ->
  open_dataset dateutil cftime f = Ok (m, vs) ->
  (forall ps, tree nodes faces ps = map find ps) -> (forall ix ps, Forall asks (hist ix ps)) -> FindsFaces nodes faces find ->
  In (k, w) (fi_vars f) -> Unmentioned mv k -> Attr w "location" "node" ->
  InstantsIn cftime f w ts -> LevelsIn f levels -> Shaped w (length ts) levels (length nodes) ->
  Changes (Some ts) levels F ->
  (forall ix t d, SampleAt (Some ts) levels ix t d -> NodeSamples nodes (F t d) (fm_part w ix) /\ LinearOverFaces nodes faces (F t d)) ->
  Forall (fun r => uniform 3 opts r /\ TimeOk (Some ts) ex (rq_time r) (qa (rq_time r)) /\
    forall row, In row (rq_pts r) -> DepthOk levels default_sbc default_bbc (nth 2 row 0%Q) (z (nth 2 row 0%Q))) reqs ->
  Forall2 (fun r a => exists cs, a = Some (Ok cs) /\ Forall2 (fun row c => let p := (nth 0 row 0, nth 1 row 0)%Q in
      (find p <> (-1)%Z -> Shows (F (qa (rq_time r)) (z (nth 2 row 0%Q)) p) c) /\ (find p = (-1)%Z -> Shows 0 c)) (rq_pts r) cs)
    reqs (snd (at_run (at_request (fun file q pts => ask_file dateutil cftime now tree hist file k q ex pts)) (mkAt f []) (map Call reqs))).
Proof.
  intros dateutil cftime now tree hist f m vs mv nodes faces find k w ts levels F qa ex z opts reqs U MV NI FI T O HT HH FF I Un Lo In_ Lv Sh Ch Sa R.
  rewrite (at_run_transparent_fresh _ 3 opts f (map Call reqs)); [|lia|].
  2: { apply Forall_forall. intros o Ho. apply in_map_iff in Ho. destruct Ho as (r & <- & Hr). rewrite Forall_forall in R. apply R. auto. }
  induction R as [|r reqs (_ & TO & D) _ IH]; cbn [map at_ref]; constructor; auto.
  destruct (c102_nodes_partial dateutil cftime now tree hist f m vs mv nodes faces find k w ts levels F (rq_time r) (qa (rq_time r)) ex z (map spot_of (rq_pts r))) as (cs & E & V); auto.
  - intros s Hs. apply in_map_iff in Hs. destruct Hs as (row & <- & Hr). exact (D row Hr).
  - exists cs. split; [unfold at_request; f_equal; exact E|]. clear - V. revert cs V. induction (rq_pts r) as [|row rows IH]; intros cs V; inversion V; subst; constructor; auto.
Qed.
Print Assumptions c102_session_partial.

(** ** A file *)
Definition c102_var (ds : list string) (sh : list nat) (at_ : dict string) (part : list nat -> list cell) : mvar :=
  mkMvar ds sh at_ None None None [] [] [] part.
Definition c102_coord (nm : string) (x : list Q) : mvar := mkMvar ["node"] [4] [("standard_name", nm)] None None None [] x [] (fun _ => []).
Definition c102_mesh_var : mvar := mkMvar [] [] [("cf_role", "mesh_topology"); ("node_coordinates", "lon lat"); ("face_node_connectivity", "nv")]
  (Some 2%Z) None None [] [] [] (fun _ => []).
(** Columns first, numbered from one, as FVCOM writes it. *)
Definition c102_nv : mvar := mkMvar ["three"; "face"] [3; 2] [] None (Some 1%Z) None [] [] [[Some 1; Some 2]; [Some 2; Some 4]; [Some 3; Some 3]]%Z (fun _ => []).
Definition c102_times : list Z := [hour; 2 * hour]%Z.
Definition c102_time : mvar := mkMvar ["time"] [2] [("units", "hours since 2024-01-01T00:00:00")] None None None [1; 2]%Z [] [] (fun _ => []).
Definition c102_depth : mvar := mkMvar ["depth"] [3] [("units", "m")] None None None [] [0; 5; 10]%Q [] (fun _ => []).
Definition c102_field : quantity := fun t z p => (inject_Z t / inject_Z hour + z * 3 + fst p + 2 * snd p)%Q.
Definition c102_data (ix : list nat) : list cell :=
  match ix with
  | [i; j] => map (fun p => CVal (c102_field (nth i c102_times 0%Z) (nth j c94_levels 0%Q) p)) c94_nodes
  | _ => []
  end.
Definition c102_temp : mvar := c102_var ["time"; "depth"; "node"] [2; 3; 4] [("location", "node"); ("units", "C")] c102_data.
Definition c102_grid_vars : dict mvar :=
  [("mesh", c102_mesh_var); ("lon", c102_coord "longitude" [0; 1; 0; 1]%Q); ("lat", c102_coord "latitude" [0; 0; 1; 1]%Q); ("nv", c102_nv)].
Definition c102_file : file := mkFile None ["node"; "face"; "three"; "time"; "depth"]
  (c102_grid_vars ++ [("time", c102_time); ("depth", c102_depth); ("temp", c102_temp)]).
Definition c102_ask := ask_file demo_dateutil demo_cftime (mkTime [0%Z] None None) c94_tree (fun _ _ => []).

Lemma c102_unique : UniqueNames c102_file.
Proof. unfold UniqueNames. cbn [c102_file fi_vars c102_grid_vars app map fst]. distinct. Qed.
Lemma c102_mesh_of : MeshVarOf c102_file c102_mesh_var.
Proof.
  exists "mesh". split; [left; reflexivity|]. split; [exists "mesh_topology"; split; [reflexivity|]; exists "", ""; repeat split|]. split; [right; reflexivity|].
  intros n v r I. unfold Attr. cbn [c102_file fi_vars c102_grid_vars app In] in I.
  destruct I as [I|[I|[I|[I|[I|[I|[I|[]]]]]]]]; injection I as <- <-; intros A; vm_compute in A; try discriminate. reflexivity.
Qed.
Lemma c102_nodes_of : NodesIn c102_file c102_mesh_var c94_nodes.
Proof.
  exists "lon lat", "lon", "lat", (c102_coord "longitude" [0; 1; 0; 1]%Q), (c102_coord "latitude" [0; 0; 1; 1]%Q), [0; 1; 0; 1]%Q, [0; 0; 1; 1]%Q.
  split; [reflexivity|]. split; [exact (split_words "lon lat")|]. split; [right; left; reflexivity|]. split; [right; right; left; reflexivity|].
  split; [left|split; reflexivity]. split; [left; exists "longitude"; split; [reflexivity|left; reflexivity]|].
  split; [left; exists "latitude"; split; [reflexivity|left; reflexivity]|]. split; reflexivity.
Qed.
Lemma c102_faces_of : FacesIn c102_file c102_mesh_var c94_faces.
Proof.
  exists "nv", c102_nv, 1%Z. split; [reflexivity|]. split; [right; right; right; left; reflexivity|]. split; [reflexivity|]. split; [lia|].
  split; [repeat constructor|]. right. exists [[Some 0; Some 1]; [Some 1; Some 3]; [Some 2; Some 2]]%Z. split.
  - split; [reflexivity|]. split; [repeat constructor|]. intros i j Hi Hj. destruct i as [|[|i]]; [| |cbn in Hi; lia]; (destruct j as [|[|[|j]]]; [| | |lia]); reflexivity.
  - assert (E : forall i : Z, StoredEntry 1 None (Some i) (Some (i + 1)%Z)) by (intros; constructor; discriminate).
    repeat (constructor; [repeat (constructor; [exact (E _)|]); constructor|]). constructor.
Qed.
Lemma c102_unmentioned k : ~ In k ["mesh_topology"; "lon"; "lat"; "nv"; "1"; "2"] -> Unmentioned c102_mesh_var k.
Proof.
  intros N. cbn [In] in N. split; [intros ->; apply N; tauto|]. split; [intros ->; apply N; tauto|]. intros a text words I W K. apply split_unique in W. subst words.
  cbn [c102_mesh_var fm_attrs In] in I. destruct I as [I|[I|[I|[]]]]; injection I as <- <-; vm_compute in K; tauto.
Qed.
Lemma c102_instants w : (exists r, fm_dims w = "time" :: r) -> dget (fm_attrs w) "time" = None -> InstantsIn demo_cftime c102_file w c102_times.
Proof.
  intros (r & Hr) Ha. exists "time", c102_time. split; [|split; [do 4 right; left; reflexivity|]].
  - right. split; [intros n [A _]; cbn [to_load lv_attrs] in A; congruence|]. split; [exists r; exact Hr|]. exists "", "". reflexivity.
  - split; [|split].
    + exists "hours since 2024-01-01T00:00:00", hour, 0%Z, 0%Z. split; [reflexivity|]. split; [reflexivity|]. repeat constructor.
    + exists "hours since 2024-01-01T00:00:00". split; [reflexivity|]. exists "hours ", " 2024-01-01T00:00:00". reflexivity.
    + intros i j a b Hij Ha' Hb. destruct i as [|[|i]], j as [|[|j]]; cbn in Ha', Hb; try discriminate; try lia; try (destruct j; discriminate); try (destruct i; discriminate).
      injection Ha' as <-. injection Hb as <-. reflexivity.
Qed.
Lemma c102_ascending : Ascending c94_levels.
Proof. intros i j a b Hij Ha Hb. destruct i as [|[|[|i]]], j as [|[|[|[|j]]]]; cbn in Ha, Hb; try discriminate; try lia; injection Ha as <-; injection Hb as <-; reflexivity. Qed.
Lemma c102_levels_of : LevelsIn c102_file (Some c94_levels).
Proof.
  split.
  - intros n v I. cbn [c102_file fi_vars c102_grid_vars app In] in I. destruct I as [I|[I|[I|[I|[I|[I|[I|[]]]]]]]]; injection I as <- <-; (split; [discriminate|]);
      intros a l [<-|[<-|[]]] A; vm_compute in A; try discriminate; injection A as <-; cbn [In]; intros H; repeat (destruct H as [H|H]; [discriminate H|]); exact H.
  - exists c102_depth. split; [exists "depth", [], ["depth_levels"; "Depth"]; split; [reflexivity|]; split; [do 5 right; left; reflexivity|intros m []]|].
    split; [|split; [cbn; lia|split; [left; exact c102_ascending|]]].
    + split; [reflexivity|]. exists 0, 0%Q. split; [reflexivity|]. split; [reflexivity|]. intros [|[|[|[|i]]]] x H N; cbn in H; try congruence; try lia; injection H as <-; (split; reflexivity).
    + intros x [<-|[<-|[<-|[]]]]; discriminate.
Qed.

(** The whole way: the file opens, its temperature answers with the field at a
    time between two samples and at depths between two levels. *)
Example c102_example :
  exists m vs cs, open_dataset demo_dateutil demo_cftime c102_file = Ok (m, vs) /\ me_nodes m = c94_nodes /\ me_faces m = c94_faces /\
    c102_ask c102_file "temp" (hour + 1800000000)%Z false c94_pts = Ok cs /\
    Forall2 (fun s c => (c94_find (place s) <> (-1)%Z -> Shows (c102_field (hour + 1800000000)%Z (deep s) (place s)) c) /\ (c94_find (place s) = (-1)%Z -> Shows 0 c)) c94_pts cs /\
    map (fun s => c94_find (place s)) c94_pts = [0; 1; -1]%Z.
Proof.
  assert (O : exists p, open_dataset demo_dateutil demo_cftime c102_file = Ok p) by (eexists; vm_compute; reflexivity).
  destruct O as ([m vs] & O). exists m, vs.
  destruct (c102_grid demo_dateutil demo_cftime c102_file m vs c102_mesh_var c94_nodes c94_faces c102_unique c102_mesh_of c102_nodes_of c102_faces_of c94_mesh O) as [E1 E2].
  destruct (c102_nodes_partial demo_dateutil demo_cftime (mkTime [0%Z] None None) c94_tree (fun _ _ => []) c102_file m vs c102_mesh_var c94_nodes c94_faces c94_find "temp" c102_temp c102_times
    (Some c94_levels) c102_field (hour + 1800000000)%Z (hour + 1800000000)%Z false (fun z => z) c94_pts c102_unique c102_mesh_of c102_nodes_of c102_faces_of c94_mesh O) as (cs & E & V).
  - reflexivity.
  - intros. constructor.
  - exact c94_finds.
  - do 6 right. left. reflexivity.
  - apply c102_unmentioned. cbn [In]. intros H. repeat (destruct H as [H|H]; [discriminate H|]). exact H.
  - reflexivity.
  - apply c102_instants; [eexists; reflexivity|reflexivity].
  - exact c102_levels_of.
  - reflexivity.
  - split; intros l _; intros; unfold c102_field.
    + intros k t0 t1 q _ _ _. unfold Qdiv. ring.
    + intros k a b s _ _ _ w ->. ring.
  - intros ix t d (i & j & -> & Hi & Hj). split.
    + apply nth_error_nth with (d := 0%Z) in Hi. apply nth_error_nth with (d := 0%Q) in Hj. cbn [c102_temp c102_var fm_part c102_data]. rewrite Hi, Hj. unfold NodeSamples.
      repeat constructor; (eexists; split; reflexivity).
    + intros a b c A B C _ _ _ _. exists (inject_Z t / inject_Z hour + d * 3)%Q, 1%Q, 2%Q. intros p _. unfold c102_field. ring.
  - intros l H. injection H as <-. split; [|split; [discriminate|left; split; [|reflexivity]]].
    + destruct (c102_instants c102_temp ltac:(eexists; reflexivity) eq_refl) as (n & aw & _ & _ & _ & _ & X). exact X.
    + exists hour, (2 * hour)%Z. split; [reflexivity|]. split; [reflexivity|]. unfold hour. lia.
  - intros s Hs l H. injection H as <-. exists 0%Q, 10%Q. split; [reflexivity|split; [reflexivity|left]]. split; [exact c102_ascending|].
    destruct Hs as [<-|[<-|[<-|[]]]]; (split; [split; [discriminate|reflexivity]|reflexivity]).
  - exists cs. auto 10.
Qed.

(** The same with the times written seven hours west: the instants are seven
    hours later, and so are the answers. *)
Definition c102_zoned : file := mkFile None (fi_dims c102_file)
  (c102_grid_vars ++ [("time", mkMvar ["time"] [2] [("units", "hours since 2024-01-01T00:00:00-7:00")] None None None [1; 2]%Z [] [] (fun _ => [])); ("depth", c102_depth); ("temp", c102_temp)]).
Example c102_zone :
  InstantsIn demo_cftime c102_zoned c102_temp [8 * hour; 9 * hour]%Z /\
  exists cs, c102_ask c102_file "temp" (hour + 1800000000)%Z false c94_pts = Ok cs /\ c102_ask c102_zoned "temp" (8 * hour + 1800000000)%Z false c94_pts = Ok cs.
Proof.
  split; [|eexists; split; vm_compute; reflexivity].
  exists "time". eexists. split; [|split; [do 4 right; left; reflexivity|]].
  - right. split; [intros n [A _]; cbn [to_load lv_attrs] in A; discriminate|]. split; [eexists; reflexivity|]. exists "", "". reflexivity.
  - split; [|split].
    + exists "hours since 2024-01-01T00:00:00-7:00", hour, 0%Z, (-7 * hour)%Z. split; [reflexivity|]. split; [reflexivity|]. repeat constructor.
    + exists "hours since 2024-01-01T00:00:00-7:00". split; [reflexivity|]. exists "hours ", " 2024-01-01T00:00:00-7:00". reflexivity.
    + intros i j a b Hij Ha' Hb. destruct i as [|[|i]], j as [|[|j]]; cbn in Ha', Hb; try discriminate; try lia; try (destruct j; discriminate); try (destruct i; discriminate).
      injection Ha' as <-. injection Hb as <-. reflexivity.
Qed.

(** ** What goes wrong on the way *)
(** Data over depth and place without a time axis: the times of a variable that
    was loaded are never None, so its first dimension is taken for time and the
    depth of the points is ignored.  Here the data is the depth; at depth 5 the
    answer is the first level's. *)
Definition c102_static : mvar := c102_var ["depth"; "node"] [3; 4] [("location", "node")]
  (fun ix => match ix with [j] => map (fun _ => CVal (nth j c94_levels 0%Q)) c94_nodes | _ => [] end).
Definition c102_static_file : file := mkFile None ["node"; "face"; "three"; "depth"] (c102_grid_vars ++ [("depth", c102_depth); ("sigma_t", c102_static)]).
Theorem c102_depth_without_time_refuted :
  exists f k w ls m vs v s c, LevelsIn f (Some ls) /\ In (k, w) (fi_vars f) /\ fm_shape w = [length ls; 4] /\
  (forall j d, nth_error ls j = Some d -> fm_part w [j] = [CVal d; CVal d; CVal d; CVal d]) /\
  open_dataset demo_dateutil demo_cftime f = Ok (m, vs) /\ dget vs k = Some v /\ va_depth v = DepthRead /\
  DepthAsked ls default_sbc default_bbc (deep s) (deep s) /\ c94_find (place s) = 0%Z /\
  c102_ask f k 0%Z false [s] = Ok [c] /\ (deep s == 5)%Q /\ Shows 0 c.
Proof.
  exists c102_static_file, "sigma_t", c102_static, c94_levels. do 2 eexists. eexists. exists ((1 # 4, 1 # 4), 5)%Q. eexists. split; [|split; [do 5 right; left; reflexivity|split; [reflexivity|split; [|split; [|split; [|split; [|split; [|split; [|split; [|split]]]]]]]]]].
  - split.
    + intros n v I. cbn [c102_static_file fi_vars c102_grid_vars app In] in I. destruct I as [I|[I|[I|[I|[I|[I|[]]]]]]]; injection I as <- <-; (split; [discriminate|]);
        intros a l [<-|[<-|[]]] A; vm_compute in A; try discriminate; injection A as <-; cbn [In]; intros H; repeat (destruct H as [H|H]; [discriminate H|]); exact H.
    + destruct c102_levels_of as (_ & dv & _ & R). exists c102_depth.
      split; [exists "depth", [], ["depth_levels"; "Depth"]; split; [reflexivity|]; split; [do 4 right; left; reflexivity|intros m []]|].
      split; [|split; [cbn; lia|split; [left; exact c102_ascending|]]].
      * split; [reflexivity|]. exists 0, 0%Q. split; [reflexivity|]. split; [reflexivity|]. intros [|[|[|[|i]]]] x H N; cbn in H; try congruence; try lia; injection H as <-; (split; reflexivity).
      * intros x [<-|[<-|[<-|[]]]]; discriminate.
  - intros [|[|[|[|j]]]] d H; cbn in H; try discriminate; injection H as <-; reflexivity.
  - vm_compute. reflexivity.
  - vm_compute. reflexivity.
  - reflexivity.
  - exists 0%Q, 10%Q. split; [reflexivity|]. split; [reflexivity|]. left. split; [exact c102_ascending|]. split; [split; [discriminate|reflexivity]|reflexivity].
  - reflexivity.
  - vm_compute. reflexivity.
  - reflexivity.
  - eexists. split; [reflexivity|]. vm_compute. reflexivity.
Qed.
Print Assumptions c102_depth_without_time_refuted.

(** A variable without a place of its own that has one value for each boundary is
    on the boundaries. *)
Definition c102_bounds : mvar := mkMvar ["nbi"; "two"] [5; 2] [] None (Some 0%Z) None [] [] (map (map Some) [[0; 1]; [1; 3]; [3; 2]; [2; 0]; [1; 2]]%Z) (fun _ => []).
Definition c102_bounded : file := mkFile None ["node"; "face"; "three"; "nbi"; "two"; "time"]
  ([("mesh", mkMvar [] [] (fm_attrs c102_mesh_var ++ [("boundary_node_connectivity", "bnc")]) (Some 2%Z) None None [] [] [] (fun _ => [])); ("bnc", c102_bounds)] ++
   skipn 1 c102_grid_vars ++ [("time", c102_time); ("flux", c102_var ["time"; "nbi"] [2; 5] [] (fun _ => [])); ("odd", c102_var ["time"; "nbi"] [2; 6] [] (fun _ => []))]).
Example c102_on_boundaries : exists m vs v, open_dataset demo_dateutil demo_cftime c102_bounded = Ok (m, vs) /\ dget vs "flux" = Some v /\ va_loc v = "boundary" /\ dget vs "odd" = None.
Proof. do 3 eexists. split; [vm_compute; reflexivity|]. split; [vm_compute; reflexivity|]. split; vm_compute; reflexivity. Qed.
(** One variable over an axis of depths without values, and the file cannot be
    opened at all. *)
Definition c102_levelless : file := mkFile None ["node"; "face"; "three"; "time"; "depth"]
  (c102_grid_vars ++ [("time", c102_time); ("depth", mkMvar ["depth"] [0] [("units", "m")] None None None [] [] [] (fun _ => [])); ("v", c102_var ["time"; "node"] [2; 4] [("location", "node")] (fun _ => []))]).
Theorem c102_no_levels_refuted :
  (exists p, open_dataset demo_dateutil demo_cftime c102_levelless = Ok p) /\
  open_dataset demo_dateutil demo_cftime (mkFile None (fi_dims c102_levelless) (fi_vars c102_levelless ++ [("temp", c102_var ["time"; "depth"; "node"] [2; 0; 4] [("location", "node")] (fun _ => []))])) = Err ValueError.
Proof. split; [eexists|]; vm_compute; reflexivity. Qed.
Print Assumptions c102_no_levels_refuted.

(** When the file has no depth system that is recognised, three-dimensional
    data is loaded with a depth that has no levels: every question within the
    times raises AttributeError. *)
Lemma time_fails t q ex (e : err) : StrictlyIncreasing (t_data t) -> InRange (t_data t) q ->
  time_interp t q ex (fun _ => Err e) [] = Err e.
Proof.
  intros St (a & b & Ha & Hb & Hq). unfold time_interp, min_time, max_time.
  destruct (t_data t) as [|x l] eqn:Et; [discriminate|]. 
  rewrite (py_get_nat (x :: l) 0 a Ha : py_get (x :: l) 0 = Ok a). rewrite (DepthProofs.py_get_m1 (x :: l) b Hb). cbn [bind].
  destruct ((q =? a)%Z || ex && (q <? a)%Z); [reflexivity|]. destruct ((q =? b)%Z || ex && (q >? b)%Z); [reflexivity|].
  destruct (Nat.eq_dec (length (t_data t)) 1) as [L|L].
  - rewrite (index_of_single _ _ _ L). reflexivity.
  - destruct (index_of_ok t q false) as (i & -> & _); [rewrite Et; exact St|exact L|right; rewrite Et; exists a, b; auto|]. reflexivity.
Qed.
Theorem c102_surface_only :
  forall dateutil cftime now tree hist f m vs k v t nm w q ex pts,
  open_dataset dateutil cftime f = Ok (m, vs) -> dget vs k = Some v -> dget (fi_vars f) (va_varname v) = Some w ->
  read_depth f = Ok SurfaceOnly -> va_depth v = DepthRead -> length (va_shape v) = 3 ->
  va_time v = TimeRead t nm -> StrictlyIncreasing (t_data t) -> InRange (t_data t) q ->
  ask_file dateutil cftime now tree hist f k q ex pts = Err AttributeError.
Proof.
  intros dateutil cftime now tree hist f m vs k v t nm w q ex pts O G W R D L T St Rq.
  unfold ask_file. rewrite O. cbn [bind fst snd]. rewrite G. unfold answer. rewrite W. unfold depth_of. rewrite D, R. cbn [bind fst snd]. rewrite L, T. cbn [time_value].
  change (dimension_ordering None GOther 3 true true) with (Ok [DTime; DDepth; DEle]). cbn [bind]. unfold at_grid. 
  change (next_is [DTime; DDepth; DEle] DTime DDepth) with (Ok true). cbn [bind]. unfold v_time, v_depth. apply time_fails; auto.
Qed.
Print Assumptions c102_surface_only.
(** Such as with levels under another name ("lev"), standard name and all. *)
Definition c102_lev : mvar := mkMvar ["lev"] [3] [("standard_name", "depth"); ("units", "m")] None None None [] [0; 5; 10]%Q [] (fun _ => []).
Definition c102_lev_file : file := mkFile None ["node"; "face"; "three"; "time"; "lev"]
  (c102_grid_vars ++ [("time", c102_time); ("lev", c102_lev); ("temp", c102_var ["time"; "lev"; "node"] [2; 3; 4] [("location", "node")] c102_data)]).
Theorem c102_surface_only_refuted :
  exists f lev, In ("lev", lev) (fi_vars f) /\ Attr lev "standard_name" "depth" /\
  (exists p, open_dataset demo_dateutil demo_cftime f = Ok p /\ In "temp" (map fst (snd p))) /\
  forall q ex pts, (hour <= q <= 2 * hour)%Z -> c102_ask f "temp" q ex pts = Err AttributeError.
Proof.
  exists c102_lev_file, c102_lev. split; [do 5 right; left; reflexivity|]. split; [reflexivity|].
  assert (O : exists m vs v t nm, open_dataset demo_dateutil demo_cftime c102_lev_file = Ok (m, vs) /\ dget vs "temp" = Some v /\ va_varname v = "temp" /\ va_depth v = DepthRead /\
    length (va_shape v) = 3 /\ va_time v = TimeRead t nm /\ t_data t = c102_times) by (do 5 eexists; split; [vm_compute; reflexivity|repeat split]).
  destruct O as (m & vs & v & t & nm & O & G & Vn & D & L & T & Td). split.
  - exists (m, vs). split; [exact O|]. apply SearchProofs.dget_in in G. apply in_map_iff. exists ("temp", v). auto.
  - intros q ex pts Hq. refine (c102_surface_only demo_dateutil demo_cftime _ _ _ c102_lev_file m vs "temp" v t nm _ q ex pts O G _ _ D L T _ _).
    + rewrite Vn. reflexivity.
    + vm_compute. reflexivity.
    + rewrite Td. destruct (c102_instants c102_temp ltac:(eexists; reflexivity) eq_refl) as (n & aw & _ & _ & _ & _ & X). exact X.
    + rewrite Td. exists hour, (2 * hour)%Z. auto.
Qed.
Print Assumptions c102_surface_only_refuted.

(** A coordinate axis as long as there are faces (here the time axis: two times,
    two faces) is loaded as a variable on the faces. *)
Theorem c102_axis_as_data_refuted :
  exists f m vs v, UniqueNames f /\ open_dataset demo_dateutil demo_cftime f = Ok (m, vs) /\
  dget vs "time" = Some v /\ va_loc v = "face" /\
  exists w, In ("time", w) (fi_vars f) /\ fm_dims w = ["time"] /\ dget (fm_attrs w) "location" = None.
Proof.
  exists c102_file. do 3 eexists. split; [exact c102_unique|]. split; [vm_compute; reflexivity|]. split; [reflexivity|]. split; [reflexivity|].
  exists c102_time. split; [do 4 right; left; reflexivity|]. split; reflexivity.
Qed.
Print Assumptions c102_axis_as_data_refuted.
