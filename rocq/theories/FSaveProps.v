(** C110: a dataset that is saved and opened again answers as before. *)
From Coq Require Import String Ascii Lqa.
From Verif Require Import Common CommonProofs TimeModel GridTypeModel GridTypeSpec GridTypeProofs MaskModel MaskSpec MaskProofs VariableModel DepthModel UGridGeomModel UGridGeomSpec UGridLocProofs UGridModel UFileModel UFileSpec UFileProofs UFileProps TFileModel TFileProps LoadModel
  DSaveModel DSaveSpec DSaveProofs DSaveProps WholeModel WholeSpec WholeProofs WholeProps FMeshModel FMeshSpec FMeshProofs FMeshProps FSaveModel FSaveSpec FSaveProofs.
Open Scope string_scope.
Open Scope list_scope.
Open Scope nat_scope.

Lemma savable_round d faces format dateutil cftime : Savable d faces -> SomeFormat format -> let g := ds_grid d in
  exists f xs, save_dataset d format = Ok f /\
    load_dataset dateutil cftime (dims_made g) f =
      Ok (mkUgrid (s_mesh g) (filled (s_nodes g)) (s_faces g) None (s_bounds g) (s_edges g) (option_map filled (s_face_coords g)) (option_map filled (s_edge_coords g)) None, xs) /\
    Forall2 SameVariable (map snd (ds_vars d)) xs.
Proof.
  intros [[Hm Ht] (Fa & Va & N3) [NE NB] (FF & FE & Hb) [W Nd]] Fm g. apply (c79_round_trip_partial d format dateutil cftime); auto.
  - intros t Et. rewrite Fa in Et. injection Et as <-. exact Va.
  - intros t Et. rewrite Fa in Et. injection Et as <-. rewrite map_length. exact N3.
Qed.
Lemma same_get vs xs : Forall2 SameVariable vs xs -> NoDup (map d_name vs) -> forall v, In v vs -> exists x, dget xs (d_name v) = Some x /\ SameVariable v (d_name v, x).
Proof.
  induction 1 as [|v [k x] vs xs S F IH]; intros Nd w Iw; [destruct Iw|]. cbn [map] in Nd. inversion Nd as [|? ? Nh Nd']; subst. pose proof (proj1 S) as Ek. cbn [fst] in Ek. subst k. cbn [dget].
  destruct Iw as [->|Iw]; [rewrite String.eqb_refl; eauto|]. destruct (String.eqb_spec (d_name w) (d_name v)) as [E|]; [|now apply IH]. exfalso. apply Nh. rewrite <- E. now apply in_map.
Qed.

(** The answers of the opened variable are those of the variable saved, whatever
    it is asked: the same numbers or the same error. *)
Theorem c110_answers_partial :
  forall dateutil cftime now tree hist d faces format k v time has_depth depth q ex pts,
  Savable d faces -> SomeFormat format -> In (k, v) (ds_vars d) ->
  ask_saved tree hist dateutil cftime now d format (d_name v) q ex pts = ask_variable tree hist (s_nodes (ds_grid d)) faces v time has_depth depth q ex pts.
Proof.
  intros dateutil cftime now tree hist d faces format k v time hd dv q ex pts Sa Fm I. destruct (savable_round d faces format dateutil cftime Sa Fm) as (f & xs & Sv & Ld & Sm).
  unfold ask_saved. rewrite Sv. cbn [bind]. assert (Iv : In v (map snd (ds_vars d))) by (apply in_map_iff; exists (k, v); auto).
  destruct (same_get _ _ Sm ltac:(rewrite map_map; exact (proj2 (sa_vars _ _ Sa))) v Iv) as (x & Gx & (_ & Lo & _ & _ & _ & De & _)).
  eapply again_asked; [exact Sv|exact Ld|reflexivity|exact (proj1 (sa_faces _ _ Sa))|reflexivity|exact Iv|exact Gx|exact Lo|exact De].
Qed.
Print Assumptions c110_answers_partial.
(** It does not matter what the two grids were asked before. *)
Theorem c110_history_partial :
  forall dateutil cftime now tree hist hist' d faces format k v time has_depth depth q ex pts,
  Savable d faces -> SomeFormat format -> In (k, v) (ds_vars d) ->
  (forall ix ps, Forall asks (hist ix ps)) -> (forall ix ps, Forall asks (hist' ix ps)) ->
  ask_saved tree hist dateutil cftime now d format (d_name v) q ex pts = ask_variable tree hist' (s_nodes (ds_grid d)) faces v time has_depth depth q ex pts.
Proof.
  intros dateutil cftime now tree hist hist' d faces format k v time hd dv q ex pts Sa Fm I H1 H2. rewrite (c110_answers_partial dateutil cftime now tree hist d faces format k v time hd dv q ex pts Sa Fm I).
  unfold ask_variable. cbn [length]. destruct time; cbn [dimension_ordering length Z.of_nat bind]; unfold at_grid, grid_xy; cbn; rewrite !mesh_fresh; auto.
Qed.
Print Assumptions c110_history_partial.
(** Fields at the nodes and values of the faces are answered as such. *)
Theorem c110_nodes_partial :
  forall dateutil cftime now tree hist d faces format k v find (F : point -> Q) q ex pts,
  Savable d faces -> SomeFormat format -> In (k, v) (ds_vars d) -> d_loc v = Some "node" -> let nodes := s_nodes (ds_grid d) in
  TriMesh nodes faces -> (forall ps, tree nodes faces ps = map find ps) -> (forall ix ps, Forall asks (hist ix ps)) -> FindsFaces nodes faces find ->
  Forall2 (fun p x => (x == F p)%Q) nodes (d_vals v) -> LinearOverFaces nodes faces F ->
  exists cs, ask_saved tree hist dateutil cftime now d format (d_name v) q ex pts = Ok cs /\
    Forall2 (fun s c => (find (place s) <> (-1)%Z -> Shows (F (place s)) c) /\ (find (place s) = (-1)%Z -> Shows 0 c)) pts cs.
Proof.
  intros dateutil cftime now tree hist d faces format k v find F q ex pts Sa Fm I Lo nodes T HT HH FF V L.
  rewrite (c110_answers_partial dateutil cftime now tree hist d faces format k v None false None q ex pts Sa Fm I).
  destruct (c94_mesh_nodes_partial tree hist nodes faces find (fun ix => match ix with [] => map CVal (d_vals v) | _ => [] end) None None BExtrapolate BExtrapolate q q ex (fun _ _ => F) (fun z => z) pts) as (cs & E & W); auto.
  - intros l H. discriminate H.
  - intros l H. discriminate H.
  - intros s _ l H. discriminate H.
  - split; intros l H; discriminate H.
  - intros ix t z HS. cbn in HS. subst ix. split; [|exact L]. unfold NodeSamples. clear - V. induction V as [|p x ps xs E V IH]; constructor; auto. exists x. split; [reflexivity|exact E].
  - exists cs. split; [|exact W]. rewrite <- E. unfold ask_variable. rewrite Lo. cbn [length]. assert (Ln : length (d_vals v) = length nodes) by (clear - V; induction V; cbn; congruence). rewrite Ln. reflexivity.
Qed.
Print Assumptions c110_nodes_partial.
Theorem c110_faces_partial :
  forall dateutil cftime now tree hist d faces format k v find q ex pts,
  Savable d faces -> SomeFormat format -> In (k, v) (ds_vars d) -> d_loc v = Some "face" -> let nodes := s_nodes (ds_grid d) in
  (forall ps, tree nodes faces ps = map find ps) -> (forall ix ps, Forall asks (hist ix ps)) -> FindsFaces nodes faces find ->
  exists cs, ask_saved tree hist dateutil cftime now d format (d_name v) q ex pts = Ok cs /\
    Forall2 (fun s c => (forall j x, find (place s) = Z.of_nat j -> nth_error (d_vals v) j = Some x -> Shows x c) /\ (find (place s) = (-1)%Z -> Shows 0 c)) pts cs.
Proof.
  intros dateutil cftime now tree hist d faces format k v find q ex pts Sa Fm I Lo nodes HT HH FF.
  rewrite (c110_answers_partial dateutil cftime now tree hist d faces format k v None false None q ex pts Sa Fm I).
  assert (Ln : length (d_vals v) = length faces).
  { destruct (sa_vars _ _ Sa) as [W _]. rewrite Forall_forall in W. destruct (w_place _ _ (W v ltac:(apply in_map_iff; exists (k, v); auto))) as (l & Hl & El & _). rewrite Lo in Hl. injection Hl as <-.
    destruct El as [[X _]|[[_ (t & Et & ->)]|[[X _]|[X _]]]]; try discriminate. rewrite (proj1 (sa_faces _ _ Sa)) in Et. injection Et as <-. now rewrite map_length. }
  destruct (c94_mesh_faces_partial tree hist nodes faces find (fun ix => match ix with [] => map CVal (d_vals v) | _ => [] end) None None BExtrapolate BExtrapolate q q ex (fun _ _ j => nth j (d_vals v) 0%Q) (fun z => z) pts) as (cs & E & W); auto.
  - intros ->. destruct (sa_faces _ _ Sa) as (_ & [(r & x & [] & _) _] & _).
  - intros l H. discriminate H.
  - intros l H. discriminate H.
  - intros s _ l H. discriminate H.
  - split; intros l H; discriminate H.
  - intros ix t z HS. cbn in HS. subst ix. split; [now rewrite map_length|]. intros j c H. rewrite nth_error_map in H. destruct (nth_error (d_vals v) j) as [x|] eqn:Hx; [injection H as <-|discriminate]. exists x. split; [reflexivity|]. apply nth_error_nth with (d := 0%Q) in Hx. now rewrite Hx.
  - exists cs. split.
    + rewrite <- E. unfold ask_variable. rewrite Lo. cbn [length]. rewrite Ln. reflexivity.
    + revert W. apply Forall2_impl'. intros s c [A B]. split; [|exact B]. intros j x Hj Hx. specialize (A j Hj). apply nth_error_nth with (d := 0%Q) in Hx. now rewrite Hx in A.
Qed.
Print Assumptions c110_faces_partial.

(** Saving what was opened gives the same file, if no long name differs from the
    name: so it is from then on, however often it is saved and opened. *)
Theorem c110_stable_partial :
  forall dateutil cftime d faces format format' f u xs attrs,
  Savable d faces -> SomeFormat format -> SomeFormat format' -> s_face_face (ds_grid d) = None -> s_face_edge (ds_grid d) = None ->
  (forall k v n, In (k, v) (ds_vars d) -> dget (d_attrs v) "long_name" = Some n -> n = d_name v) ->
  save_dataset d format = Ok f -> load_dataset dateutil cftime (dims_made (ds_grid d)) f = Ok (u, xs) ->
  save_dataset (mkDataset (again_grid u) (map (fun x => (fst x, again_var (fst (snd x)) (snd (snd x)))) xs) attrs) format' = Ok f.
Proof.
  intros dateutil cftime d faces format format' f u xs attrs Sa Fm Fm' Nf Ne Ln Sv Ld. destruct (savable_round d faces format dateutil cftime Sa Fm) as (f' & xs' & Sv' & Ld' & Sm).
  assert (f' = f) by congruence. subst f'. assert (E2 : (u, xs) = (mkUgrid (s_mesh (ds_grid d)) (filled (s_nodes (ds_grid d))) (s_faces (ds_grid d)) None (s_bounds (ds_grid d)) (s_edges (ds_grid d)) (option_map filled (s_face_coords (ds_grid d))) (option_map filled (s_edge_coords (ds_grid d))) None, xs')) by congruence.
  injection E2 as -> ->. clear Ld'.
  assert (Eg : again_grid (mkUgrid (s_mesh (ds_grid d)) (filled (s_nodes (ds_grid d))) (s_faces (ds_grid d)) None (s_bounds (ds_grid d)) (s_edges (ds_grid d)) (option_map filled (s_face_coords (ds_grid d))) (option_map filled (s_edge_coords (ds_grid d))) None) = ds_grid d).
  { pose proof (proj2 (proj2 (sa_coords _ _ Sa))) as Hb. revert Nf Ne Hb. destruct (ds_grid d) as [m nodes fs ff fe bs es fc ec bc]. unfold again_grid. cbn. intros -> -> ->. rewrite again_filled.
    destruct fc, ec; cbn [option_map]; rewrite ?again_filled; reflexivity. }
  rewrite Eg. clear Eg.
  destruct (again_parts d format dateutil cftime f _ xs' Sv Ld eq_refl) as (vs & _ & Hv & Exs).
  assert (Na : Forall2 (fun v x => va_name (fst (snd x)) = d_name v) (map snd (ds_vars d)) xs').
  { assert (A : forall v, In v (map snd (ds_vars d)) -> match dget (d_attrs v) "long_name" with Some n => n | None => d_name v end = d_name v).
    { intros v Iv. apply in_map_iff in Iv. destruct Iv as ([k v'] & <- & Iv). cbn [snd]. destruct (dget (d_attrs v') "long_name") as [n|] eqn:En; [exact (Ln k v' n Iv En)|reflexivity]. }
    clear - Sm A. induction Sm as [|v x vs xs S F IH]; constructor; [|apply IH; intros; apply A; now right]. destruct S as (_ & _ & _ & -> & _). apply A. now left. }
  pose proof Sv as Sv2. unfold save_dataset in Sv2 |- *. destruct (isin format ["netcdf3"; "netcdf4"]) eqn:If; [cbn [negb] in Sv2|discriminate].
  assert (If' : isin format' ["netcdf3"; "netcdf4"] = true) by (destruct Fm' as [-> | ->]; reflexivity). rewrite If'. cbn [negb ds_grid ds_vars].
  apply bind_ok in Sv2. destruct Sv2 as (fs & Hf & H). apply bind_ok in H. destruct H as (ss & Hs & H). rewrite Hf. cbn [bind]. rewrite map_map. cbn [snd].
  rewrite (save_all_again (ds_grid d) (map snd (ds_vars d)) (map fv_name fs) ss xs' Hs); auto.
  - destruct (sa_vars _ _ Sa) as [W _]. revert W. apply Forall_impl. intros v Wv. exact (proj1 (w_attrs _ _ Wv)).
  - (* the attributes read are those written *)
    destruct (save_vars_written _ _ _ _ Hs) as (Wr & Nd & Di).
    assert (At : forall v s x, In v (map snd (ds_vars d)) -> WrittenAs (ds_grid d) v s -> sget f (d_name v) = Some s -> In (d_name v, x) xs' -> va_attrs (fst x) = fv_attrs (sv_var s)).
    { intros v s x Iv _ Gs Ix. rewrite Exs in Ix. apply in_map_iff in Ix. destruct Ix as ([k' x'] & E & Ix'). cbn [fst snd] in E. injection E as -> <-. cbn [fst].
      destruct (load_each_fields _ _ _ _ _ _ _ Hv _ _ Ix') as (w & Gw & _ & _ & ->). rewrite sget_load, Gs in Gw. injection Gw as <-. reflexivity. }
    assert (Gall : forall v s, In v (map snd (ds_vars d)) -> In s ss -> WrittenAs (ds_grid d) v s -> sget f (d_name v) = Some s).
    { intros v s Iv Is Ws. injection H as <-. rewrite sget_app; [|rewrite map_map; exact (Di v Iv)]. destruct (written_get _ _ _ Wr Nd v Iv) as (s' & Gs' & _). rewrite Gs'. f_equal.
      assert (Es : fv_name (sv_var s) = d_name v) by (destruct Ws as (? & ? & ? & _ & _ & _ & ->); reflexivity).
      assert (N' : NoDup (map (fun s => fv_name (sv_var s)) ss)).
      { replace (map (fun s => fv_name (sv_var s)) ss) with (map d_name (map snd (ds_vars d))); [exact Nd|]. clear - Wr. induction Wr as [|v s vs ss W F IH]; [reflexivity|]. cbn [map]. rewrite IH. f_equal. destruct W as (? & ? & ? & _ & _ & _ & ->). reflexivity. }
      revert Gs' Is Es N'. clear. unfold sget. induction ss as [|t ss IH]; [discriminate|]. cbn [find map]. intros G Is Es N. inversion N as [|? ? Nh N']; subst.
      destruct (String.eqb_spec (d_name v) (fv_name (sv_var t))) as [E|E].
      - injection G as <-. destruct Is as [->|Is]; [reflexivity|]. exfalso. apply Nh. rewrite <- E, <- Es. now apply (in_map (fun s => fv_name (sv_var s))).
      - destruct Is as [->|Is]; [congruence|]. auto. }
    assert (Iv : forall v, In v (map snd (ds_vars d)) -> In v (map snd (ds_vars d))) by auto. assert (Is : forall s, In s ss -> In s ss) by auto. assert (Ix : forall x, In x xs' -> In x xs') by auto.
    clear Hs. revert Iv Is Ix. revert Sm Wr. generalize (map snd (ds_vars d)) at 1 2 3. generalize ss at 1 2 4. generalize xs' at 1 2 4. intros xl sl vl Sm Wr. revert xl Sm. induction Wr as [|v s vl sl W Wr IH]; intros xl Sm Iv Is Ix; inversion Sm as [|? x ? xl' S1 S2]; subst; constructor.
    + destruct x as [kx x]. pose proof (proj1 S1) as Ek. cbn [fst] in Ek. subst kx. cbn [snd]. apply (At v s x); [apply Iv; now left|exact W|apply Gall; [apply Iv; now left|apply Is; now left|exact W]|apply Ix; now left].
    + apply IH; auto; [intros; apply Iv; now right|intros; apply Is; now right|intros; apply Ix; now right].
Qed.
Print Assumptions c110_stable_partial.

(** ** A dataset *)
Definition c110_grid : sgrid := mkSgrid "mesh" c94_nodes (Some (map (map Some) c94_faces)) None None None None (Some [(1 # 3, 1 # 3); (2 # 3, 2 # 3)]%Q) None None.
Definition c110_temp : dvar := mkDvar "temp" (Some "node") [0; 1; 2; 3]%Q [("units", "C"); ("long_name", "temp")].
Definition c110_flux : dvar := mkDvar "flux" (Some "face") [5; 7]%Q [("units", "m3/s"); ("location", "face")].
Definition c110_data : dataset := mkDataset c110_grid [("t", c110_temp); ("f", c110_flux)] [("title", "demo")].
Lemma c110_word w : MeshWord c110_grid w -> In w ["2"; "mesh_topology"; "Topology"; "data"; "of"; "2D"; "unstructured"; "mesh";
  "mesh_node_lon"; "mesh_node_lat"; "mesh_face_nodes"; "mesh_face_lon"; "mesh_face_lat"].
Proof.
  intros [->|(role & text & words & I & W & H)]; [now left|]. rewrite <- (split_unique _ _ W) in H. cbn in I.
  repeat destruct I as [I|I]; try contradiction; injection I as <- <-; vm_compute in H; cbn; intuition (subst; auto 20).
Qed.
Lemma c110_savable : Savable c110_data c94_faces.
Proof.
  constructor; cbn [c110_data ds_grid c110_grid s_mesh s_nodes s_faces s_edges s_bounds s_face_coords s_edge_coords s_bound_coords ds_vars].
  - split; [now apply nonblank_text|]. intros H. apply contains_spec in H. discriminate.
  - split; [reflexivity|]. split; [|discriminate]. split; [exists [Some 0; Some 1; Some 2]%Z, (Some 0%Z); cbn; auto|].
    intros x (r & [<-|[<-|[]]] & H); cbn in H; repeat (destruct H as [H|H]; [injection H as <-; cbn; lia|]); destruct H.
  - split; intros e H; discriminate.
  - split; [eexists; split; reflexivity|]. split; [exact I|reflexivity].
  - split.
    + constructor; [|constructor; [|constructor]]; constructor; cbn [snd c110_temp c110_flux d_loc d_name d_attrs d_vals].
      * exists "node". split; [reflexivity|]. split; [left; split; reflexivity|now left].
      * split; [|discriminate]. intros H. apply c110_word in H. cbn in H. repeat destruct H as [H|H]; try discriminate; contradiction.
      * split; [|reflexivity]. repeat constructor; cbn; intuition discriminate.
      * intros t H. discriminate.
      * exists "face". split; [reflexivity|]. split; [right; left; split; [reflexivity|eexists; split; reflexivity]|now right].
      * split; [|discriminate]. intros H. apply c110_word in H. cbn in H. repeat destruct H as [H|H]; try discriminate; contradiction.
      * split; [|reflexivity]. repeat constructor; cbn; intuition discriminate.
      * intros t H. discriminate.
    + repeat constructor; cbn; intuition discriminate.
Qed.
Definition c110_ask := ask_saved c94_tree (fun _ _ => []) demo_dateutil demo_cftime (mkTime [0%Z] None None) c110_data "netcdf4".
Example c110_example :
  (exists a b c, c110_ask "temp" 7%Z false c94_pts = Ok [CVal a; CVal b; CVal c] /\ (a == 1)%Q /\ (b == 9 # 4)%Q /\ (c == 0)%Q) /\
  (exists a b c, c110_ask "flux" 7%Z false c94_pts = Ok [CVal a; CVal b; CVal c] /\ (a == 5)%Q /\ (b == 7)%Q /\ (c == 0)%Q) /\
  (exists cs, c110_ask "temp" 7%Z false c94_pts = Ok cs /\
     Forall2 (fun s c => (c94_find (place s) <> (-1)%Z -> Shows (fst (place s) + 2 * snd (place s)) c) /\ (c94_find (place s) = (-1)%Z -> Shows 0 c)) c94_pts cs) /\
  exists f u xs, save_dataset c110_data "netcdf4" = Ok f /\ load_dataset demo_dateutil demo_cftime (dims_made c110_grid) f = Ok (u, xs) /\
    save_dataset (mkDataset (again_grid u) (map (fun x => (fst x, again_var (fst (snd x)) (snd (snd x)))) xs) []) "netcdf3" = Ok f.
Proof.
  split; [do 3 eexists; split; [vm_compute; reflexivity|repeat split]|]. split; [do 3 eexists; split; [vm_compute; reflexivity|repeat split]|]. split.
  - apply (c110_nodes_partial demo_dateutil demo_cftime (mkTime [0%Z] None None) c94_tree (fun _ _ => []) c110_data c94_faces "netcdf4" "t" c110_temp c94_find (fun p => fst p + 2 * snd p)%Q); auto.
    + exact c110_savable.
    + now right.
    + now left.
    + exact c94_mesh.
    + exact c94_finds.
    + repeat constructor; reflexivity.
    + intros a b c A B C _ _ _ _. exists 0%Q, 1%Q, 2%Q. intros p _. ring.
  - destruct (savable_round c110_data c94_faces "netcdf4" demo_dateutil demo_cftime c110_savable (or_intror eq_refl)) as (f & xs & Sv & Ld & _).
    eexists f, _, xs. split; [exact Sv|]. split; [exact Ld|].
    apply (c110_stable_partial demo_dateutil demo_cftime c110_data c94_faces "netcdf4" "netcdf3" f _ xs [] c110_savable); auto; [now right|now left|].
    intros k v n [E|[E|[]]] H; injection E as <- <-; vm_compute in H; [injection H as <-; reflexivity|discriminate].
Qed.

(** With three triangles the table of faces is taken for one of corners: the file
    opens with other faces, of which one has the same node twice. *)
Theorem c110_three_faces_refuted :
  exists d faces f m vs, s_faces (ds_grid d) = Some (map (map Some) faces) /\ TriMesh (s_nodes (ds_grid d)) faces /\ save_dataset d "netcdf4" = Ok f /\
    open_dataset demo_dateutil demo_cftime (to_file (dims_made (ds_grid d)) f) = Ok (m, vs) /\ me_faces m <> faces /\ In [0; 0; 1]%Z (me_faces m).
Proof.
  exists (mkDataset (mkSgrid "mesh" [(0, 0); (1, 0); (1, 1); (0, 1); (2, 0)]%Q (Some (map (map Some) [[0; 1; 2]; [0; 2; 3]; [1; 4; 2]]%Z)) None None None None None None None) [] []),
    [[0; 1; 2]; [0; 2; 3]; [1; 4; 2]]%Z. do 3 eexists.
  split; [reflexivity|]. split.
  - split; [discriminate|]. cbn [ds_grid s_nodes]. intros f [<-|[<-|[<-|[]]]]; [exists 0, 1, 2, (0, 0)%Q, (1, 0)%Q, (1, 1)%Q|exists 0, 2, 3, (0, 0)%Q, (1, 1)%Q, (0, 1)%Q|exists 1, 4, 2, (1, 0)%Q, (2, 0)%Q, (1, 1)%Q];
      (split; [reflexivity|split; [reflexivity|split; [reflexivity|split; [reflexivity|cbv; discriminate]]]]).
  - split; [reflexivity|]. split; [vm_compute; reflexivity|]. split; [discriminate|now left].
Qed.
Print Assumptions c110_three_faces_refuted.
(** The variable is found under its name, not under its key in the dataset. *)
Theorem c110_key_refuted : exists d faces k v, Savable d faces /\ In (k, v) (ds_vars d) /\ forall tree hist now q ex pts,
  ask_saved tree hist demo_dateutil demo_cftime now d "netcdf4" k q ex pts = Err KeyError.
Proof. exists c110_data, c94_faces, "t", c110_temp. split; [exact c110_savable|]. split; [now left|]. intros. vm_compute. reflexivity. Qed.
Print Assumptions c110_key_refuted.
