(** C109, over terrain-following levels on a mesh, and in files of FVCOM. *)
From Coq Require Import String Lqa.
From Verif Require Import Common CommonProofs TimeModel TimeSpec TimeProofs GridTypeModel GridTypeSpec VariableModel VariableSpec VariableProofs DepthModel DepthSpec
  UGridGeomModel UGridGeomSpec UGridLocProofs TFileModel TFileSpec TFileProps LoadModel LoadSpec LoadProofs VLoadModel UFileModel UFileSpec WholeModel WholeSpec WholeProofs WholeProps
  WMaskSpec WMaskProofs TerrModel TerrSpec TerrProofs TerrProps FMeshModel FMeshSpec FMeshProofs FMeshProps FRectSpec FRectProofs FStagSpec FStagProps FRomsModel FRomsSpec FFvcomModel FFvcomSpec FFvcomRead FFvcomProofs FFvcomProps
  FFMaskSpec FFMaskProofs.
Open Scope string_scope.
Open Scope list_scope.
Open Scope nat_scope.

(** Data of [n'] levels over the water [te], missing at some nodes or faces at some
    times and levels: the answer is missing when a level in use is, at a time in
    use, where the point is; else it is blended as for data without gaps.
    Missing: nodes missing apart from the others of their triangle and not 0. *)
Theorem c109_sigma_levels_partial :
  forall tree hist nodes faces find te n h zeta sigma qz tm n' len part loc F m q q' ex pts,
  (forall ps, tree nodes faces ps = map find ps) -> (forall ix ps, Forall asks (hist ix ps)) -> TriMesh nodes faces -> FindsFaces nodes faces find ->
  TerrainOf nodes faces te n h sigma -> SurfaceOf nodes faces te zeta ex q qz (map place pts) ->
  let z s k := level_depth h zeta sigma qz k (place s) in
  (forall s, In s pts -> find (place s) <> (-1)%Z -> GoesDown n (z s)) ->
  TimeOk (Some (t_data tm)) ex q q' -> MaskedField nodes faces find (t_data tm) n' part (map place pts) loc F m -> TimeSteady (t_data tm) F ->
  n <= n' -> n' <> length (te_siglay te) ->
  let missing s := MissingOver (t_data tm) ex q m (place s) in
  exists cs, at_grid (mesh_interp tree hist nodes faces (place_of loc) part) [DTime; DDepth; DEle] [length (t_data tm); n'; len] (Some tm)
      (Some (terrain_view tree hist nodes faces te q ex BExtrapolate BMask)) q ex pts = Ok cs /\
    Forall2 (fun s c => (find (place s) <> (-1)%Z -> MaskedColumn n n' (z s) (fun k => F q' k (place s)) (missing s) (deep s) c) /\
      (find (place s) = (-1)%Z -> MaskedOutside n' (missing s) (deep s) c)) pts cs.
Proof.
  intros tree hist nodes faces find te n h zeta sigma qz tm n' len part loc F m q q' ex pts HT HH M FF (Hh & Hs & HN & N2 & NL & HPl & HTop) Su z HD TO HF HSt Le Nl missing.
  destruct (TO _ eq_refl) as (SI & Ne & TA).
  apply (masked_levels tree hist nodes faces find te q ex HT HH M FF h zeta sigma qz Hh Hs n HN N2 (or_introl NL) HTop HPl pts); auto.
  - unfold ZetaSamples, SurfaceOf in *. destruct (te_zeta te) as [[t d]|]; [exact Su|]. destruct Su as [Z0 OE]. split; [exact Z0|]. clear - OE. induction pts; cbn [map] in OE; inversion OE; subst; constructor; auto.
  - intros s j k Hi Hf Hjk. apply (HD s Hi Hf); auto.
Qed.
Print Assumptions c109_sigma_levels_partial.
(** Data on the layers, at points not above the first level. *)
Theorem c109_sigma_layers_partial :
  forall tree hist nodes faces find te n h zeta sigma qz tm n' len part loc F m q q' ex pts,
  (forall ps, tree nodes faces ps = map find ps) -> (forall ix ps, Forall asks (hist ix ps)) -> TriMesh nodes faces -> FindsFaces nodes faces find ->
  TerrainOf nodes faces te n h sigma -> SurfaceOf nodes faces te zeta ex q qz (map place pts) ->
  let z s k := level_depth h zeta sigma qz k (place s) in
  (forall s, In s pts -> find (place s) <> (-1)%Z -> GoesDown n (z s)) ->
  TimeOk (Some (t_data tm)) ex q q' -> MaskedField nodes faces find (t_data tm) n' part (map place pts) loc F m -> TimeSteady (t_data tm) F ->
  n - 1 <= n' -> n' = length (te_siglay te) ->
  (forall s, In s pts -> if Z.eq_dec (find (place s)) (-1) then (0 <= deep s)%Q else (z s 0%nat <= deep s)%Q) ->
  let missing s := MissingOver (t_data tm) ex q m (place s) in
  exists cs, at_grid (mesh_interp tree hist nodes faces (place_of loc) part) [DTime; DDepth; DEle] [length (t_data tm); n'; len] (Some tm)
      (Some (terrain_view tree hist nodes faces te q ex BExtrapolate BMask)) q ex pts = Ok cs /\
    Forall2 (fun s c => (find (place s) <> (-1)%Z -> MaskedLayer n (z s) (fun k => F q' k (place s)) (missing s) (deep s) c) /\
      (find (place s) = (-1)%Z -> c = CMasked)) pts cs.
Proof.
  intros tree hist nodes faces find te n h zeta sigma qz tm n' len part loc F m q q' ex pts HT HH M FF (Hh & Hs & HN & N2 & NL & HPl & HTop) Su z HD TO HF HSt Le Nl Be missing.
  destruct (TO _ eq_refl) as (SI & Ne & TA).
  apply (masked_layers tree hist nodes faces find te q ex HT HH M FF h zeta sigma qz Hh Hs n HN N2 (or_introl NL) HTop HPl pts); auto.
  - unfold ZetaSamples, SurfaceOf in *. destruct (te_zeta te) as [[t d]|]; [exact Su|]. destruct Su as [Z0 OE]. split; [exact Z0|]. clear - OE. induction pts; cbn [map] in OE; inversion OE; subst; constructor; auto.
  - intros s j k Hi Hf Hjk. apply (HD s Hi Hf); auto.
Qed.
Print Assumptions c109_sigma_layers_partial.

(** The same from a file of FVCOM. *)
Theorem c109_fvcom_levels_partial :
  forall dateutil cftime now tree hist find f p n nodes faces g b vs k w len loc ts n' h zeta sigma q qz ex pts X m q',
  FvcomFile f p n nodes faces g -> open_fvcom_dataset dateutil cftime now f = Ok (b, vs) ->
  (forall ps, tree nodes faces ps = map find ps) -> (forall ix ps, Forall asks (hist ix ps)) -> FindsFaces nodes faces find ->
  In (k, w) (fi_vars f) -> ~ In k (mesh_names p n) -> On (length nodes) (length faces) w len loc ->
  InstantsIn cftime f w ts -> fm_shape w = [length ts; n'; len] -> (forall nt, wa_surface g = Some nt -> nt = length ts) ->
  WaterOf f nodes faces g h zeta sigma ts ex q qz (map place pts) ->
  let z s k := level_depth h zeta sigma qz k (place s) in
  (forall s, In s pts -> find (place s) <> (-1)%Z -> GoesDown (length (wa_levels g)) (z s)) ->
  TimeOk (Some ts) ex q q' -> MaskedField nodes faces find ts n' (fm_part w) (map place pts) loc X m -> TimeSteady ts X ->
  length (wa_levels g) <= n' -> n' <> length (wa_layers g) ->
  let missing s := MissingOver ts ex q m (place s) in
  exists cs, ask_fvcom dateutil cftime now tree hist f k q ex pts = Ok cs /\
    Forall2 (fun s c => (find (place s) <> (-1)%Z -> MaskedColumn (length (wa_levels g)) n' (z s) (fun k => X q' k (place s)) (missing s) (deep s) c) /\
      (find (place s) = (-1)%Z -> MaskedOutside n' (missing s) (deep s) c)) pts cs.
Proof.
  intros dateutil cftime now tree hist find f p n nodes faces g b vs k w len loc ts n' h zeta sigma q qz ex pts X m q' F O HT HH FF I NG On_ In_ Sh Hn W z HD TO HF HSt Le Nl missing.
  destruct (fvcom_asked dateutil cftime now f p n nodes faces g F (b, vs) O k w I NG len loc On_ ts [n'] In_ Sh tree hist n' eq_refl Hn) as (tm & h' & z' & Td & Ih & Iz & E). rewrite E.
  pose proof (surface_samples f nodes faces g ts Hn h zeta sigma q qz ex pts W q' TO h' z' tm Td Iz) as ZS.
  destruct W as (Sg & L2 & NL & Top & Bd & _). destruct (TO ts eq_refl) as (SI & Ne & TA). subst ts.
  apply (masked_levels tree hist nodes faces find (fterr f g h' z' tm) q ex HT HH (proj1 (proj2 F)) FF h zeta sigma qz (Bd h' Ih) Sg (length (wa_levels g)) eq_refl L2 NL Top); auto.
  - intros H. discriminate H.
  - intros s j k' Hi Hf Hjk. apply (HD s Hi Hf); auto.
Qed.
Print Assumptions c109_fvcom_levels_partial.
Theorem c109_fvcom_layers_partial :
  forall dateutil cftime now tree hist find f p n nodes faces g b vs k w len loc ts n' h zeta sigma q qz ex pts X m q',
  FvcomFile f p n nodes faces g -> open_fvcom_dataset dateutil cftime now f = Ok (b, vs) ->
  (forall ps, tree nodes faces ps = map find ps) -> (forall ix ps, Forall asks (hist ix ps)) -> FindsFaces nodes faces find ->
  In (k, w) (fi_vars f) -> ~ In k (mesh_names p n) -> On (length nodes) (length faces) w len loc ->
  InstantsIn cftime f w ts -> fm_shape w = [length ts; n'; len] -> (forall nt, wa_surface g = Some nt -> nt = length ts) ->
  WaterOf f nodes faces g h zeta sigma ts ex q qz (map place pts) ->
  let z s k := level_depth h zeta sigma qz k (place s) in
  (forall s, In s pts -> find (place s) <> (-1)%Z -> GoesDown (length (wa_levels g)) (z s)) ->
  TimeOk (Some ts) ex q q' -> MaskedField nodes faces find ts n' (fm_part w) (map place pts) loc X m -> TimeSteady ts X ->
  length (wa_levels g) - 1 <= n' -> n' = length (wa_layers g) ->
  (forall s, In s pts -> if Z.eq_dec (find (place s)) (-1) then (0 <= deep s)%Q else (z s 0%nat <= deep s)%Q) ->
  let missing s := MissingOver ts ex q m (place s) in
  exists cs, ask_fvcom dateutil cftime now tree hist f k q ex pts = Ok cs /\
    Forall2 (fun s c => (find (place s) <> (-1)%Z -> MaskedLayer (length (wa_levels g)) (z s) (fun k => X q' k (place s)) (missing s) (deep s) c) /\
      (find (place s) = (-1)%Z -> c = CMasked)) pts cs.
Proof.
  intros dateutil cftime now tree hist find f p n nodes faces g b vs k w len loc ts n' h zeta sigma q qz ex pts X m q' F O HT HH FF I NG On_ In_ Sh Hn W z HD TO HF HSt Le Nl Be missing.
  destruct (fvcom_asked dateutil cftime now f p n nodes faces g F (b, vs) O k w I NG len loc On_ ts [n'] In_ Sh tree hist n' eq_refl Hn) as (tm & h' & z' & Td & Ih & Iz & E). rewrite E.
  pose proof (surface_samples f nodes faces g ts Hn h zeta sigma q qz ex pts W q' TO h' z' tm Td Iz) as ZS.
  destruct W as (Sg & L2 & NL & Top & Bd & _). destruct (TO ts eq_refl) as (SI & Ne & TA). subst ts.
  apply (masked_layers tree hist nodes faces find (fterr f g h' z' tm) q ex HT HH (proj1 (proj2 F)) FF h zeta sigma qz (Bd h' Ih) Sg (length (wa_levels g)) eq_refl L2 NL Top); auto.
  - intros H. discriminate H.
  - intros s j k' Hi Hf Hjk. apply (HD s Hi Hf); auto.
Qed.
Print Assumptions c109_fvcom_layers_partial.

(** ** The file of C107 with gaps: the last level in the second hour, and a layer of
    the second face. *)
Definition c109_gap (t : Z) (k j : nat) : bool := (t =? 2 * hour)%Z && (k =? 2).
Definition c109_hole (t : Z) (k j : nat) : bool := (k =? 1) && (j =? 1).
Definition c109_omega : mvar := c102_var ["time"; "siglev"; "node"] [3; 3; 4] []
  (fun ix => match ix with [i; k] => map (fun p => if c109_gap (nth i c107_times 0%Z) k 0 then CMasked else CVal (c107_field (nth i c107_times 0%Z) k p)) c94_nodes | _ => [] end).
Definition c109_u : mvar := c102_var ["time"; "siglay"; "nele"] [3; 2; 2] []
  (fun ix => match ix with [i; k] => map (fun j => if c109_hole 0%Z k j then CMasked else CVal (c107_each k j)) [0; 1] | _ => [] end).
Definition c109_fvcom : file := c107_file [("siglay", c107_siglay [("long_name", "Sigma Layers")]); ("siglev", c107_siglev [("long_name", "Sigma Levels")])] [("omega", c109_omega); ("u", c109_u)].
Lemma c109_fvcom_ok : FvcomFile c109_fvcom c107_pair "nv" c94_nodes c94_faces c107_water.
Proof.
  unfold c109_fvcom. split; [mesh_ok|split; [exact c94_mesh|]].
  split; [exists "siglev", "siglay"; split; [apply ByName; intros n v I; each_of I; intros A; discriminate A|]|split; [others|split]].
  - split; [eapply c107_lev_table; do 5 right; left; reflexivity|eapply c107_lay_table; do 4 right; left; reflexivity].
  - eexists. split; [split; [do 6 right; left; reflexivity|no_mark]|reflexivity].
  - eexists. split; [split; [do 7 right; left; reflexivity|no_mark]|reflexivity].
Qed.
Lemma c109_water_of pts : WaterOf c109_fvcom c94_nodes c94_faces c107_water c97_bathy c107_rise c97_sigma c107_times false c107_half c107_half pts.
Proof.
  destruct (c107_water_of pts) as (A & B & C & D & _ & (E & L & _)). split; [exact A|split; [exact B|split; [exact C|split; [exact D|split]]]].
  - apply c107_bed. intros w I. unfold c109_fvcom in I. one_of I. reflexivity.
  - split; [exact E|split; [exact L|]]. intros w I. unfold c109_fvcom in I. one_of I. intros i u Hu. apply nth_error_nth with (d := 0%Z) in Hu. cbn [c107_zeta c102_var fm_part]. rewrite Hu. apply (c97_sampled (c107_rise u)).
    exists (inject_Z u * (1 # 36000000000))%Q, 0%Q, 0%Q. intros p. rewrite c107_rises. ring.
Qed.
Lemma c109_sound : FvcomSound demo_cftime c109_fvcom c107_pair "nv" 4 2 (Some 3).
Proof.
  assert (T : forall w, (exists r, fm_dims w = "time" :: r) -> dget (fm_attrs w) "time" = None -> InstantsIn demo_cftime c109_fvcom w c107_times)
    by (intros w; apply c107_instants; do 3 right; left; reflexivity).
  intros k w I. unfold c109_fvcom in I. each_of I.
  - left. left. reflexivity.
  - left. right. left. reflexivity.
  - left. right. right. left. reflexivity.
  - right. left. split; [intros l A; discriminate A|]. right. exists [], 3. repeat split; discriminate.
  - right. right. exists 4, "node". split; [sits|]. left. split; [eapply c105_timeless; reflexivity|right; exists 2; reflexivity].
  - right. right. exists 4, "node". split; [sits|]. left. split; [eapply c105_timeless; reflexivity|right; exists 3; reflexivity].
  - right. right. exists 4, "node". split; [sits|]. left. split; [eapply c105_timeless; reflexivity|left; reflexivity].
  - right. right. exists 4, "node". split; [sits|]. right. exists c107_times, []. split; [apply T; [eexists; reflexivity|reflexivity]|]. split; [reflexivity|left; reflexivity].
  - right. right. exists 4, "node". split; [sits|]. right. exists c107_times, [3]. split; [apply T; [eexists; reflexivity|reflexivity]|]. split; [reflexivity|right]. exists 3. split; [reflexivity|]. intros nt H. injection H as <-. reflexivity.
  - right. right. exists 2, "face". split; [sits|]. right. exists c107_times, [2]. split; [apply T; [eexists; reflexivity|reflexivity]|]. split; [reflexivity|right]. exists 2. split; [reflexivity|]. intros nt H. injection H as <-. reflexivity.
Qed.
Lemma c109_fvcom_opened : exists m vs, open_fvcom_dataset demo_dateutil demo_cftime (mkTime [0%Z] None None) c109_fvcom = Ok (m, vs).
Proof. apply (c107_opens _ _ _ _ _ _ _ _ _ c109_fvcom_ok); [cbn; lia|exact c109_sound]. Qed.
Lemma c109_gaps pts : exists m, MaskedField c94_nodes c94_faces c94_find c107_times 3 (fm_part c109_omega) pts "node" c107_field m /\
  forall t k p, m t k p -> t = (2 * hour)%Z /\ k = 2.
Proof.
  eexists. split.
  - apply (MissingNodes _ _ _ _ _ _ _ c107_field c109_gap). intros i t k Ht Hk. pose proof c107_fields as S. inversion S as [F0 A|F0 G A B]. subst F0. destruct (A i t k Ht Hk) as [NS Li].
    split; [exact Li|]. split; [|intros p j a b c _ _ _; left; split; reflexivity]. apply nth_error_nth with (d := 0%Z) in Ht. cbn [c109_omega c102_var fm_part]. rewrite Ht. split; [now rewrite map_length|].
    intros j c Hc. rewrite nth_error_map in Hc. destruct (nth_error c94_nodes j) as [p|] eqn:Ep; [|discriminate Hc]. cbn [option_map] in Hc. injection Hc as <-. change (c109_gap t k j) with (c109_gap t k 0).
    destruct (c109_gap t k 0); [left; split; reflexivity|right]. split; [discriminate|]. eexists. split; [reflexivity|]. unfold WMaskSpec.FieldAt. rewrite Ep. reflexivity.
  - intros t k p (j & a & b & c & _ & _ & H & _). apply andb_true_iff in H as [H1 H2]. apply Z.eqb_eq in H1. apply Nat.eqb_eq in H2. auto.
Qed.
Definition c109_deep_pts : list spot := [((1 # 2, 1 # 4), 4); ((1 # 2, 1 # 4), 11); ((1 # 2, 1 # 4), 20); ((3, 0), 7); ((3 # 4, 3 # 4), -1)]%Q.
Example c109_fvcom_example :
  exists m : Z -> nat -> point -> Prop, (forall t k p, m t k p -> t = (2 * hour)%Z /\ k = 2) /\
  exists cs, c107_ask c109_fvcom "omega" c107_half false c109_deep_pts = Ok cs /\
    Forall2 (fun s c => (c94_find (place s) <> (-1)%Z -> MaskedColumn 3 3 (c107_z s) (fun k => c107_field c107_half k (place s)) (MissingOver c107_times false c107_half m (place s)) (deep s) c) /\
      (c94_find (place s) = (-1)%Z -> MaskedOutside 3 (MissingOver c107_times false c107_half m (place s)) (deep s) c)) c109_deep_pts cs.
Proof.
  destruct c109_fvcom_opened as (b & vs & O). destruct (c109_gaps (map place c109_deep_pts)) as (m & Hm & Wm). exists m. split; [exact Wm|].
  refine (c109_fvcom_levels_partial _ _ _ c94_tree (fun _ _ => []) c94_find c109_fvcom c107_pair "nv" c94_nodes c94_faces c107_water b vs "omega" _ 4 "node" c107_times 3 c97_bathy c107_rise c97_sigma c107_half c107_half false c109_deep_pts
    c107_field m c107_half c109_fvcom_ok O _ _ c94_finds _ _ _ _ _ _ (c109_water_of _) _ c107_time_ok Hm c107_steady _ _).
  - reflexivity.
  - intros. constructor.
  - do 8 right; left; reflexivity.
  - intros [H|[H|[H|[]]]]; discriminate H.
  - sits.
  - apply c107_instants; [do 3 right; left; reflexivity|eexists; reflexivity|reflexivity].
  - reflexivity.
  - intros nt H. injection H as <-. reflexivity.
  - intros s Hs _. apply c107_down. cbn [c109_deep_pts In] in Hs. repeat (destruct Hs as [<-|Hs]; [cbn; lra|]). destruct Hs.
  - cbn; lia.
  - discriminate.
Qed.
(** Between the first levels there is a number; next to the gap, and above the
    first level, there is none; in the third hour there is no gap.  At the faces
    the layer of the second face is missing. *)
Example c109_fvcom_values :
  Reads (c107_ask c109_fvcom "omega" c107_half false c109_deep_pts) [Some (45 # 4); None; None; None; None]%Q /\
  Reads (c107_ask c109_fvcom "omega" (3 * hour)%Z false c109_deep_pts) [Some (45 # 4); Some (101 # 4); None; None; Some (15 # 4)]%Q /\
  Reads (c107_ask c109_fvcom "u" c107_half false [((1 # 2, 1 # 4), 11); ((3 # 4, 3 # 4), 4); ((3 # 4, 3 # 4), 11)]%Q) [Some 1; Some 10; None]%Q.
Proof.
  repeat split; unfold Reads; (eexists; split; [vm_compute; reflexivity|]); repeat (constructor; [first [reflexivity|eexists; split; [reflexivity|vm_compute; reflexivity]]|]); constructor.
Qed.
(** Refuted: above the first level, where that level is what is shown, there may be
    no answer although it is not missing. *)
Theorem c109_above_refuted :
  exists (m : Z -> nat -> point -> Prop) s, MaskedField c94_nodes c94_faces c94_find c107_times 3 (fm_part c109_omega) [place s] "node" c107_field m /\
  c94_find (place s) <> (-1)%Z /\ (deep s < c107_z s 0)%Q /\ (forall t, ~ m t 0 (place s)) /\ c107_ask c109_fvcom "omega" c107_half false [s] = Ok [CMasked].
Proof.
  destruct (c109_gaps [(3 # 4, 3 # 4)%Q]) as (m & Hm & Wm). exists m, ((3 # 4, 3 # 4), -1)%Q. split; [exact Hm|]. split; [discriminate|]. split; [vm_compute; reflexivity|].
  split; [|vm_compute; reflexivity]. intros t H. apply Wm in H. destruct H as [_ H]. discriminate H.
Qed.
Print Assumptions c109_above_refuted.
