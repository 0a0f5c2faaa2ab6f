(** C94. *)
From Coq Require Import String Lqa.
From Verif Require Import Common CommonProofs TimeModel TimeSpec VariableModel VariableProofs DepthModel DepthSpec UGridGeomModel UGridGeomSpec UGridLocProofs
  RGridModel RGridSpec RGridProofs WholeModel WholeSpec WholeProofs.
Open Scope list_scope.
Open Scope nat_scope.

Lemma Forall2_impl' {A B} (P R : A -> B -> Prop) : (forall a b, P a b -> R a b) -> forall l m, Forall2 P l m -> Forall2 R l m.
Proof. induction 2; constructor; auto. Qed.
(** The composition, for any grid: [E] is what each point should show. *)
Lemma whole g interp leaf (time : option time_obj) levels sbc bbc rest q q' ex (E : Z -> Q -> spot -> Q) (z : Q -> Q) pts :
  TimeOk (option_map t_data time) ex q q' -> (forall s, In s pts -> DepthOk levels sbc bbc (deep s) (z (deep s))) -> LevelsOk levels ->
  Changes (option_map t_data time) levels E ->
  (forall ix u d, SampleAt (option_map t_data time) levels ix u d -> (forall ps, interp ix ps = Ok (map (leaf ix) ps)) /\ forall s, Shows (E u d s) (leaf ix s)) ->
  exists vs, at_grid interp (order_of (some time) (some levels) g) (shape_of time levels rest) time
      (option_map (fun ls => l_view deep ls (Some (length ls)) sbc bbc) levels) q ex pts = Ok vs /\
    Forall2 (fun s c => Shows (E q' (z (deep s)) s) c) pts vs.
Proof.
  intros T D D' [LT LD] H. apply (composed g interp leaf time levels sbc bbc rest q q' ex E (fun s => z (deep s)) pts).
  - intros t ->. destruct (T _ eq_refl) as (A & B & C). split; [exact A|split; [exact B|split; [exact C|]]]. intros s _. exact (LT _ eq_refl (z (deep s)) s).
  - intros ls ->. destruct (D' _ eq_refl) as (N & M). split; [exact N|split; [exact M|split]].
    + intros s Hs. apply (D s Hs ls eq_refl).
    + intros s u _. exact (LD _ eq_refl u s).
  - intros ix u d S. apply (H ix u d S).
  - intros ix u d s S _. apply (H ix u d S).
Qed.

Lemma changes_if ts ls {P R} (b : R -> bool) (f : Z -> Q -> P -> Q) (h : R -> P) : Changes ts ls f ->
  Changes ts ls (fun t z s => if b s then 0%Q else f t z (h s)).
Proof.
  intros [A B]. split; intros l E; intros.
  - intros k t0 t1 q0 H0 H1 Hq. destruct (b p); [ring|]. exact (A l E z (h p) k t0 t1 q0 H0 H1 Hq).
  - intros k x y s Hx Hy Hs w Hw. destruct (b p); [ring|]. exact (B l E t (h p) k x y s Hx Hy Hs w Hw).
Qed.

(** Node data on a triangle mesh.  [find] is the cell tree's answer, [hist]
    whatever the grid was asked before each interpolation. *)
Theorem c94_mesh_nodes_partial :
  forall tree hist nodes faces find data time levels sbc bbc q q' ex (f : quantity) z pts,
  (forall ps, tree nodes faces ps = map find ps) -> (forall ix ps, Forall asks (hist ix ps)) ->
  TriMesh nodes faces -> FindsFaces nodes faces find ->
  TimeOk (option_map t_data time) ex q q' -> LevelsOk levels ->
  (forall s, In s pts -> DepthOk levels sbc bbc (deep s) (z (deep s))) ->
  Changes (option_map t_data time) levels f ->
  (forall ix t d, SampleAt (option_map t_data time) levels ix t d -> NodeSamples nodes (f t d) (data ix) /\ LinearOverFaces nodes faces (f t d)) ->
  exists vs, at_grid (mesh_interp tree hist nodes faces VNode data) (order_of (some time) (some levels) GOther) (shape_of time levels [length nodes]) time
      (option_map (fun ls => l_view deep ls (Some (length ls)) sbc bbc) levels) q ex pts = Ok vs /\
    Forall2 (fun s c => (find (place s) <> (-1)%Z -> Shows (f q' (z (deep s)) (place s)) c) /\ (find (place s) = (-1)%Z -> Shows 0 c)) pts vs.
Proof.
  intros tree hist nodes faces find data time levels sbc bbc q q' ex f z pts HT HH M FF T D' D Ch S.
  destruct (whole GOther (mesh_interp tree hist nodes faces VNode data) (fun ix => node_leaf nodes faces find (data ix)) time levels sbc bbc [length nodes] q q' ex
    (fun t d s => if (find (place s) =? -1)%Z then 0%Q else f t d (place s)) z pts T D D' (changes_if _ _ _ _ _ Ch)) as (vs & E & V).
  - intros ix t d HS. destruct (S ix t d HS) as [NS L]. destruct (samples_numbers _ _ _ NS) as [N Ln]. split; intros; [now apply mesh_nodes|now apply node_shows].
  - exists vs. split; [exact E|]. revert V. apply Forall2_impl'. intros s c H. destruct (Z.eqb_spec (find (place s)) (-1)); split; intros; tauto.
Qed.
Print Assumptions c94_mesh_nodes_partial.
(** Face data: the value of the face that holds the point, blended in time and
    depth. *)
Theorem c94_mesh_faces_partial :
  forall tree hist nodes faces find data time levels sbc bbc q q' ex (f : Z -> Q -> nat -> Q) z pts,
  (forall ps, tree nodes faces ps = map find ps) -> (forall ix ps, Forall asks (hist ix ps)) ->
  faces <> [] -> FindsFaces nodes faces find ->
  TimeOk (option_map t_data time) ex q q' -> LevelsOk levels ->
  (forall s, In s pts -> DepthOk levels sbc bbc (deep s) (z (deep s))) ->
  Changes (option_map t_data time) levels f ->
  (forall ix t d, SampleAt (option_map t_data time) levels ix t d ->
     length (data ix) = length faces /\ forall k c, nth_error (data ix) k = Some c -> Shows (f t d k) c) ->
  exists vs, at_grid (mesh_interp tree hist nodes faces VFace data) (order_of (some time) (some levels) GOther) (shape_of time levels [length faces]) time
      (option_map (fun ls => l_view deep ls (Some (length ls)) sbc bbc) levels) q ex pts = Ok vs /\
    Forall2 (fun s c => (forall k, find (place s) = Z.of_nat k -> Shows (f q' (z (deep s)) k) c) /\ (find (place s) = (-1)%Z -> Shows 0 c)) pts vs.
Proof.
  intros tree hist nodes faces find data time levels sbc bbc q q' ex f z pts HT HH Ne FF T D' D Ch S.
  destruct (whole GOther (mesh_interp tree hist nodes faces VFace data) (fun ix => face_leaf find (data ix)) time levels sbc bbc [length faces] q q' ex
    (fun t d s => if (find (place s) =? -1)%Z then 0%Q else f t d (Z.to_nat (find (place s)))) z pts T D D'
    (changes_if _ _ (fun s => (find (place s) =? -1)%Z) _ (fun s => Z.to_nat (find (place s))) Ch)) as (vs & E & V).
  - intros ix t d HS. destruct (S ix t d HS) as [L H].
    assert (Nd : data ix <> []) by (intros X; rewrite X in L; destruct faces; [congruence|discriminate]).
    assert (N : Numbers (data ix)). { apply Forall_forall. intros c Hc. apply In_nth_error in Hc. destruct Hc as [k Hk]. destruct (H k c Hk) as (v & -> & _). eauto. }
    split; intros; [apply mesh_faces; auto; intros p; rewrite L; eapply finds_good; eauto|eapply face_shows; eauto].
  - exists vs. split; [exact E|]. revert V. apply Forall2_impl'. intros s c H. destruct (Z.eqb_spec (find (place s)) (-1)) as [X|X].
    + split; intros; [lia|assumption].
    + split; intros; [|congruence]. rewrite H0, Nat2Z.id in H. exact H.
Qed.
Print Assumptions c94_mesh_faces_partial.
(** Data over longitude and latitude axes, in either order. *)
Theorem c94_rectangular_partial :
  forall g dims sw vals time levels sbc bbc q q' ex (f : quantity) z pts,
  let y := fst (yx_axes g sw) in let x := snd (yx_axes g sw) in let shape := shape_of time levels [length y; length x] in
  lonlat_to_yx g dims shape = Ok sw -> Monotone (rg_lon g) -> Monotone (rg_lat g) -> 2 <= length (rg_lon g) -> 2 <= length (rg_lat g) ->
  TimeOk (option_map t_data time) ex q q' -> LevelsOk levels ->
  (forall s, In s pts -> DepthOk levels sbc bbc (deep s) (z (deep s))) ->
  Changes (option_map t_data time) levels f ->
  (forall ix t d, SampleAt (option_map t_data time) levels ix t d ->
     TableSamples y x (fun a b => f t d (if sw then (a, b) else (b, a))) (vals ix) /\ BilinearOverCells (rg_lon g) (rg_lat g) (f t d)) ->
  exists vs, at_grid (rect_interp g dims shape vals) (order_of (some time) (some levels) GStructured) shape time
      (option_map (fun ls => l_view deep ls (Some (length ls)) sbc bbc) levels) q ex pts = Ok vs /\
    Forall2 (fun s c => let inside := Spans (rg_lon g) (fst (place s)) /\ Spans (rg_lat g) (snd (place s)) in
       (inside -> Shows (f q' (z (deep s)) (place s)) c) /\ (~ inside -> Shows 0 c)) pts vs.
Proof.
  intros g dims sw vals time levels sbc bbc q q' ex f z pts y x shape HO M1 M2 N1 N2 T D' D Ch S.
  destruct (whole GStructured (rect_interp g dims shape vals) (fun ix => rect_leaf g sw (vals ix)) time levels sbc bbc [length y; length x] q q' ex
    (fun t d s => if negb (within (rg_lon g) (fst (place s)) && within (rg_lat g) (snd (place s))) then 0%Q else f t d (place s)) z pts T D D'
    (changes_if _ _ (fun s => negb (within (rg_lon g) (fst (place s)) && within (rg_lat g) (snd (place s)))) f place Ch)) as (vs & E & V).
  - intros ix t d HS. destruct (S ix t d HS) as [TS B]. split; intros.
    + apply rect_all; auto. eapply table_shape; eauto.
    + pose proof (rect_shows g dims shape vals sw HO M1 M2 N1 N2 (vals ix) (f t d) s TS B) as H. destruct (_ && _); exact H.
  - exists vs. split; [exact E|]. revert V. apply Forall2_impl'. intros s c H. cbv zeta. rewrite <- !within_spec, <- andb_true_iff by auto.
    destruct (_ && _); cbn [negb] in H; split; intros; tauto || congruence.
Qed.
Print Assumptions c94_rectangular_partial.

(** The cached method, asked again and again: every answer is that of the
    field.  [qa] and [za] are the time and depth of the answer. *)
Theorem c94_every_answer_partial :
  forall tree hist nodes faces find data time levels sbc bbc ex (f : quantity) qa z opts reqs,
  let order := order_of (some time) (some levels) GOther in let shape := shape_of time levels [length nodes] in
  let depth := option_map (fun ls => l_view deep ls (Some (length ls)) sbc bbc) levels in
  let run (d : list nat -> list cell) q pts := at_grid (mesh_interp tree hist nodes faces VNode d) order shape time depth q ex pts in
  (forall ps, tree nodes faces ps = map find ps) -> (forall ix ps, Forall asks (hist ix ps)) ->
  TriMesh nodes faces -> FindsFaces nodes faces find -> LevelsOk levels ->
  Forall (fun r => uniform 3 opts r /\ TimeOk (option_map t_data time) ex (rq_time r) (qa (rq_time r)) /\
    forall row, In row (rq_pts r) -> DepthOk levels sbc bbc (nth 2 row 0%Q) (z (nth 2 row 0%Q))) reqs ->
  Changes (option_map t_data time) levels f ->
  (forall ix t d, SampleAt (option_map t_data time) levels ix t d -> NodeSamples nodes (f t d) (data ix) /\ LinearOverFaces nodes faces (f t d)) ->
  Forall2 (fun r a => exists vs, a = Some (Ok vs) /\ Forall2 (fun row c => let p := (nth 0 row 0, nth 1 row 0)%Q in
      (find p <> (-1)%Z -> Shows (f (qa (rq_time r)) (z (nth 2 row 0%Q)) p) c) /\ (find p = (-1)%Z -> Shows 0 c)) (rq_pts r) vs)
    reqs (snd (at_run (at_request run) (mkAt data []) (map Call reqs))).
Proof.
  intros tree hist nodes faces find data time levels sbc bbc ex f qa z opts reqs order shape depth run HT HH M FF L R Ch S.
  rewrite (at_run_transparent_fresh (at_request run) 3 opts data (map Call reqs)); [|lia|].
  2: { apply Forall_forall. intros o Ho. apply in_map_iff in Ho. destruct Ho as (r & <- & Hr). rewrite Forall_forall in R. apply R. auto. }
  induction R as [|r reqs (_ & T & D) _ IH]; cbn [map at_ref]; constructor; auto.
  destruct (c94_mesh_nodes_partial tree hist nodes faces find data time levels sbc bbc (rq_time r) (qa (rq_time r)) ex f z (map spot_of (rq_pts r)) HT HH M FF T L) as (vs & E & V); auto.
  - intros s Hs. apply in_map_iff in Hs. destruct Hs as (row & <- & Hr). exact (D row Hr).
  - exists vs. split; [unfold at_request, run; f_equal; exact E|]. clear - V. revert vs V. induction (rq_pts r) as [|row rows IH]; intros vs V; inversion V; subst; constructor; auto.
Qed.
Print Assumptions c94_every_answer_partial.

(** At the deepest level the composition goes wrong: the field is the depth
    itself, and of two points at depths 2 and 10 the first shows the deepest
    level and the second nothing.  Alone, the second raises. *)
Definition c94_nodes : list pt := [(0, 0); (1, 0); (0, 1); (1, 1)]%Q.
Definition c94_faces : list (list Z) := [[0; 1; 2]; [1; 3; 2]]%Z.
Definition c94_find (p : pt) : Z :=
  if Qle_bool 0 (fst p) && Qle_bool 0 (snd p) && Qle_bool (fst p) 1 && Qle_bool (snd p) 1 then if Qle_bool (fst p + snd p) 1 then 0 else 1 else -1.
Definition c94_tree (n : list pt) (f : list (list Z)) (ps : list pt) : list Z := map c94_find ps.
Definition c94_levels : list Q := [0; 5; 10]%Q.
Theorem c94_deepest_refuted :
  exists data, (forall j z, nth_error c94_levels j = Some z -> NodeSamples c94_nodes (fun _ => z) (data [j])) /\
  let run pts := at_grid (mesh_interp c94_tree (fun _ _ => []) c94_nodes c94_faces VNode data) (order_of false true GOther) (shape_of None (Some c94_levels) [4]) None
    (Some (l_view deep c94_levels (Some 3) BExtrapolate BExtrapolate)) 0%Z false pts in
  (exists v, run [(0, 0, 2); (0, 0, 10)]%Q = Ok [CVal v; CNaN] /\ (v == 10)%Q) /\ run [(0, 0, 10)]%Q = Err UnboundLocalError.
Proof.
  exists (fun ix => map (fun _ => CVal (nth (nth 0 ix 0) c94_levels 0%Q)) c94_nodes). split.
  - intros [|[|[|j]]] z H; cbn in H; [| | |destruct j; discriminate]; injection H as <-; repeat constructor; (eexists; split; [reflexivity|reflexivity]).
  - split; [eexists; split; [vm_compute; reflexivity|reflexivity]|vm_compute; reflexivity].
Qed.
Print Assumptions c94_deepest_refuted.

(** A field of time, depth and place: t + z t + x + 2 y, between samples. *)
Definition c94_field : quantity := fun t z p => (inject_Z t + z * inject_Z t + fst p + 2 * snd p)%Q.
Definition c94_data (ix : list nat) : list cell :=
  match ix with [i; j] => map (fun n => CVal (c94_field (nth i [0; 10] 0)%Z (nth j c94_levels 0%Q) n)) c94_nodes | _ => [] end.
Definition c94_pts : list spot := [((1 # 2, 1 # 4), 2); ((3 # 4, 3 # 4), 0); ((3, 0), 7)]%Q.
Lemma c94_mesh : TriMesh c94_nodes c94_faces.
Proof.
  split; [discriminate|]. intros f [<-|[<-|[]]]; [exists 0, 1, 2, (0, 0)%Q, (1, 0)%Q, (0, 1)%Q|exists 1, 3, 2, (1, 0)%Q, (1, 1)%Q, (0, 1)%Q];
    (split; [reflexivity|split; [reflexivity|split; [reflexivity|split; [reflexivity|cbv; discriminate]]]]).
Qed.
Lemma c94_finds : FindsFaces c94_nodes c94_faces c94_find.
Proof.
  intros [x y]. unfold c94_find. cbn [fst snd].
  destruct (Qle_bool 0 x) eqn:E1; [|left; reflexivity]. destruct (Qle_bool 0 y) eqn:E2; [|left; reflexivity].
  destruct (Qle_bool x 1) eqn:E3; [|left; reflexivity]. destruct (Qle_bool y 1) eqn:E4; [|left; reflexivity]. cbn [andb].
  rewrite Qle_bool_iff in E1, E2, E3, E4. right.
  destruct (Qle_bool (x + y) 1) eqn:E5.
  - rewrite Qle_bool_iff in E5. exists 0, 0, 1, 2, (0, 0)%Q, (1, 0)%Q, (0, 1)%Q. repeat split; auto. exists (1 - x - y)%Q, x, y. unfold Combination. cbn [fst snd]. repeat split; lra.
  - assert (1 < x + y)%Q. { destruct (Qlt_le_dec 1 (x + y)) as [|H]; auto. apply Qle_bool_iff in H. congruence. }
    exists 1, 1, 3, 2, (1, 0)%Q, (1, 1)%Q, (0, 1)%Q. repeat split; auto. exists (1 - y)%Q, (x + y - 1)%Q, (1 - x)%Q. unfold Combination. cbn [fst snd]. repeat split; lra.
Qed.
Example c94_example :
  let time := Some (mkTime [0; 10]%Z None None) in let levels := Some c94_levels in
  exists vs, at_grid (mesh_interp c94_tree (fun _ _ => [OInterp VNode [] false true []]) c94_nodes c94_faces VNode c94_data)
      (order_of true true GOther) (shape_of time levels [4]) time (Some (l_view deep c94_levels (Some 3) BExtrapolate BExtrapolate)) 5%Z false c94_pts = Ok vs /\
    Forall2 (fun s c => (c94_find (place s) <> (-1)%Z -> Shows (c94_field 5%Z (deep s) (place s)) c) /\ (c94_find (place s) = (-1)%Z -> Shows 0 c)) c94_pts vs /\
    map (fun s => c94_find (place s)) c94_pts = [0; 1; -1]%Z.
Proof.
  intros time levels.
  destruct (c94_mesh_nodes_partial c94_tree (fun _ _ => [OInterp VNode [] false true []]) c94_nodes c94_faces c94_find c94_data time levels BExtrapolate BExtrapolate 5%Z 5%Z false
    c94_field (fun z => z) c94_pts) as (vs & E & V).
  - reflexivity.
  - intros. repeat constructor.
  - exact c94_mesh.
  - exact c94_finds.
  - intros l H. injection H as <-. split; [|split; [discriminate|left; split; [|reflexivity]]].
    + unfold StrictlyIncreasing. intros i j a b Hij Ha Hb. destruct i as [|[|[|i]]], j as [|[|[|j]]]; cbn in Ha, Hb; try discriminate; try lia; injection Ha as <-; injection Hb as <-; lia.
    + exists 0%Z, 10%Z. repeat split; auto; lia.
  - intros l H. injection H as <-. split; [cbn; lia|left]. intros i j a b Hij Ha Hb.
    destruct i as [|[|[|i]]], j as [|[|[|[|j]]]]; cbn in Ha, Hb; try discriminate; try lia; injection Ha as <-; injection Hb as <-; reflexivity.
  - intros s Hs l H. injection H as <-. exists 0%Q, 10%Q. split; [reflexivity|split; [reflexivity|left]]. split.
    + intros i j a b Hij Ha Hb. destruct i as [|[|[|i]]], j as [|[|[|[|j]]]]; cbn in Ha, Hb; try discriminate; try lia; injection Ha as <-; injection Hb as <-; reflexivity.
    + destruct Hs as [<-|[<-|[<-|[]]]]; (split; [split; [discriminate|reflexivity]|reflexivity]).
  - split; intros l _; intros; unfold c94_field.
    + intros k t0 t1 q _ _ _. ring.
    + intros k a b s _ _ _ w ->. ring.
  - intros ix t d (i & j & -> & Hi & Hj). split.
    + unfold c94_data, NodeSamples. apply nth_error_nth with (d := 0%Z) in Hi. apply nth_error_nth with (d := 0%Q) in Hj. cbn [option_map time t_data] in Hi. rewrite Hi, Hj.
      repeat constructor; (eexists; split; reflexivity).
    + intros a b c A B C _ _ _ _. exists (inject_Z t + d * inject_Z t)%Q, 1%Q, 2%Q. intros p _. unfold c94_field. ring.
  - exists vs. split; [exact E|]. split; [exact V|]. reflexivity.
Qed.
(** Two axes (latitude descending), two times, longitudes by rows, the field
    t + x y: inside the field's value, outside 0. *)
Example c94_rect_example :
  let g := rg_new [0; 1; 3]%Q [5; 2]%Q None in let f := (fun t x y => inject_Z t + x * y)%Q in
  let vals ix := map (fun x => map (fun y => CVal (f (nth (nth 0 ix 0%nat) [0%Z; 10%Z] 0%Z) x y)) (rg_lat g)) (rg_lon g) in
  exists a b, at_grid (rect_interp g None [2; 3; 2] vals) (order_of true false GStructured) (shape_of (Some (mkTime [0; 10]%Z None None)) None [3; 2])
      (Some (mkTime [0; 10]%Z None None)) None 4%Z false [((2, 4), 0); ((2, 6), 0)]%Q = Ok [CVal a; CVal b] /\
    (a == f 4%Z 2 4)%Q /\ (b == 0)%Q.
Proof. do 2 eexists. split; [vm_compute; reflexivity|]. split; reflexivity. Qed.
Example c94_faces_example :
  exists a b, at_grid (mesh_interp c94_tree (fun _ _ => []) c94_nodes c94_faces VFace (fun ix => match ix with [0] => [CVal 1; CVal 2] | _ => [CVal 3; CVal 6] end))
      (order_of false true GOther) (shape_of None (Some c94_levels) [2]) None (Some (l_view deep c94_levels (Some 3) BExtrapolate BExtrapolate)) 0%Z false
      [((3 # 4, 3 # 4), 5 # 4); ((0, 0), 0)]%Q = Ok [CVal a; CVal b] /\ (a == 3)%Q /\ (b == 1)%Q.
Proof. do 2 eexists. split; [vm_compute; reflexivity|]. split; reflexivity. Qed.
(** No dimensions, or data at another place than nodes and faces, is refused. *)
Theorem c94_refusals :
  (forall (interp : list nat -> list spot -> result (list cell)) shape time depth q ex pts, at_grid interp [] shape time depth q ex pts = Err IndexError) /\
  (forall tree hist nodes faces data ix pts, (forall ix ps, Forall asks (hist ix ps)) -> mesh_interp tree hist nodes faces VOther data ix pts = Err AttributeError).
Proof.
  split; [reflexivity|]. intros tree hist nodes faces data ix pts H. rewrite (mesh_fresh tree hist nodes faces H). reflexivity.
Qed.
Print Assumptions c94_refusals.
