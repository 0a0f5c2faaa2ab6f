(** C94 and C109 for data on the layers between levels. *)
From Coq Require Import String Lqa.
From Verif Require Import Common CommonProofs TimeModel TimeSpec VariableModel VariableProofs DepthModel DepthSpec UGridGeomModel UGridGeomSpec UGridGeomProofs UGridLocProofs
  UGridInterpProofs RGridModel RGridSpec RGridProofs WholeModel WholeSpec WholeProofs WholeProps WMaskSpec WMaskProofs WMaskProps SWholeSpec AnyDepthSpec LayerSpec LayerProofs.
Open Scope list_scope.
Open Scope nat_scope.

Lemma layers_if ts {P R} (b : R -> bool) (f : Z -> nat -> P -> Q) (h : R -> P) : LayersChange ts f -> LayersChange ts (fun t j s => if b s then 0%Q else f t j (h s)).
Proof. intros A l E j p k t0 t1 q0 H0 H1 Hq. cbn beta. destruct (b p); [ring|]. exact (A l E j (h p) k t0 t1 q0 H0 H1 Hq). Qed.
Lemma at_layer_impl ls sbc bbc z j (P R : cell -> Prop) c : (P c -> R c) -> AtLayer ls sbc bbc z j P c -> AtLayer ls sbc bbc z j R c.
Proof. intros H [A B]. split; auto. Qed.
Lemma sees_nothing {T : Z -> Prop} {x c} : Sees (exists u, T u /\ false = true) x c -> Shows x c.
Proof. intros [[(u & _ & X) _]|[_ H]]; [discriminate X|exact H]. Qed.

(** Node data on a triangle mesh: the field of the layer that the point is in,
    masked below the deepest level.  Missing: points above the first level of
    levels listed downwards, and above the last of levels listed upwards, unless
    answers are masked there. *)
Theorem c94_mesh_nodes_layers_partial :
  forall tree hist nodes faces find data time ls sbc bbc q q' ex (f : Z -> nat -> point -> Q) lay pts,
  (forall ps, tree nodes faces ps = map find ps) -> (forall ix ps, Forall asks (hist ix ps)) ->
  TriMesh nodes faces -> FindsFaces nodes faces find ->
  TimeOk (option_map t_data time) ex q q' -> 2 <= length ls -> Monotone ls -> (forall s, In s pts -> Layered ls sbc bbc (deep s) (lay s)) ->
  LayersChange (option_map t_data time) f ->
  (forall ix t j, SlotAt (option_map t_data time) (Some (length ls - 1)) ix t j -> NodeSamples nodes (f t j) (data ix) /\ LinearOverFaces nodes faces (f t j)) ->
  exists vs, at_grid (mesh_interp tree hist nodes faces VNode data) (order_of (some time) true GOther) (layer_shape time ls [length nodes]) time
      (Some (l_view deep ls (Some (length ls)) sbc bbc)) q ex pts = Ok vs /\
    Forall2 (fun s => AtLayer ls sbc bbc (deep s) (lay s) (fun c => (find (place s) <> (-1)%Z -> Shows (f q' (lay s) (place s)) c) /\ (find (place s) = (-1)%Z -> Shows 0 c))) pts vs.
Proof.
  intros tree hist nodes faces find data time ls sbc bbc q q' ex f lay pts HT HH M FF T N Mo D Ch S.
  destruct (composed_layers GOther (mesh_interp tree hist nodes faces VNode data) (fun ix => node_leaf nodes faces find (data ix)) time ls sbc bbc [length nodes] q q' ex
    (fun _ _ _ => false) (fun t j s => if (find (place s) =? -1)%Z then 0%Q else f t j (place s)) lay pts T N Mo D (layers_if _ (fun s => (find (place s) =? -1)%Z) f place Ch)) as (vs & E & V).
  - intros ix t j HS. destruct (S ix t j HS) as [NS L]. destruct (samples_numbers _ _ _ NS) as [Nu Ln]. intros. now apply mesh_nodes.
  - intros ix t j s HS _. destruct (S ix t j HS) as [NS L]. right. split; [discriminate|]. now apply node_shows.
  - exists vs. split; [exact E|]. revert V. apply Forall2_impl'. intros s c. apply at_layer_impl. intros H. apply sees_nothing in H.
    destruct (Z.eqb_spec (find (place s)) (-1)); split; intros; tauto.
Qed.
Print Assumptions c94_mesh_nodes_layers_partial.

(** Data over longitude and latitude axes. *)
Theorem c94_rectangular_layers_partial :
  forall g dims sw vals time ls sbc bbc q q' ex (f : Z -> nat -> point -> Q) lay pts,
  let y := fst (yx_axes g sw) in let x := snd (yx_axes g sw) in let shape := layer_shape time ls [length y; length x] in
  lonlat_to_yx g dims shape = Ok sw -> Monotone (rg_lon g) -> Monotone (rg_lat g) -> 2 <= length (rg_lon g) -> 2 <= length (rg_lat g) ->
  TimeOk (option_map t_data time) ex q q' -> 2 <= length ls -> Monotone ls -> (forall s, In s pts -> Layered ls sbc bbc (deep s) (lay s)) ->
  LayersChange (option_map t_data time) f ->
  (forall ix t j, SlotAt (option_map t_data time) (Some (length ls - 1)) ix t j ->
     TableSamples y x (fun a b => f t j (if sw then (a, b) else (b, a))) (vals ix) /\ BilinearOverCells (rg_lon g) (rg_lat g) (f t j)) ->
  exists vs, at_grid (rect_interp g dims shape vals) (order_of (some time) true GStructured) shape time (Some (l_view deep ls (Some (length ls)) sbc bbc)) q ex pts = Ok vs /\
    Forall2 (fun s => AtLayer ls sbc bbc (deep s) (lay s) (fun c => let inside := Spans (rg_lon g) (fst (place s)) /\ Spans (rg_lat g) (snd (place s)) in
       (inside -> Shows (f q' (lay s) (place s)) c) /\ (~ inside -> Shows 0 c))) pts vs.
Proof.
  intros g dims sw vals time ls sbc bbc q q' ex f lay pts y x shape HO M1 M2 N1 N2 T N Mo D Ch S.
  destruct (composed_layers GStructured (rect_interp g dims shape vals) (fun ix => rect_leaf g sw (vals ix)) time ls sbc bbc [length y; length x] q q' ex
    (fun _ _ _ => false) (fun t d s => if negb (within (rg_lon g) (fst (place s)) && within (rg_lat g) (snd (place s))) then 0%Q else f t d (place s)) lay pts T N Mo D
    (layers_if _ (fun s => negb (within (rg_lon g) (fst (place s)) && within (rg_lat g) (snd (place s)))) f place Ch)) as (vs & E & V).
  - intros ix t j HS. destruct (S ix t j HS) as [TS B]. intros. apply rect_all; auto. eapply table_shape; eauto.
  - intros ix t j s HS _. destruct (S ix t j HS) as [TS B]. right. split; [discriminate|].
    pose proof (rect_shows g dims shape vals sw HO M1 M2 N1 N2 (vals ix) (f t j) s TS B) as H. destruct (_ && _); exact H.
  - exists vs. split; [exact E|]. revert V. apply Forall2_impl'. intros s c. apply at_layer_impl. intros H. apply sees_nothing in H. cbv zeta. rewrite <- !within_spec, <- andb_true_iff by auto.
    destruct (_ && _); cbn [negb] in H; split; intros; tauto || congruence.
Qed.
Print Assumptions c94_rectangular_layers_partial.

(** Face data with missing values: missing when the face is, in that layer of a
    sample in use. *)
Theorem c109_mesh_faces_layers_partial :
  forall tree hist nodes faces find data time ls sbc bbc q q' ex (f : Z -> nat -> nat -> Q) (m : Z -> nat -> nat -> bool) lay pts,
  (forall ps, tree nodes faces ps = map find ps) -> (forall ix ps, Forall asks (hist ix ps)) ->
  faces <> [] -> FindsFaces nodes faces find ->
  TimeOk (option_map t_data time) ex q q' -> 2 <= length ls -> Monotone ls -> (forall s, In s pts -> Layered ls sbc bbc (deep s) (lay s)) ->
  LayersChange (option_map t_data time) f ->
  (forall ix t j, SlotAt (option_map t_data time) (Some (length ls - 1)) ix t j -> MaskedSamples (length faces) (m t j) (f t j) (data ix)) ->
  exists vs, at_grid (mesh_interp tree hist nodes faces VFace data) (order_of (some time) true GOther) (layer_shape time ls [length faces]) time
      (Some (l_view deep ls (Some (length ls)) sbc bbc)) q ex pts = Ok vs /\
    Forall2 (fun s => AtLayer ls sbc bbc (deep s) (lay s) (fun r => forall k, FaceAsked (length faces) (find (place s)) k ->
      let missing := exists u, UsesTime (option_map t_data time) ex q q' u /\ m u (lay s) k = true in
      (find (place s) <> (-1)%Z -> Sees missing (f q' (lay s) k) r) /\ (find (place s) = (-1)%Z -> Sees missing 0 r))) pts vs.
Proof.
  intros tree hist nodes faces find data time ls sbc bbc q q' ex f m lay pts HT HH Ne FF T N Mo D Ch S.
  set (num := fun s => if (find (place s) =? -1)%Z then length faces - 1 else Z.to_nat (find (place s))).
  assert (Nu : forall s k, FaceAsked (length faces) (find (place s)) k -> num s = k).
  { intros s k Fk. unfold num. destruct Fk as [-> | [-> ->]]; [destruct (Z.eqb_spec (Z.of_nat k) (-1)); [lia|now rewrite Nat2Z.id]|reflexivity]. }
  destruct (composed_layers GOther (mesh_interp tree hist nodes faces VFace data) (fun ix => face_leaf find (data ix)) time ls sbc bbc [length faces] q q' ex
    (fun u d s => m u d (num s)) (fun t d s => if (find (place s) =? -1)%Z then 0%Q else f t d (num s)) lay pts T N Mo D (layers_if _ (fun s => (find (place s) =? -1)%Z) f num Ch)) as (vs & E & V).
  - intros ix u j HS ps. exact (mesh_face_masked tree hist nodes faces find HT HH data _ _ ix ps Ne FF (S ix u j HS)).
  - intros ix u j s HS Hs. destruct (face_asked nodes faces find s Ne FF) as (k & Fk & Lk). rewrite (Nu s k Fk). apply (face_sees faces find s (data ix) _ _ k Fk Lk (S ix u j HS)).
  - exists vs. split; [exact E|]. revert V. apply Forall2_impl'. intros s r. apply at_layer_impl. intros H k Fk. rewrite (Nu s k Fk) in H. cbv zeta.
    destruct (Z.eqb_spec (find (place s)) (-1)); split; intros; tauto || congruence.
Qed.
Print Assumptions c109_mesh_faces_layers_partial.

(** Node data with missing values, where the three nodes of the triangles asked
    for are missing together. *)
Theorem c109_mesh_nodes_layers_partial :
  forall tree hist nodes faces find data time ls sbc bbc q q' ex (f : Z -> nat -> point -> Q) (m : Z -> nat -> nat -> bool) lay pts,
  (forall ps, tree nodes faces ps = map find ps) -> (forall ix ps, Forall asks (hist ix ps)) ->
  TriMesh nodes faces -> FindsFaces nodes faces find ->
  TimeOk (option_map t_data time) ex q q' -> 2 <= length ls -> Monotone ls -> (forall s, In s pts -> Layered ls sbc bbc (deep s) (lay s)) ->
  LayersChange (option_map t_data time) f ->
  (forall ix t j, SlotAt (option_map t_data time) (Some (length ls - 1)) ix t j ->
     MaskedSamples (length nodes) (m t j) (FieldAt nodes (f t j)) (data ix) /\ LinearOverFaces nodes faces (f t j) /\
     forall s k a b c, In s pts -> FaceAsked (length faces) (find (place s)) k -> nth_error faces k = Some [Z.of_nat a; Z.of_nat b; Z.of_nat c] ->
       m t j b = m t j a /\ m t j c = m t j a) ->
  exists vs, at_grid (mesh_interp tree hist nodes faces VNode data) (order_of (some time) true GOther) (layer_shape time ls [length nodes]) time
      (Some (l_view deep ls (Some (length ls)) sbc bbc)) q ex pts = Ok vs /\
    Forall2 (fun s => AtLayer ls sbc bbc (deep s) (lay s) (fun r => exists k a b c, FaceAsked (length faces) (find (place s)) k /\ nth_error faces k = Some [Z.of_nat a; Z.of_nat b; Z.of_nat c] /\
      let missing := exists u, UsesTime (option_map t_data time) ex q q' u /\ m u (lay s) a = true in
      (find (place s) <> (-1)%Z -> Sees missing (f q' (lay s) (place s)) r) /\ (find (place s) = (-1)%Z -> Sees missing 0 r))) pts vs.
Proof.
  intros tree hist nodes faces find data time ls sbc bbc q q' ex f m lay pts HT HH M FF T N Mo D Ch S.
  assert (exists cor : spot -> nat * nat * nat, forall s, let '(a, b, c) := cor s in corners_of faces find s a b c) as (cor & HC).
  { exists (fun s => let k := if (find (place s) =? -1)%Z then length faces - 1 else Z.to_nat (find (place s)) in
      match nth k faces [] with [a; b; c] => (Z.to_nat a, Z.to_nat b, Z.to_nat c) | _ => (0, 0, 0) end).
    intros s. destruct (corners_exist nodes faces find s M FF) as (a & b & c & A & B & C & Co & _).
    destruct Co as (k & Fk & Hf). cbv zeta.
    assert ((if (find (place s) =? -1)%Z then length faces - 1 else Z.to_nat (find (place s))) = k) as ->.
    { destruct Fk as [-> | [-> ->]]; [destruct (Z.eqb_spec (Z.of_nat k) (-1)); [lia|now rewrite Nat2Z.id]|reflexivity]. }
    rewrite (nth_error_nth _ _ [] Hf), !Nat2Z.id. exists k. auto. }
  destruct (composed_layers GOther (mesh_interp tree hist nodes faces VNode data) (fun ix => node_leaf nodes faces find (data ix)) time ls sbc bbc [length nodes] q q' ex
    (fun u d s => m u d (fst (fst (cor s)))) (fun t d s => if (find (place s) =? -1)%Z then 0%Q else f t d (place s)) lay pts T N Mo D (layers_if _ (fun s => (find (place s) =? -1)%Z) f place Ch)) as (vs & E & V).
  - intros ix u d HS ps. destruct (S ix u d HS) as (MS & _). exact (mesh_masked tree hist nodes faces find HT HH data _ _ ix ps M FF MS).
  - intros ix u d s HS Hs. destruct (S ix u d HS) as (MS & Li & Un). specialize (HC s). destruct (cor s) as [[a b] c]. cbn [fst].
    destruct (corners_exist nodes faces find s M FF) as (a' & b' & c' & A & B & C & Co & HA & HB & HCn & X). destruct (corners_unique _ _ _ _ _ _ _ _ _ HC Co) as (-> & -> & ->).
    destruct (node_sees nodes faces find s (data ix) _ _ a' b' c' A B C HC HA HB HCn X MS) as (al & x & v & w & _ & _ & HCo & Sn).
    destruct HC as (k & Fk & Hf).
    apply (sees_iff (m u d a' && m u d a' && m u d a' = true)); [destruct (m u d a'); tauto|]. destruct (Un s k a' b' c' Hs Fk Hf) as (Eb & Ec). rewrite Eb, Ec in Sn.
    destruct (Z.eqb_spec (find (place s)) (-1)) as [H|H]; [exact Sn|].
    destruct Sn as [Sn|[Nm Sn]]; [now left|right]. split; [exact Nm|]. eapply shows_eq; [exact Sn|].
    destruct (m u d a'); [exfalso; apply Nm; reflexivity|]. cbn [kept]. unfold FieldAt. rewrite HA, HB, HCn.
    destruct (FF (place s)) as [|(k' & a2 & b2 & c2 & A2 & B2 & C2 & Ek & Hk & HA2 & HB2 & HC2 & In3)]; [congruence|].
    assert (k' = k) as -> by (destruct Fk as [Fk|[Fk _]]; lia). rewrite Hf in Hk. injection Hk as Ea Eb2 Ec2. apply Nat2Z.inj in Ea, Eb2, Ec2. subst a2 b2 c2.
    assert (A2 = A) by congruence. assert (B2 = B) by congruence. assert (C2 = C) by congruence. subst A2 B2 C2.
    symmetry. exact (linear_combination nodes faces (f u d) (place s) a' b' c' A B C x v w Li (nth_error_In _ _ Hf) HA HB HCn In3 HCo).
  - exists vs. split; [exact E|]. revert V. apply Forall2_impl'. intros s r. apply at_layer_impl. intros H. specialize (HC s). destruct (cor s) as [[a b] c]. cbn [fst] in H. destruct HC as (k & Fk & Hf).
    exists k, a, b, c. split; [exact Fk|split; [exact Hf|]]. cbv zeta. destruct (Z.eqb_spec (find (place s)) (-1)); split; intros; tauto || congruence.
Qed.
Print Assumptions c109_mesh_nodes_layers_partial.

(** Two layers between the levels 0, 5 and 10, and two instants: face 1 of the
    lower layer is missing at the first. *)
Definition ly_time : time_obj := mkTime [0; 10]%Z None None.
Definition ly_field (t : Z) (j k : nat) : Q := (inject_Z t + inject_Z (Z.of_nat (100 * j + k)))%Q.
Definition ly_mask (t : Z) (j k : nat) : bool := (t =? 0)%Z && (j =? 1) && (k =? 1).
Definition ly_data (ix : list nat) : list cell :=
  match ix with [i; j] => let t := nth i [0; 10]%Z 0%Z in map (fun k => if ly_mask t j k then CMasked else CVal (ly_field t j k)) [0; 1] | _ => [] end.
Definition ly_lay (s : spot) : nat := if Qlt_bool (deep s) 5 then 0 else 1.
Definition ly_pts : list spot := [((1 # 4, 1 # 4), 2); ((1 # 4, 1 # 4), 5); ((3 # 4, 3 # 4), 2); ((3 # 4, 3 # 4), 7); ((1 # 4, 1 # 4), 50)]%Q.
Definition ly_ask (q : Z) : result (list cell) :=
  at_grid (mesh_interp c94_tree (fun _ _ => []) c94_nodes c94_faces VFace ly_data) (order_of true true GOther) (layer_shape (Some ly_time) c94_levels [2]) (Some ly_time)
    (Some (l_view deep c94_levels (Some 3) default_sbc default_bbc)) q false ly_pts.
Lemma ly_ascending : Ascending c94_levels.
Proof. intros i j a b Hij Ha Hb. destruct i as [|[|[|i]]], j as [|[|[|[|j]]]]; cbn in Ha, Hb; try discriminate; try lia; injection Ha as <-; injection Hb as <-; reflexivity. Qed.
Example c109_layers_example :
  (exists a b c, ly_ask 5%Z = Ok [CVal a; CVal b; CVal c; CMasked; CMasked] /\ (a == 5 /\ b == 105 /\ c == 6)%Q) /\
  forall q, (0 <= q <= 10)%Z -> exists us, ly_ask q = Ok us /\
    Forall2 (fun s => AtLayer c94_levels default_sbc default_bbc (deep s) (ly_lay s) (fun r => forall k, FaceAsked 2 (c94_find (place s)) k ->
      let missing := exists u, UsesTime (Some [0; 10]%Z) false q q u /\ ly_mask u (ly_lay s) k = true in
      (c94_find (place s) <> (-1)%Z -> Sees missing (ly_field q (ly_lay s) k) r) /\ (c94_find (place s) = (-1)%Z -> Sees missing 0 r))) ly_pts us.
Proof.
  split; [do 3 eexists; split; [vm_compute; reflexivity|split; [reflexivity|split; reflexivity]]|].
  intros q Hq. apply (c109_mesh_faces_layers_partial c94_tree (fun _ _ => []) c94_nodes c94_faces c94_find ly_data (Some ly_time) c94_levels default_sbc default_bbc q q false ly_field ly_mask ly_lay ly_pts).
  - reflexivity.
  - intros. constructor.
  - discriminate.
  - exact c94_finds.
  - intros l H. injection H as <-. split; [|split; [discriminate|left; split; [|reflexivity]]]; [|exists 0%Z, 10%Z; repeat split; auto; lia].
    intros i j a b Hij Ha Hb. destruct i as [|[|i]], j as [|[|[|j]]]; cbn in Ha, Hb; try discriminate; try lia; injection Ha as <-; injection Hb as <-; lia.
  - cbn. lia.
  - left. exact ly_ascending.
  - intros s Hs. assert (L0 : forall z, (0 <= z < 5)%Q -> InLayer c94_levels z 0) by (intros z Hz; exists 0%Q, 5%Q; split; [reflexivity|split; [reflexivity|left; split; [exact ly_ascending|exact Hz]]]).
    assert (L1 : forall z, (5 <= z < 10)%Q -> InLayer c94_levels z 1) by (intros z Hz; exists 5%Q, 10%Q; split; [reflexivity|split; [reflexivity|left; split; [exact ly_ascending|exact Hz]]]).
    destruct Hs as [<-|[<-|[<-|[<-|[<-|[]]]]]].
    + left. apply L0. split; [discriminate|reflexivity].
    + left. apply L1. split; [discriminate|reflexivity].
    + left. apply L0. split; [discriminate|reflexivity].
    + left. apply L1. split; [discriminate|reflexivity].
    + right. exists 0%Q, 10%Q. split; [reflexivity|split; [reflexivity|]]. right. left. split; [exact ly_ascending|split; [discriminate|reflexivity]].
  - intros l H j k i t0 t1 u _ _ _. unfold ly_field. ring.
  - intros ix t j (i & -> & Hi & Hj). cbn in Hj. destruct i as [|[|i]]; cbn in Hi; try (destruct i; discriminate); injection Hi as <-; destruct j as [|[|j]]; try lia; (split; [reflexivity|]);
      intros [|[|[|k]]] c H; cbn in H; try discriminate; injection H as <-; ((left; split; reflexivity) || (right; split; [discriminate|eexists; split; reflexivity])).
Qed.
