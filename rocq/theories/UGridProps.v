(** Properties C17-C31 of gridded/pyugrid. *)
From Coq Require Import Sorted Qabs Lqa Permutation.
From Verif Require Import Common CommonProofs VariableModel VariableSpec VariableProofs DepthModel
  UGridModel UGridSpec UGridProofs UGridTopoProofs
  UGridGeomModel UGridGeomSpec UGridGeomProofs UGridLocProofs UGridInterpProofs.
Open Scope Z_scope.

(** C17 *)
Theorem c17_accepted_is_valid :
  forall n f f', set_faces n f = Ok f' ->
  forall x, In x (concat f') -> x = -1 \/ 0 <= x < Z.of_nat n.
Proof. exact set_faces_valid. Qed.
Print Assumptions c17_accepted_is_valid.
Theorem c17_one_based_shifted :
  forall n f, OneBased n f -> set_faces n f = Ok (map (map (fun x => x - 1)) f).
Proof. exact set_faces_one_based. Qed.
Print Assumptions c17_one_based_shifted.
Theorem c17_zero_based_unchanged : forall n f, ZeroBased n f -> set_faces n f = Ok f.
Proof. exact set_faces_zero_based. Qed.
Print Assumptions c17_zero_based_unchanged.
Theorem c17_else_rejected :
  forall n f, ~ OneBased n f -> ~ ZeroBased n f -> set_faces n f = Err ValueError.
Proof. exact set_faces_other. Qed.
Print Assumptions c17_else_rejected.
Example c17_example :
  OneBased 4 [[1; 2; 3]; [2; 3; 4]] /\ ZeroBased 4 [[0; 1; 2]; [1; 3; -1]] /\
  set_faces 4 [[1; 2; 3]; [2; 3; 4]] = Ok [[0; 1; 2]; [1; 2; 3]] /\
  set_faces 4 [[0; 1; 4]] = Err ValueError /\ set_faces 4 [[0; 1; -2]] = Err ValueError /\
  set_faces 4 [[0; 1; 5]] = Err ValueError.
Proof.
  unfold OneBased, ZeroBased. cbn [concat app In].
  repeat split; try discriminate; try lia; try reflexivity;
    match goal with |- _ => intuition lia end.
Qed.

(** C18: a one-based array of a mesh is recognised exactly when the last node
    is used by some face. *)
Theorem c18_recognised_iff_last_node_used_partial :
  forall n f0, concat f0 <> [] -> (forall x, In x (concat f0) -> 0 <= x < Z.of_nat n) ->
  (set_faces n (map (map (fun x => x + 1)) f0) = Ok f0 <-> In (Z.of_nat n - 1) (concat f0)).
Proof. exact one_based_recognised. Qed.
Print Assumptions c18_recognised_iff_last_node_used_partial.
Theorem c18_one_based_refuted :
  exists n f0, (forall x, In x (concat f0) -> 0 <= x < Z.of_nat n) /\
    set_faces n (map (map (fun x => x + 1)) f0) <> Ok f0.
Proof.
  exists 5%nat, [[0; 1; 2]; [1; 2; 3]]. split; [cbn; intuition lia|]. vm_compute. discriminate.
Qed.
Print Assumptions c18_one_based_refuted.
Example c18_example : set_faces 4 (map (map (fun x => x + 1)) [[0; 1; 2]; [1; 2; 3]]) = Ok [[0; 1; 2]; [1; 2; 3]].
Proof. reflexivity. Qed.

(** C19.  [Rect]: the face array is rectangular.  First, for every mesh
    whatsoever: the sides on one edge, in order of visit, are paired up two by
    two; an odd one out gets -1. *)
Theorem c19_sides_are_paired_in_order :
  forall nv faces p a b l k, Rect nv faces -> Side faces p a b ->
  StronglySorted before l -> (forall q, In q l <-> Meets faces p q) -> nth_error l k = Some p ->
  Entry (build_face_face faces) p
    (match (if Nat.even k then nth_error l (S k) else nth_error l (k - 1)) with
     | Some q => Z.of_nat (fst q)
     | None => -1
     end).
Proof.
  intros nv faces p a b l k HR Hs Hl Hin Hk. apply rect_ok in HR.
  pose proof (tget_entry _ _ _ p (build_ff_shape faces) (side_tin _ _ _ _ HR Hs)) as H.
  rewrite (ff_pairing faces p a b l k HR Hs Hl Hin Hk) in H. exact H.
Qed.
Print Assumptions c19_sides_are_paired_in_order.
(** Then the table when no edge is used by more than two sides. *)
Theorem c19_neighbour_iff_shared_edge :
  forall nv faces p, Rect nv faces -> Manifold faces -> (exists a b, Side faces p a b) ->
  forall g, Entry (build_face_face faces) p (Z.of_nat g) <->
            exists s, (g, s) <> p /\ Meets faces p (g, s).
Proof.
  intros nv faces p HR HM Hs g. apply rect_ok in HR. rewrite <- (ff_neighbour faces p HR HM Hs g).
  destruct Hs as (a & b & Hs).
  pose proof (tget_entry _ _ _ p (build_ff_shape faces) (side_tin _ _ _ _ HR Hs)) as H.
  split; [apply entry_tget|intros E; rewrite <- E; exact H].
Qed.
Print Assumptions c19_neighbour_iff_shared_edge.
Theorem c19_minus_one_iff_unshared :
  forall nv faces p, Rect nv faces -> Manifold faces -> (exists a b, Side faces p a b) ->
  (Entry (build_face_face faces) p (-1) <-> forall q, Meets faces p q -> q = p).
Proof.
  intros nv faces p HR HM Hs. apply rect_ok in HR. rewrite <- (ff_none faces p HR HM Hs).
  destruct Hs as (a & b & Hs).
  pose proof (tget_entry _ _ _ p (build_ff_shape faces) (side_tin _ _ _ _ HR Hs)) as H.
  split; [apply entry_tget|intros E; rewrite <- E; exact H].
Qed.
Print Assumptions c19_minus_one_iff_unshared.
Theorem c19_symmetric :
  forall nv faces p q, Rect nv faces -> Manifold faces -> Meets faces p q -> q <> p ->
  Entry (build_face_face faces) p (Z.of_nat (fst q)) /\ Entry (build_face_face faces) q (Z.of_nat (fst p)).
Proof.
  intros nv faces p q HR HM Hm Hne. apply rect_ok in HR.
  destruct (ff_symmetric faces p q HR HM Hm Hne) as [<- <-].
  destruct Hm as (a & b & c & d & H1 & H2 & _).
  split; apply (tget_entry (length faces) (num_vertices faces)); try apply build_ff_shape; eapply side_tin; eauto.
Qed.
Print Assumptions c19_symmetric.
(** The neighbour is a different face when no face repeats an edge. *)
Theorem c19_neighbour_is_another_face :
  forall nv faces p g, Rect nv faces -> Manifold faces -> ProperFaces faces -> (exists a b, Side faces p a b) ->
  Entry (build_face_face faces) p (Z.of_nat g) -> g <> fst p.
Proof.
  intros nv faces p g HR HM HP Hs H -> . apply (c19_neighbour_iff_shared_edge nv faces p HR HM Hs) in H.
  destruct H as (s & H1 & H2). apply H1. destruct p as [i j]. cbn [fst] in *. rewrite (HP i j s H2). reflexivity.
Qed.
Print Assumptions c19_neighbour_is_another_face.
Theorem c19_table_shape :
  forall nv faces, Rect nv faces -> length (build_face_face faces) = length faces /\ (faces <> [] -> Rect nv (build_face_face faces)).
Proof.
  intros nv faces HR. destruct (build_ff_shape faces) as [H1 H2]. split; auto.
  intros Hne. destruct faces as [|r f]; [congruence|]. inversion HR; subst. exact H2.
Qed.
Print Assumptions c19_table_shape.
(** A mixed mesh padded with -1: the padding makes "sides", and triangles 0
    and 1, which have only node 2 in common, are linked through (2, -1). *)
Theorem c19_padding_refuted :
  exists faces, build_face_face faces = [[-1; -1; 1; -1]; [-1; -1; 0; -1]; [-1; -1; -1; -1]] /\
    faces = [[0; 1; 2; -1]; [3; 4; 2; -1]; [5; 6; 7; 8]].
Proof. eexists. split; [|reflexivity]. vm_compute. reflexivity. Qed.
Print Assumptions c19_padding_refuted.
Example c19_example :
  let faces := [[0; 1; 2]; [1; 3; 2]; [3; 4; 2]] in
  Rect 3 faces /\ build_face_face faces = [[-1; 1; -1]; [-1; 2; 0]; [-1; -1; 1]] /\ Meets faces (0, 1)%nat (1, 2)%nat.
Proof.
  cbv zeta. split; [repeat constructor|]. split; [reflexivity|].
  exists 1, 2, 2, 1. split; [|split].
  - exists [0; 1; 2]. auto.
  - exists [1; 3; 2]. auto.
  - right. auto.
Qed.
(** Three faces on one edge: the first two are paired, the third gets -1. *)
Example c19_example_three :
  build_face_face [[0; 1; 2]; [1; 0; 3]; [0; 1; 4]] = [[1; -1; -1]; [0; -1; -1]; [-1; -1; -1]].
Proof. reflexivity. Qed.

(** C20 *)
Theorem c20_edges_are_sides :
  forall nv faces a b, Rect nv faces -> In (a, b) (build_edges faces) ->
  exists p c d, Side faces p c d /\ SameEnds a b c d.
Proof.
  intros nv faces a b HR H. apply rect_ok in HR. apply (build_edges_in faces _ HR) in H.
  destruct H as (p & c & d & Hs & E). exists p, c, d. split; auto.
  destruct (norm_ends c d) as [E'|E']; rewrite <- E in E'; injection E' as -> ->; [left|right]; auto.
Qed.
Print Assumptions c20_edges_are_sides.
Theorem c20_every_side_is_listed :
  forall nv faces, Rect nv faces -> forall p a b, Side faces p a b ->
  exists c d, In (c, d) (build_edges faces) /\ SameEnds a b c d.
Proof. intros nv faces HR. exact (edges_contain_sides faces (rect_ok _ _ HR)). Qed.
Print Assumptions c20_every_side_is_listed.
Theorem c20_no_duplicates :
  forall nv faces, Rect nv faces -> NoDup (build_edges faces) /\
  forall a b, In (a, b) (build_edges faces) -> In (b, a) (build_edges faces) -> a = b.
Proof.
  intros nv faces HR. split; [apply build_edges_NoDup|]. intros a b H1 H2.
  apply build_edges_sorted in H1; [|eapply rect_ok; eauto].
  apply build_edges_sorted in H2; [|eapply rect_ok; eauto]. lia.
Qed.
Print Assumptions c20_no_duplicates.
(** With -1 padding the list contains an "edge" to no node. *)
Theorem c20_padding_refuted :
  exists faces n f, set_faces n f = Ok faces /\ In (-1, 2) (build_edges faces).
Proof. exists [[0; 1; 2; -1]; [1; 3; 4; 2]], 5%nat, [[0; 1; 2; -1]; [1; 3; 4; 2]]. split; vm_compute; auto. Qed.
Print Assumptions c20_padding_refuted.
Example c20_example :
  build_edges [[0; 1; 2]; [1; 3; 2]] = [(0, 2); (0, 1); (1, 2); (1, 3); (2, 3)].
Proof. reflexivity. Qed.

(** C21.  [ps]: the lonely sides, in order; the boundaries are exactly their
    node pairs. *)
Theorem c21_boundaries_are_lonely_sides_partial :
  forall nv s faces, Rect nv faces -> Manifold faces -> tp_faces s = Some faces ->
  (tp_ff s = None \/ tp_ff s = Some (build_face_face faces)) ->
  exists bounds ps, topo_assign s BuildBounds =
      Ok (mkTopo (tp_n s) (Some faces) (tp_edges s) (Some bounds) (Some (build_face_face faces)) (tp_fe s)) /\
    StronglySorted before ps /\
    (forall p, In p ps <-> (exists a b, Side faces p a b) /\ forall q, Meets faces p q -> q = p) /\
    Forall2 (fun p e => Side faces p (fst e) (snd e)) ps bounds.
Proof.
  intros nv s faces HR HM Hf Hff. apply rect_ok in HR.
  destruct (boundaries_manifold faces HR HM) as (ps & H1 & H2 & H3).
  exists (boundaries_from faces (build_face_face faces)), ps. split; [|auto].
  cbn [topo_assign]. rewrite Hf. destruct Hff as [-> | ->]; reflexivity.
Qed.
Print Assumptions c21_boundaries_are_lonely_sides_partial.
(** For every mesh and every table in use: the sides marked -1. *)
Theorem c21_boundaries_follow_the_table :
  forall nv s faces ff, Rect nv faces -> tp_faces s = Some faces -> tp_ff s = Some ff ->
  length ff = length faces -> Rect (num_vertices faces) ff ->
  exists bounds ps, tp_bounds (topo_step s BuildBounds) = Some bounds /\
    StronglySorted before ps /\
    (forall p, In p ps <-> (exists a b, Side faces p a b) /\ Entry ff p (-1)) /\
    Forall2 (fun p e => Side faces p (fst e) (snd e)) ps bounds.
Proof.
  intros nv s faces ff HR Hf Hff Hl HRf. apply rect_ok in HR.
  destruct (boundaries_of_table faces ff HR (conj Hl HRf)) as (ps & H1 & H2 & H3).
  exists (boundaries_from faces ff), ps. split.
  { unfold topo_step. cbn [topo_assign]. rewrite Hf, Hff. reflexivity. }
  split; auto. split; auto. intros p. rewrite H2. split.
  - intros [Hs E]. split; auto. rewrite <- E. apply (tget_entry (length faces) (num_vertices faces)).
    + split; auto.
    + apply tin_side; auto.
  - intros [Hs E]. split; auto. apply entry_tget. auto.
Qed.
Print Assumptions c21_boundaries_follow_the_table.
(** Deleting the faces first (del, or assigning None) drops the table, so the
    boundaries of the next mesh are right whatever was there before. *)
Theorem c21_deleted_faces_partial :
  forall nv s o faces faces', o = DelFaces \/ o = SetFaces None ->
  set_faces (tp_n s) faces = Ok faces' -> Rect nv faces' -> Manifold faces' ->
  exists bounds ps,
    tp_bounds (fold_left topo_step [o; SetFaces (Some faces); BuildBounds] s) = Some bounds /\
    StronglySorted before ps /\
    (forall p, In p ps <-> (exists a b, Side faces' p a b) /\ forall q, Meets faces' p q -> q = p) /\
    Forall2 (fun p e => Side faces' p (fst e) (snd e)) ps bounds.
Proof.
  intros nv s o faces faces' Ho Hf HR HM. cbn [fold_left].
  set (s2 := topo_step (topo_step s o) (SetFaces (Some faces))).
  assert (F2 : tp_faces s2 = Some faces' /\ tp_ff s2 = None).
  { unfold s2, topo_step. destruct Ho as [-> | ->]; cbn [topo_assign tp_n bind]; rewrite Hf; cbn; auto. }
  destruct F2 as [F2 G2].
  destruct (c21_boundaries_are_lonely_sides_partial nv s2 faces' HR HM F2 (or_introl G2)) as (bounds & ps & E & H).
  exists bounds, ps. split; [|exact H]. unfold topo_step at 1. rewrite E. reflexivity.
Qed.
Print Assumptions c21_deleted_faces_partial.
(** Replacing the faces keeps the old table, so the boundaries of a second
    mesh are computed from the first mesh's neighbours: here two separate
    triangles get no boundary where they had a common edge before. *)
Theorem c21_stale_table_refuted :
  exists ops bounds faces, let s := topo_run 6 ops in
    tp_faces s = Some faces /\ faces = [[0; 1; 2]; [3; 4; 5]] /\ tp_bounds s = Some bounds /\
    length bounds = 4%nat /\ length (boundaries_from faces (build_face_face faces)) = 6%nat.
Proof.
  exists [SetFaces (Some [[0; 1; 2]; [1; 3; 2]]); BuildBounds; SetFaces (Some [[0; 1; 2]; [3; 4; 5]]); BuildBounds].
  do 2 eexists. cbv zeta. split; [vm_compute; reflexivity|]. split; [reflexivity|].
  split; [vm_compute; reflexivity|]. split; reflexivity.
Qed.
Print Assumptions c21_stale_table_refuted.
Example c21_example :
  tp_bounds (topo_run 4 [SetFaces (Some [[0; 1; 2]; [1; 3; 2]]); BuildBounds])
  = Some [(0, 1); (2, 0); (1, 3); (3, 2)].
Proof. reflexivity. Qed.

(** C22.  For any nearest-entry search in place of scipy's KD-tree. *)
Theorem c22_face_edges :
  forall query nv faces edges, Nearest query -> Rect nv faces ->
  (forall p a b, Side faces p a b -> exists c d, In (c, d) edges /\ SameEnds a b c d) ->
  length (build_face_edge query faces edges) = length faces /\
  Rect nv (build_face_edge query faces edges) /\
  forall p a b, Side faces p a b ->
  exists k c d, Entry (build_face_edge query faces edges) p (Z.of_nat k) /\
    nth_error edges k = Some (c, d) /\ SameEnds a b c d.
Proof.
  intros query nv faces edges HN HR Hall. pose proof (face_edge_shape query faces edges) as Hsh. split; [|split].
  - apply (f_equal (@length _)) in Hsh. rewrite !map_length in Hsh. exact Hsh.
  - unfold Rect in *. rewrite <- Forall_map with (P := fun n => n = nv) in *. rewrite Hsh. exact HR.
  - intros p a b Hs. apply face_edge_entry; eauto.
Qed.
Print Assumptions c22_face_edges.
(** In particular after build_edges, with the executable search. *)
Theorem c22_after_build_edges :
  forall nv faces, Rect nv faces -> forall p a b, Side faces p a b ->
  exists k c d, Entry (build_face_edge nearest faces (build_edges faces)) p (Z.of_nat k) /\
    nth_error (build_edges faces) k = Some (c, d) /\ SameEnds a b c d.
Proof.
  intros nv faces HR. exact (proj2 (proj2 (c22_face_edges nearest nv faces (build_edges faces) nearest_is_nearest HR
                                      (edges_contain_sides faces (rect_ok _ _ HR))))).
Qed.
Print Assumptions c22_after_build_edges.
Example c22_example :
  build_face_edge nearest [[0; 1; 2]; [1; 3; 2]] [(0, 1); (2, 1); (2, 0); (1, 3); (3, 2)] = [[0; 1; 2]; [3; 4; 1]].
Proof. reflexivity. Qed.

(** C23 *)
Theorem c23_coordinates_are_means_partial :
  forall nodes rows cs, derived_coords nodes (Some rows) = Ok cs ->
  length cs = length rows /\
  forall k r, nth_error rows k = Some r -> r <> [] -> exists f c,
    face_points nodes r = Ok f /\ nth_error cs k = Some c /\
    IsMean (map fst f) (fst c) /\ IsMean (map snd f) (snd c).
Proof.
  intros nodes rows cs H. destruct (derived_coords_rows nodes rows cs H) as [L K]. split; auto.
  intros k r Hr Hne. destruct (K k r Hr) as (f & c & H1 & H2 & ->). exists f, (mean_pt f).
  split; auto. split; auto. apply mean_pt_mean.
  intros ->. apply DepthProofs.mapM_ok in H1. destruct r; [congruence|cbn in H1; lia].
Qed.
Print Assumptions c23_coordinates_are_means_partial.
(** The nodes used are the listed ones when all indices are non-negative. *)
Theorem c23_corners_are_the_listed_nodes :
  forall nodes r f, face_points nodes r = Ok f -> (forall x, In x r -> 0 <= x) ->
  length f = length r /\
  forall k x, nth_error r k = Some x -> exists q, nth_error f k = Some q /\ nth_error nodes (Z.to_nat x) = Some q.
Proof.
  intros nodes r f H Hpos. apply DepthProofs.mapM_ok in H. destruct H as [L K]. split; auto.
  intros k x Hx. destruct (K k x Hx) as (q & Hq & E). exists q. split; auto.
  apply py_get_ok in E. destruct E as (n & Hn & E). assert (0 <= x) by (eapply Hpos, nth_error_In; eauto).
  pose proof (nth_error_Some_lt _ _ _ Hn). replace (Z.to_nat x) with n by lia. exact Hn.
Qed.
Print Assumptions c23_corners_are_the_listed_nodes.
Theorem c23_mean_facts :
  (forall l m lo hi, l <> [] -> IsMean l m -> (forall x, In x l -> (lo <= x <= hi)%Q) -> (lo <= m <= hi)%Q) /\
  (forall l m d, IsMean l m -> IsMean (map (fun x => x + d)%Q l) (m + d)%Q) /\
  (forall l l' m, Permutation l l' -> IsMean l m -> IsMean l' m) /\
  (forall l m m', l <> [] -> IsMean l m -> IsMean l m' -> (m == m')%Q).
Proof. exact (conj mean_bounds (conj mean_shift (conj mean_perm mean_unique))). Qed.
Print Assumptions c23_mean_facts.
(** A face padded with -1 is averaged with the mesh's last node ... *)
Theorem c23_padding_refuted :
  exists nodes c, derived_coords nodes (Some [[0; 1; 2; -1]]) = Ok [c] /\
    (forall q, In q (firstn 3 nodes) -> (fst q <= 3)%Q) /\ (3 < fst c)%Q.
Proof.
  exists [(0, 0); (3, 0); (0, 3); (100, 100)]%Q. eexists. split; [vm_compute; reflexivity|]. split.
  - cbn. intros q [<-|[<-|[<-|[]]]]; cbn; lra.
  - vm_compute. reflexivity.
Qed.
Print Assumptions c23_padding_refuted.
(** ... and without an edge array build_edge_coordinates makes one coordinate. *)
Theorem c23_no_edges_refuted :
  exists nodes c, build_edge_coordinates nodes None = Ok [c].
Proof. exists [(0, 0); (3, 0)]%Q. eexists. reflexivity. Qed.
Print Assumptions c23_no_edges_refuted.
Example c23_example :
  exists c, derived_coords [(0, 0); (3, 0); (0, 3)]%Q (Some [[0; 1; 2]]) = Ok [c] /\ (fst c == 1)%Q /\ (snd c == 1)%Q.
Proof. eexists. split; [vm_compute; reflexivity|]. split; reflexivity. Qed.

(** C24 *)
Theorem c24_weights_reproduce_the_point :
  forall n1 n2 n3 p, ~ (Cross n1 n2 n3 == 0)%Q ->
  exists w1 w2 w3, alphas_of n1 n2 n3 p = [CVal w1; CVal w2; CVal w3] /\ Combination n1 n2 n3 p w1 w2 w3.
Proof. exact alphas_weights. Qed.
Print Assumptions c24_weights_reproduce_the_point.
Theorem c24_nonnegative_iff_inside :
  forall a b c p u v w, ~ (Cross a b c == 0)%Q -> alphas_of a b c p = [CVal u; CVal v; CVal w] ->
  ((0 <= u /\ 0 <= v /\ 0 <= w)%Q <-> InTriangle a b c p).
Proof.
  intros a b c p u v w Hne H. destruct (alphas_weights a b c p Hne) as (u' & v' & w' & E & HC).
  rewrite E in H. injection H as -> -> ->. apply weights_inside; auto.
Qed.
Print Assumptions c24_nonnegative_iff_inside.
Theorem c24_linear_fields_exact :
  forall a b c p u v w A B C, ~ (Cross a b c == 0)%Q -> alphas_of a b c p = [CVal u; CVal v; CVal w] ->
  (u * (A * fst a + B * snd a + C) + v * (A * fst b + B * snd b + C) + w * (A * fst c + B * snd c + C)
   == A * fst p + B * snd p + C)%Q.
Proof.
  intros a b c p u v w A B C Hne H. destruct (alphas_weights a b c p Hne) as (u' & v' & w' & E & HC).
  rewrite E in H. injection H as -> -> ->. apply comb_linear; auto.
Qed.
Print Assumptions c24_linear_fields_exact.
Theorem c24_at_the_corners :
  forall a b c x y z, ~ (Cross a b c == 0)%Q ->
  forall k v, nth_error [a; b; c] k = Some v ->
  forall w1 w2 w3, alphas_of a b c v = [CVal w1; CVal w2; CVal w3] ->
  exists val, nth_error [x; y; z] k = Some val /\ (w1 * x + w2 * y + w3 * z == val)%Q.
Proof.
  intros a b c x y z Hne k v Hv w1 w2 w3 H.
  destruct (alphas_weights a b c v Hne) as (u' & v' & w' & E & HC).
  rewrite E in H. injection H as -> -> ->.
  destruct (comb_at_corner a b c w1 w2 w3 Hne) as (H1 & H2 & H3).
  destruct k as [|[|[|k]]]; cbn [nth_error] in *.
  - injection Hv as <-. destruct (H1 HC) as (E1 & E2 & E3). eexists. split; [reflexivity|]. rewrite E1, E2, E3. ring.
  - injection Hv as <-. destruct (H2 HC) as (E1 & E2 & E3). eexists. split; [reflexivity|]. rewrite E1, E2, E3. ring.
  - injection Hv as <-. destruct (H3 HC) as (E1 & E2 & E3). eexists. split; [reflexivity|]. rewrite E1, E2, E3. ring.
  - destruct k; discriminate.
Qed.
Print Assumptions c24_at_the_corners.
Theorem c24_value_between_corners :
  forall a b c p u v w x y z lo hi, ~ (Cross a b c == 0)%Q -> InTriangle a b c p ->
  alphas_of a b c p = [CVal u; CVal v; CVal w] ->
  (lo <= x <= hi)%Q -> (lo <= y <= hi)%Q -> (lo <= z <= hi)%Q ->
  (lo <= u * x + v * y + w * z <= hi)%Q.
Proof.
  intros a b c p u v w x y z lo hi Hne Hin H Hx Hy Hz.
  pose proof (proj2 (c24_nonnegative_iff_inside a b c p u v w Hne H) Hin) as (? & ? & ?).
  destruct (alphas_weights a b c p Hne) as (u' & v' & w' & E & HC).
  rewrite E in H. injection H as -> -> ->. destruct HC as [HC _]. apply convex_bounds; auto.
Qed.
Print Assumptions c24_value_between_corners.
Example c24_example :
  exists u v w, alphas_of (0, 0)%Q (4, 0)%Q (0, 4)%Q (1, 1)%Q = [CVal u; CVal v; CVal w] /\
    (u == 1 # 2)%Q /\ (v == 1 # 4)%Q /\ (w == 1 # 4)%Q /\ ~ (Cross (0, 0) (4, 0) (0, 4) == 0)%Q.
Proof. do 3 eexists. split; [vm_compute; reflexivity|]. repeat split; try reflexivity. discriminate. Qed.

(** C25.  One value per point; with numbers everywhere and no flat triangle,
    0 outside and the own face's value inside. *)
Theorem c25_face_data_partial :
  forall data inds, data <> [] -> Numbers data -> Forall (GoodIndex (length data)) inds ->
  exists vs, interp_values [] VFace data inds [] = Ok (Some vs) /\ length vs = length inds /\
    forall k i, nth_error inds k = Some i -> exists q, nth_error vs k = Some (CVal q) /\
      (i = -1 -> (q == 0)%Q) /\ (forall m, i = Z.of_nat m -> nth_error data m = Some (CVal q)).
Proof. exact face_interp. Qed.
Print Assumptions c25_face_data_partial.
Theorem c25_node_data_partial :
  forall nodes faces data pts inds,
  TriMesh nodes faces -> Numbers data -> length data = length nodes ->
  Forall (GoodIndex (length faces)) inds -> length inds = length pts ->
  exists al vs, interpolation_alphas nodes faces pts inds = Ok al /\
    interp_values faces VNode data inds al = Ok (Some vs) /\ length vs = length pts /\
    forall k p i, nth_error pts k = Some p -> nth_error inds k = Some i ->
      exists q, nth_error vs k = Some (CVal q) /\ NodeValue nodes faces data p i q.
Proof. exact node_interp. Qed.
Print Assumptions c25_node_data_partial.
(** And that is what the method returns, after any history of queries. *)
Theorem c25_interpolate_composes :
  forall tree nodes faces ops loc data copy memo pts, Forall asks ops ->
  let s := ug_run tree (ug_new nodes (Some faces)) ops in
  snd (interpolate tree s loc data copy memo pts) =
    let inds := tree nodes faces pts in
    match loc with
    | VNode => do al <- interpolation_alphas nodes faces pts inds; interp_values faces VNode data inds al
    | _ => interp_values [] loc data inds []
    end.
Proof.
  intros tree nodes faces ops loc data copy memo pts Ho. cbv zeta.
  rewrite (proj2 (interpolate_fresh tree nodes faces _ loc data copy memo pts (ask_history tree nodes faces ops Ho))).
  unfold interp_fresh. destruct loc; reflexivity.
Qed.
Print Assumptions c25_interpolate_composes.
(** A NaN or masked entry at the end of the data shows outside the grid. *)
Theorem c25_nan_outside_refuted :
  exists data, interp_values [] VFace data [-1] [] = Ok (Some [CNaN]) /\ nth_error data 0 = Some (CVal 1%Q).
Proof. exists [CVal 1%Q; CNaN]. split; reflexivity. Qed.
Print Assumptions c25_nan_outside_refuted.
(** So does a flat last triangle. *)
Theorem c25_flat_last_face_refuted :
  exists nodes faces al, interpolation_alphas nodes faces [(9, 9)%Q] [-1] = Ok al /\
    interp_values faces VNode (repeat (CVal 1%Q) (length nodes)) [-1] al = Ok (Some [CNaN]).
Proof.
  exists [(0, 0); (1, 0); (0, 1); (2, 0)]%Q, [[0; 1; 2]; [0; 1; 3]]. eexists. split; vm_compute; reflexivity.
Qed.
Print Assumptions c25_flat_last_face_refuted.
(** Only meshes of triangles can be interpolated on. *)
Theorem c25_quads_refuted :
  exists nodes face p, length face = 4%nat /\ (forall x, In x face -> 0 <= x < Z.of_nat (length nodes)) /\
    interpolation_alphas nodes [face] [p] [0] = Err ValueError.
Proof.
  exists [(0, 0); (1, 0); (1, 1); (0, 1)]%Q, [0; 1; 2; 3], (1 # 2, 1 # 2)%Q.
  split; [reflexivity|]. split; [cbn; intuition lia|reflexivity].
Qed.
Print Assumptions c25_quads_refuted.
(** A plain numpy array without an explicit location cannot be interpolated. *)
Theorem c25_plain_array_refuted :
  forall u, resolve_location None None (Some u) false = Err AttributeError.
Proof. reflexivity. Qed.
Print Assumptions c25_plain_array_refuted.
Theorem c25_location :
  (forall attr arg inf st l, resolve_location (Some (Some l)) arg inf st = Ok l /\
     resolve_location None (Some l) inf st = Ok l /\
     resolve_location (Some None) arg None true = Err ValueError /\
     (attr = None \/ attr = Some None -> forall u, resolve_location attr None (Some u) true = Ok (of_uloc u))).
Proof. intros. repeat split. intros [-> | ->] u; reflexivity. Qed.
Print Assumptions c25_location.
Example c25_example :
  let nodes := [(0, 0); (4, 0); (0, 4); (4, 4)]%Q in
  let faces := [[0; 1; 2]; [1; 3; 2]] in
  TriMesh nodes faces /\
  exists al a b, interpolation_alphas nodes faces [(1, 1); (9, 9)]%Q [0; -1] = Ok al /\
    interp_values faces VNode [CVal 0; CVal 4; CVal 8; CVal 12]%Q [0; -1] al = Ok (Some [CVal a; CVal b]) /\
    (a == 3)%Q /\ (b == 0)%Q.
Proof.
  cbv zeta. split.
  - split; [discriminate|]. intros f [<-|[<-|[]]].
    + exists 0%nat, 1%nat, 2%nat. do 3 eexists. repeat split; try reflexivity. discriminate.
    + exists 1%nat, 3%nat, 2%nat. do 3 eexists. repeat split; try reflexivity. discriminate.
  - do 3 eexists. split; [vm_compute; reflexivity|]. split; [vm_compute; reflexivity|]. split; reflexivity.
Qed.

(** C26: on counter-clockwise triangle meshes. *)
Theorem c26_simple_search_partial :
  forall nodes faces pts, CcwMesh nodes faces ->
  exists l, locate_simple nodes faces pts = Ok l /\
    Forall2 (fun p i => FirstIndex (NearFace epsilon nodes p) faces i) pts l.
Proof. exact simple_ccw. Qed.
Print Assumptions c26_simple_search_partial.
(** On every mesh: the first face whose first three nodes pass the test. *)
Theorem c26_first_match :
  forall nodes faces pts l, faces <> [] -> locate_simple nodes faces pts = Ok l ->
  Forall2 (fun p i => FirstIndex (fun face => exists a b c rest,
     face_points nodes face = Ok (a :: b :: c :: rest) /\ point_in_tri a b c p = true) faces i) pts l.
Proof. exact locate_simple_spec. Qed.
Print Assumptions c26_first_match.
Theorem c26_clockwise_refuted :
  exists nodes faces, locate_simple nodes faces [(100, 100)%Q; (0, 0)%Q] = Ok [0; 0] /\
    nodes = [(0, 0); (1, 0); (0, 1)]%Q /\ faces = [[0; 2; 1]].
Proof. do 2 eexists. split; [|split; reflexivity]. vm_compute. reflexivity. Qed.
Print Assumptions c26_clockwise_refuted.
Theorem c26_quad_refuted :
  exists nodes, locate_simple nodes [[0; 1; 2; 3]] [(1 # 4, 3 # 4)%Q] = Ok [-1] /\
    nodes = [(0, 0); (1, 0); (1, 1); (0, 1)]%Q.
Proof. eexists. split; [|reflexivity]. vm_compute. reflexivity. Qed.
Print Assumptions c26_quad_refuted.
Example c26_example :
  let nodes := [(0, 0); (4, 0); (0, 4); (4, 4)]%Q in
  CcwMesh nodes [[0; 1; 2]; [1; 3; 2]] /\
  locate_simple nodes [[0; 1; 2]; [1; 3; 2]] [(1, 1); (3, 3); (2, 2); (5, 5)]%Q = Ok [0; 1; 0; -1].
Proof.
  cbv zeta. split; [|vm_compute; reflexivity]. split; [discriminate|]. intros f [<-|[<-|[]]].
  - exists 0%nat, 1%nat, 2%nat. do 3 eexists. repeat split; try reflexivity.
  - exists 1%nat, 3%nat, 2%nat. do 3 eexists. repeat split; try reflexivity.
Qed.

(** C27 *)
Theorem c27_counter_clockwise_partial :
  forall a b c p, (0 < Cross a b c)%Q ->
  (point_in_tri a b c p = true <-> NearTriangle (1 # 100000) a b c p) /\
  (InTriangle a b c p -> point_in_tri a b c p = true).
Proof.
  intros a b c p H. split; [apply point_in_tri_ccw; auto|].
  intros Hin. apply point_in_tri_ccw; auto. apply inside_near; auto. discriminate.
Qed.
Print Assumptions c27_counter_clockwise_partial.
(** The tolerance is the only slack: with none it is the closed triangle. *)
Theorem c27_near_zero_is_inside :
  forall a b c p, NearTriangle 0 a b c p <-> InTriangle a b c p.
Proof. exact near_zero_inside. Qed.
Print Assumptions c27_near_zero_is_inside.
Theorem c27_flat_triangle : forall a b c p, (Cross a b c == 0)%Q -> point_in_tri a b c p = false.
Proof. exact point_in_tri_flat. Qed.
Print Assumptions c27_flat_triangle.
(** Clockwise corners: every point whatsoever is "inside". *)
Theorem c27_clockwise_accepts_everything :
  forall a b c p, (Cross a b c < 0)%Q -> point_in_tri a b c p = true.
Proof. exact point_in_tri_cw. Qed.
Print Assumptions c27_clockwise_accepts_everything.
Theorem c27_orientation_refuted :
  exists a b c p, point_in_tri a b c p = false /\ point_in_tri a c b p = true.
Proof. exists (0, 0)%Q, (1, 0)%Q, (0, 1)%Q, (7, 7)%Q. split; vm_compute; reflexivity. Qed.
Print Assumptions c27_orientation_refuted.
Example c27_example :
  (0 < Cross (0, 0) (4, 0) (0, 4))%Q /\ point_in_tri (0, 0)%Q (4, 0)%Q (0, 4)%Q (2, 2)%Q = true /\
  point_in_tri (0, 0)%Q (4, 0)%Q (0, 4)%Q (2, 3)%Q = false.
Proof. repeat split. Qed.

(** C28 *)
Theorem c28_ugrid_tables_bounded :
  forall tree nodes faces ops,
  let s := ug_run tree (ug_new nodes faces) ops in
  (length (ug_ind s) <= 6)%nat /\ NoDup (map fst (ug_ind s)) /\
  (length (ug_alpha s) <= 6)%nat /\ NoDup (map fst (ug_alpha s)).
Proof. exact ug_run_tables. Qed.
Print Assumptions c28_ugrid_tables_bounded.
Theorem c28_ugrid_store_effect :
  forall K V (keqb : K -> K -> bool), (forall a b, keqb a b = true <-> a = b) ->
  forall cap (d : list (K * V)) k v, (1 <= cap)%nat -> (length d <= cap)%nat -> NoDup (map fst d) ->
  forall k', memo_get keqb (ug_store keqb cap d k v) k' =
    if keqb k k' then Some v
    else if (negb (existsb (fun x => keqb x k) (map fst d)) && (length d =? cap)%nat
             && match d with (k0, _) :: _ => keqb k0 k' | [] => false end)%bool then None
    else memo_get keqb d k'.
Proof. exact @ug_store_effect. Qed.
Print Assumptions c28_ugrid_store_effect.
Theorem c28_ugrid_hit_is_latest :
  forall K V (keqb : K -> K -> bool), (forall a b, keqb a b = true <-> a = b) ->
  forall cap (h : list (K * V)) k v, (1 <= cap)%nat ->
  memo_get keqb (ug_memo_run keqb cap h) k = Some v -> LatestStore h k v.
Proof. exact @ug_run_latest. Qed.
Print Assumptions c28_ugrid_hit_is_latest.
Theorem c28_ugrid_keeps_the_newest :
  forall K V (keqb : K -> K -> bool), (forall a b, keqb a b = true <-> a = b) ->
  forall cap (h : list (K * V)), NoDup (map fst h) ->
  ug_memo_run keqb cap h = skipn (length h - cap) h.
Proof. exact @ug_run_tail. Qed.
Print Assumptions c28_ugrid_keeps_the_newest.
Theorem c28_sgrid_tables_bounded :
  forall K V (keqb : K -> K -> bool), (forall a b, keqb a b = true <-> a = b) ->
  forall (h : list (K * V)),
  (length (memo_run keqb sgrid_cap h) <= 7)%nat /\ NoDup (map fst (memo_run keqb sgrid_cap h)) /\
  forall k v, memo_get keqb (memo_run keqb sgrid_cap h) k = Some v -> LatestStore h k v.
Proof.
  intros K V keqb Hk h. destruct (run_bounded keqb Hk sgrid_cap h) as [H1 H2].
  split; [exact H1|]. split; auto. intros k v. apply run_latest; auto.
Qed.
Print Assumptions c28_sgrid_tables_bounded.
Theorem c28_capacities : ugrid_cap = 6%nat /\ S sgrid_cap = 7%nat.
Proof. split; reflexivity. Qed.
Example c28_example :
  ug_memo_run Nat.eqb ugrid_cap [(1, 10); (2, 20); (3, 30); (4, 40); (5, 50); (6, 60); (2, 21); (7, 70)]%nat
  = [(2, 21); (3, 30); (4, 40); (5, 50); (6, 60); (7, 70)]%nat.
Proof. reflexivity. Qed.

(** C29.  As long as the mesh is not replaced, every answer of the cell-tree
    method is the one for the mesh, with or without memo. *)
Theorem c29_unreplaced_mesh_partial :
  forall tree nodes faces ops memo pts, Forall asks ops ->
  let s := ug_run tree (ug_new nodes (Some faces)) ops in
  snd (locate tree s Celltree memo pts false) = Ok (Arr (tree nodes faces pts)).
Proof.
  intros tree nodes faces ops memo pts Ho. cbv zeta.
  exact (proj2 (proj2 (locate_fresh tree nodes faces _ memo pts false (ask_history tree nodes faces ops Ho))) eq_refl).
Qed.
Print Assumptions c29_unreplaced_mesh_partial.
(** In every state at all, the simple method without memo follows the mesh. *)
Theorem c29_simple_without_memo :
  forall tree s f pts, ug_faces s = Some f ->
  snd (locate tree s Simple false pts false) = (do l <- locate_simple (ug_nodes s) f pts; Ok (Arr l)).
Proof.
  intros tree s f pts H. unfold locate, search. rewrite H. destruct (locate_simple _ _ _); reflexivity.
Qed.
Print Assumptions c29_simple_without_memo.
(** An oracle that is right about every mesh; still the moved mesh is answered
    with the old one's cell tree, memo or not. *)
Definition exact_tree (n : list pt) (f : list (list Z)) (p : list pt) : list Z :=
  match locate_simple n f p with Ok l => l | Err _ => [] end.
Theorem c29_replaced_nodes_refuted :
  exists nodes nodes' faces p memo,
    let s := ug_run exact_tree (ug_new nodes (Some faces)) [OLocate Celltree memo [p] false; OSetNodes nodes'] in
    ug_nodes s = nodes' /\ exact_tree nodes' faces [p] = [-1] /\
    snd (locate exact_tree s Celltree false [p] false) = Ok (Arr [0]).
Proof.
  exists [(0, 0); (4, 0); (0, 4)]%Q, [(10, 10); (14, 10); (10, 14)]%Q, [[0; 1; 2]], (1, 1)%Q, false.
  cbv zeta. repeat split; vm_compute; reflexivity.
Qed.
Print Assumptions c29_replaced_nodes_refuted.
Theorem c29_replaced_nodes_simple_refuted :
  exists nodes nodes' faces p,
    let s := ug_run exact_tree (ug_new nodes (Some faces)) [OLocate Simple true [p] false; OSetNodes nodes'] in
    ug_nodes s = nodes' /\ exact_tree nodes' faces [p] = [-1] /\
    snd (locate exact_tree s Simple true [p] false) = Ok (Arr [0]).
Proof.
  exists [(0, 0); (4, 0); (0, 4)]%Q, [(10, 10); (14, 10); (10, 14)]%Q, [[0; 1; 2]], (1, 1)%Q.
  cbv zeta. repeat split; vm_compute; reflexivity.
Qed.
Print Assumptions c29_replaced_nodes_simple_refuted.
Example c29_example :
  Forall asks [OLocate Celltree true [(1, 1)%Q] true; OInterp VNode [CVal 1; CVal 2; CVal 3]%Q false true [(1, 1)%Q]].
Proof. repeat constructor. Qed.

(** C30.  The numbers are the same, but after a scalar answer the repeated
    query of one point returns an array. *)
Theorem c30_second_answer_partial :
  forall tree s m pts one o,
  (length (ug_ind s) <= 6)%nat -> NoDup (map fst (ug_ind s)) -> (one = true -> length pts = 1%nat) ->
  (forall n f q, length (tree n f q) = length q) ->
  snd (locate tree s m true pts one) = Ok o ->
  let s1 := fst (locate tree s m true pts one) in
  locate tree s1 m true pts one = (s1, Ok (Arr (lout_vals o))).
Proof. exact repeat_query. Qed.
Print Assumptions c30_second_answer_partial.
Theorem c30_without_memo_stable :
  forall tree s m pts one,
  let r1 := locate tree s m false pts one in
  snd (locate tree (fst r1) m false pts one) = snd r1.
Proof. exact repeat_no_memo. Qed.
Print Assumptions c30_without_memo_stable.
Theorem c30_scalar_then_array_refuted :
  exists nodes faces p,
    let r1 := locate exact_tree (ug_new nodes (Some faces)) Celltree true [p] true in
    snd r1 = Ok (Scalar 0) /\ snd (locate exact_tree (fst r1) Celltree true [p] true) = Ok (Arr [0]).
Proof.
  exists [(0, 0); (4, 0); (0, 4)]%Q, [[0; 1; 2]], (1, 1)%Q. cbv zeta. split; vm_compute; reflexivity.
Qed.
Print Assumptions c30_scalar_then_array_refuted.

(** C31 *)
Theorem c31_decision_table :
  forall n nf nb init size,
  u_infer_location n nf nb (init ++ [size]) =
    if (size =? n)%nat then Some LNode
    else match nf with
         | Some k => if (size =? k)%nat then Some LFace
                     else match nb with Some m => if (size =? m)%nat then Some LBoundary else None | None => None end
         | None => match nb with Some m => if (size =? m)%nat then Some LBoundary else None | None => None end
         end.
Proof. exact infer_spec. Qed.
Print Assumptions c31_decision_table.
Theorem c31_scalar_data : forall n nf nb, u_infer_location n nf nb [] = None.
Proof. reflexivity. Qed.
Print Assumptions c31_scalar_data.
Theorem c31_sizes_agree :
  forall n nf nb init size,
  let r := u_infer_location n nf nb (init ++ [size]) in
  (r = Some LNode <-> size = n) /\
  (r = Some LFace <-> size <> n /\ nf = Some size) /\
  (r = Some LBoundary <-> size <> n /\ nf <> Some size /\ nb = Some size) /\
  (r = None <-> size <> n /\ nf <> Some size /\ nb <> Some size).
Proof.
  intros n nf nb init size. cbv zeta. rewrite infer_spec.
  destruct (Nat.eqb_spec size n) as [Hn|Hn];
    (destruct nf as [k|]; [destruct (Nat.eqb_spec size k) as [Hk|Hk]|]);
    (destruct nb as [m|]; [destruct (Nat.eqb_spec size m) as [Hm|Hm]|]);
    repeat split; intros; intuition congruence.
Qed.
Print Assumptions c31_sizes_agree.
Example c31_example :
  u_infer_location 10 (Some 7%nat) (Some 7%nat) [4; 7]%nat = Some LFace /\ u_infer_location 10 None (Some 7%nat) [7]%nat = Some LBoundary.
Proof. split; reflexivity. Qed.
