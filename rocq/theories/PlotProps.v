(** Theorems about drawing grids (C90) and the query at a point of the map (C91). *)
From Coq Require Import QArith Lqa.
From Verif Require Import Common CommonProofs MaskModel DepthModel DepthProofs UGridModel UGridSpec UGridProofs SGridModel SGridProofs NLoadModel NLoadSpec NLoadProofs PlotModel PlotSpec PlotProofs.
Open Scope nat_scope.

(** ** C90 *)
(** The faces of a mesh are the triangles drawn, unless there are three. *)
Theorem c90_triangles_partial : forall faces, length faces <> 3 -> plotted_triangles faces = faces.
Proof. intros faces H. unfold plotted_triangles. destruct (Nat.eqb_spec (length faces) 3); congruence. Qed.
Print Assumptions c90_triangles_partial.
(** Three triangles are drawn the other way round: corner [j] of face [i]
    becomes corner [i] of face [j]. *)
Theorem c90_three_faces_refuted :
  (forall faces, length faces = 3 -> Rect 3 faces -> length (plotted_triangles faces) = 3 /\ Rect 3 (plotted_triangles faces) /\
     forall i j, i < 3 -> j < 3 -> entry (plotted_triangles faces) i j = entry faces j i) /\
  (exists faces a b, Rect 3 faces /\ IsSide faces a b /\ ~ IsSide (plotted_triangles faces) a b).
Proof.
  split.
  - intros faces L R. unfold plotted_triangles. rewrite L. cbn [Nat.eqb].
    assert (N : faces <> []) by (intros ->; discriminate). assert (W := width_rect _ _ R N).
    destruct (transposed_shape faces) as (A & B). rewrite W in A. rewrite L in B. repeat split; auto.
    intros i j Hi Hj. apply transposed_entry; lia.
  - exists [[0; 1; 2]; [0; 2; 3]; [0; 3; 4]]%Z, 0%Z, 1%Z. split; [repeat constructor|]. split.
    + exists (0, 0). left. exists [0; 1; 2]%Z. cbn. auto.
    + rewrite side_edges by repeat constructor. vm_compute. intuition congruence.
Qed.
Print Assumptions c90_three_faces_refuted.
(** A boundary is a line between its two nodes. *)
Theorem c90_boundaries :
  forall nodes bounds, (forall b, In b bounds -> (0 <= fst b < Z.of_nat (length nodes) /\ 0 <= snd b < Z.of_nat (length nodes))%Z) ->
  exists ls, plotted_boundaries nodes (Some bounds) = Ok ls /\
    Forall2 (fun b l => IsNode nodes (fst b) (fst l) /\ IsNode nodes (snd b) (snd l)) bounds ls.
Proof.
  intros nodes bounds H. cbn [plotted_boundaries]. apply mapM_forall2. intros b Hb. destruct (H b Hb) as (A & B).
  destruct (is_node_exists nodes _ A) as (p & Hp), (is_node_exists nodes _ B) as (q & Hq).
  rewrite (py_index_is _ _ _ Hp), (py_index_is _ _ _ Hq). cbn [bind]. eexists. split; [reflexivity|]. auto.
Qed.
Print Assumptions c90_boundaries.
Theorem c90_boundary_errors : forall nodes b r, (Z.of_nat (length nodes) <= fst b \/ fst b < - Z.of_nat (length nodes))%Z ->
  plotted_boundaries nodes (Some (b :: r)) = Err IndexError /\ plotted_boundaries nodes None = Ok [].
Proof.
  intros nodes b r H. split; [|reflexivity]. cbn [plotted_boundaries mapM]. unfold py_index.
  destruct (Z.ltb_spec (fst b) 0).
  - destruct (Z.ltb_spec (fst b + Z.of_nat (length nodes)) 0); [reflexivity|lia].
  - destruct (Z.ltb_spec (fst b) 0); [lia|]. assert (E : nth_error nodes (Z.to_nat (fst b)) = None) by (apply nth_error_None; lia). now rewrite E.
Qed.
Print Assumptions c90_boundary_errors.
(** A structured grid: nodes next to each other are joined, by one line, and no
    others are. *)
Theorem c90_sgrid_lines :
  forall lon lat, exists ps, sgrid_lines lon lat = map (map (fun n => (a_at lon (fst n) (snd n), a_at lat (fst n) (snd n)))) ps /\
    length ps = a_r lon + a_c lon /\
    (forall n m, Neighbours (a_r lon) (a_c lon) n m -> exists! k, exists p, nth_error ps k = Some p /\ Next p n m) /\
    (forall k p n m, nth_error ps k = Some p -> Next p n m -> Neighbours (a_r lon) (a_c lon) n m).
Proof.
  intros lon lat. exists (paths (a_r lon) (a_c lon)). split; [apply lines_paths|]. split; [|split].
  - unfold paths. now rewrite app_length, !map_length, !seq_length.
  - intros n m. apply paths_once.
  - intros k p n m. apply paths_only.
Qed.
Print Assumptions c90_sgrid_lines.
(** The wireframe of a mesh of triangles: each side once, between the places of
    its nodes on the map, and nothing else. *)
Theorem c90_wireframe :
  forall nodes faces, Rect 3 faces -> (forall x, In x (concat faces) -> (0 <= x < Z.of_nat (length nodes))%Z) ->
  exists es ls, grid_lines nodes faces = Ok ls /\ Forall2 (Drawn nodes) es ls /\ NoDup es /\
    (forall a b, In (a, b) es -> (a <= b)%Z) /\
    (forall a b, IsSide faces a b <-> In (a, b) es \/ In (b, a) es).
Proof.
  intros nodes faces R V. destruct (lines_ok nodes faces R V) as (ls & E & F). exists (unique (edge_pairs faces)), ls.
  assert (O : forall a b, In (a, b) (unique (edge_pairs faces)) -> (a <= b)%Z).
  { intros a b He. apply -> in_unique in He. apply -> in_edge_pairs in He. destruct He as (r & _ & [Q|[Q|Q]]);
      match type of Q with _ = sorted_pair ?u ?v => destruct (sorted_pair_ends u v) as (_ & O); rewrite <- Q in O; exact O end. }
  repeat split; auto.
  - apply increasing_nodup, unique_increasing.
  - intros S. apply side_edges in S; auto. apply in_unique in S. destruct (sorted_pair_ends a b) as ([Q|Q] & _); rewrite Q in S; auto.
  - intros [He|He]; pose proof (O _ _ He) as L; apply -> in_unique in He; apply side_edges; auto.
    + now rewrite sorted_pair_fixed.
    + now rewrite sorted_pair_sym, sorted_pair_fixed.
Qed.
Print Assumptions c90_wireframe.
(** A table with fewer columns is refused. *)
Theorem c90_narrow :
  forall nodes faces w, w < 3 -> Rect w faces -> faces <> [] -> grid_lines nodes faces = Err IndexError.
Proof.
  intros nodes faces w W R N. unfold grid_lines. destruct faces as [|r fs]; [contradiction|]. cbn [forallb]. inversion R as [|? ? L _]; subst.
  destruct (Nat.leb_spec 3 (length r)); [lia|reflexivity].
Qed.
Print Assumptions c90_narrow.
(** Faces of four nodes are drawn as triangles of their first three. *)
Theorem c90_quads_refuted :
  exists nodes faces ls, Rect 4 faces /\ (forall x, In x (concat faces) -> (0 <= x < Z.of_nat (length nodes))%Z) /\
    grid_lines nodes faces = Ok ls /\ IsSide faces 2 3 /\ (forall l, In l ls -> ~ Drawn nodes (2, 3)%Z l /\ ~ Drawn nodes (3, 2)%Z l) /\
    ~ IsSide faces 0 2 /\ exists l, In l ls /\ Drawn nodes (0, 2)%Z l.
Proof.
  exists [(0, 0); (1, 0); (1, 1); (0, 1)]%Q, [[0; 1; 2; 3]]%Z. eexists.
  split; [repeat constructor|]. split; [intros x Hx; cbn in Hx; cbn; intuition (subst; lia)|]. split; [vm_compute; reflexivity|].
  split; [exists (0, 2); left; exists [0; 1; 2; 3]%Z; cbn; auto|]. split; [|split].
  - intros l Hl. split; intros (p & q & (_ & P) & (_ & Q) & (A & A') & (B & B')); cbn in P, Q; injection P as <-; injection Q as <-; cbn [fst snd] in *;
      destruct Hl as [<-|[<-|[<-|[]]]]; cbn [fst snd] in *; try discriminate; destruct A' as [(_ & A')|(A' & _)], B' as [(_ & B')|(B' & _)]; try lra; discriminate.
  - assert (K : forall p, ~ Side [[0; 1; 2; 3]]%Z p 0 2 /\ ~ Side [[0; 1; 2; 3]]%Z p 2 0).
    { intros [i j]. split; intros (r & H & A & B); cbn [fst snd] in *; (destruct i; [|destruct i; discriminate]); injection H as <-; cbn [length] in B;
        (do 4 (destruct j as [|j]; [cbn in A, B; congruence|]); destruct j; discriminate). }
    intros (p & [S|S]); destruct (K p); contradiction.
  - eexists. split; [right; left; reflexivity|]. exists (0, 0)%Q, (1, 1)%Q. cbn [fst snd]. unfold IsNode, OnMap. cbn [fst snd nth_error Z.to_nat Pos.to_nat Pos.iter_op Nat.add]. repeat split; try lia; try (left; split; (reflexivity || lra)).
Qed.
Print Assumptions c90_quads_refuted.
(** The triangles of the grid: its faces, else those of [nv], in either order
    and counted from 0 or 1. *)
Theorem c90_faces_partial :
  (forall f nv, triangle_faces (Some f) nv = Ok f) /\
  (forall F n base a, (base = 0 \/ base = 1)%Z -> IsMesh n 3 F -> UsesFirst F -> length F <> 3 -> Holds 3 (counted base F) a -> triangle_faces None (Some a) = Ok F) /\
  triangle_faces None None = Err AttributeError.
Proof.
  split; [reflexivity|]. split; [|reflexivity]. intros F n base a Hb (W & R & V) U L H. unfold triangle_faces.
  assert (Rc := counted_rect _ base _ R).
  assert (O : (if (length a =? 3) && negb (width a =? 3) then transposed a else a) = counted base F).
  { destruct H as [->|X].
    - rewrite counted_length. destruct (Nat.eqb_spec (length F) 3); [contradiction|reflexivity].
    - rewrite (transposed_exchanged 3 (counted base F) a W Rc X). destruct X as (La & Ra & _). rewrite La. cbn [Nat.eqb andb].
      assert (N : a <> []) by (intros ->; discriminate). rewrite (width_rect _ _ Ra N), counted_length.
      destruct (Nat.eqb_spec (length F) 3); [contradiction|reflexivity]. }
  rewrite O. assert (Z : zmin (concat (counted base F)) = Ok base).
  { apply zmin_is.
    - apply in_counted. now rewrite Z.sub_diag.
    - intros y Hy. apply in_counted in Hy. specialize (V _ Hy). lia. }
  rewrite Z. cbn [bind]. f_equal. destruct Hb as [-> | ->]; [cbn [Z.eqb]; apply counted_zero|]. exact (decremented_counted F).
Qed.
Print Assumptions c90_faces_partial.
(** Three faces stored column by column, or a mesh that does not use its first node. *)
Theorem c90_faces_refuted :
  (exists F a f, IsMesh 5 3 F /\ UsesFirst F /\ Holds 3 F a /\ triangle_faces None (Some a) = Ok f /\ f <> F) /\
  (exists F f, IsMesh 5 3 F /\ triangle_faces None (Some F) = Ok f /\ f <> F).
Proof.
  split.
  - exists [[0; 1; 2]; [0; 2; 3]; [0; 3; 4]]%Z, [[0; 0; 0]; [1; 2; 3]; [2; 3; 4]]%Z. eexists. split; [|split; [now left|split; [|split; [vm_compute; reflexivity|discriminate]]]].
    + split; [lia|]. split; [repeat constructor|]. intros x Hx. cbn in Hx. intuition (subst; lia).
    + right. split; [reflexivity|]. split; [repeat constructor|]. intros i j Hi Hj. cbn in Hi.
      destruct i as [|[|[|i]]]; try lia; destruct j as [|[|[|j]]]; try lia; reflexivity.
  - exists [[1; 2; 3]; [1; 3; 4]]%Z. eexists. split; [|split; [vm_compute; reflexivity|discriminate]].
    split; [lia|]. split; [repeat constructor|]. intros x Hx. cbn in Hx. intuition (subst; lia).
Qed.
Print Assumptions c90_faces_refuted.
Example c90_example :
  grid_lines [(0, 0); (1, 0); (359, 1); (1, 1)]%Q [[0; 1; 2]; [1; 3; 2]]%Z =
    Ok [((0, 0), (1, 0)); ((0, 0), (-1, 1)); ((1, 0), (-1, 1)); ((1, 0), (1, 1)); ((-1, 1), (1, 1))]%Q /\
  length (sgrid_lines (mkArr 3 2 (fun i j => inject_Z (Z.of_nat j))) (mkArr 3 2 (fun i j => inject_Z (Z.of_nat i)))) = 5 /\
  plotted_triangles [[0; 1; 2]; [0; 2; 3]; [0; 3; 4]]%Z = [[0; 0; 0]; [1; 2; 3]; [2; 3; 4]]%Z.
Proof. vm_compute. auto. Qed.

(** ** C91 *)
(** The extent holds every node of the map; without a margin it is the smallest. *)
Theorem c91_extent :
  forall nodes margin, nodes <> [] -> (0 <= margin)%Q ->
  exists w e s n, max_extent nodes margin = Ok (w, e, s, n) /\
    (forall p q, In p nodes -> OnMap p q -> w <= fst q <= e /\ s <= snd q <= n)%Q /\
    (exists pw pe ps pn qw qe qs qn, In pw nodes /\ In pe nodes /\ In ps nodes /\ In pn nodes /\
       OnMap pw qw /\ OnMap pe qe /\ OnMap ps qs /\ OnMap pn qn /\
       w == fst qw - margin * (fst qe - fst qw) /\ e == fst qe + margin * (fst qe - fst qw) /\
       s == snd qs - margin * (snd qn - snd qs) /\ n == snd qn + margin * (snd qn - snd qs))%Q.
Proof.
  intros nodes margin N M. unfold max_extent.
  assert (N1 : map fst (map shown nodes) <> []) by (destruct nodes; [congruence|discriminate]).
  assert (N2 : map snd (map shown nodes) <> []) by (destruct nodes; [congruence|discriminate]).
  destruct (qmin_total _ N1) as (w & Ew), (qmax_total _ N1) as (e & Ee), (qmin_total _ N2) as (s & Es), (qmax_total _ N2) as (n & En).
  rewrite Ew, Ee, Es, En. cbn [bind].
  destruct (qmin_ok _ _ Ew) as (Iw & Lw), (qmax_ok _ _ Ee) as (Ie & Le), (qmin_ok _ _ Es) as (Is & Ls), (qmax_ok _ _ En) as (In_ & Ln).
  assert (Hx : (w <= e)%Q) by (apply Lw; exact Ie). assert (Hy : (s <= n)%Q) by (apply Ls; exact In_).
  assert (Mx : (0 <= (e - w) * margin)%Q) by (apply Qmult_le_0_compat; lra). assert (My : (0 <= (n - s) * margin)%Q) by (apply Qmult_le_0_compat; lra).
  do 4 eexists. split; [reflexivity|]. split.
  - intros p q Hp Hq. apply on_map_fun in Hq. subst q.
    assert (A : In (fst (shown p)) (map fst (map shown nodes))) by (now apply in_map, in_map).
    assert (B : In (snd (shown p)) (map snd (map shown nodes))) by (now apply in_map, in_map).
    pose proof (Lw _ A). pose proof (Le _ A). pose proof (Ls _ B). pose proof (Ln _ B). repeat split; lra.
  - rewrite map_map in Iw, Ie, Is, In_. apply in_map_iff in Iw, Ie, Is, In_.
    destruct Iw as (pw & <- & Hw), Ie as (pe & <- & He), Is as (ps & <- & Hs), In_ as (pn & <- & Hn).
    exists pw, pe, ps, pn, (shown pw), (shown pe), (shown ps), (shown pn).
    repeat (split; [first [assumption|apply shown_on_map|ring]|]). ring.
Qed.
Print Assumptions c91_extent.
Theorem c91_no_nodes : forall margin locate faces click, max_extent [] margin = Err ValueError /\ index_query locate [] faces click = Err ValueError.
Proof. intros. split; reflexivity. Qed.
Print Assumptions c91_no_nodes.

(** The point asked of the grid, relative to a face on one side. *)
Lemma searched_iff nodes faces click i mn : Convention nodes -> qmin (map fst nodes) = Ok mn -> (-180 < fst click <= 180)%Q -> OneSide nodes faces i ->
  (InFace nodes faces (if Qle_bool 0 mn && negb (Qle_bool 0 (fst click)) then (fst click + 360)%Q else fst click, snd click) i <-> InDrawn nodes faces click i).
Proof.
  intros Cv Mn Ck OS. destruct (qmin_ok _ _ Mn) as (_ & Lm).
  assert (X : exists x, (if Qle_bool 0 mn && negb (Qle_bool 0 (fst click)) then (fst click + 360)%Q else fst click) = x /\
              ((0 <= mn /\ fst click < 0 /\ x = fst click + 360) \/ (0 <= mn /\ 0 <= fst click /\ x = fst click) \/ (mn < 0 /\ x = fst click))%Q).
  { eexists. split; [reflexivity|]. destruct (Qle_bool 0 mn) eqn:A; cbn [andb].
    - apply Qle_bool_iff in A. destruct (Qle_bool 0 (fst click)) eqn:B; cbn [negb].
      + apply Qle_bool_iff in B. auto.
      + left. repeat split; auto. apply Qnot_le_lt. intros H. apply Qle_bool_iff in H. congruence.
    - right. right. split; auto. apply Qnot_le_lt. intros H. apply Qle_bool_iff in H. congruence. }
  destruct X as (x & -> & X).
  assert (Lo : forall p, In p nodes -> (mn <= fst p)%Q) by (intros p Hp; apply Lm; now apply in_map).
  (** below 180 the map shows the node where it is, above it 360 less *)
  assert (K : forall a b c, Corners nodes faces i a b c -> InTriangle (x, snd click) a b c <-> InTriangle click (shown a) (shown b) (shown c)).
  { intros a b c Hc. destruct (corners_in _ _ _ _ _ _ Hc) as (Ia & Ib & Ic).
    assert (Hs : forall p, (fst p <= 180)%Q -> shown p = p).
    { intros p H. symmetry. apply on_map_fun. split; auto. }
    assert (Hg : forall p, (180 < fst p)%Q -> shown p = (fst p - 360, snd p)%Q).
    { intros p H. symmetry. apply on_map_fun. split; auto. }
    pose proof (Lo _ Ia). pose proof (Lo _ Ib). pose proof (Lo _ Ic).
    destruct (OS a b c Hc) as [(A & B & C)|(A & B & C)].
    - rewrite !Hs by auto. destruct X as [(Hm & Hk & ->)|[(Hm & Hk & ->)|(Hm & ->)]].
      + split; intros T; exfalso.
        * pose proof (triangle_le _ _ _ _ 180 T A B C) as Y. cbn [fst] in Y. lra.
        * assert (0 <= fst click)%Q by (apply (triangle_ge _ _ _ _ 0 T); lra). lra.
      + destruct click; reflexivity.
      + destruct click; reflexivity.
    - rewrite !Hg by auto. destruct X as [(Hm & Hk & ->)|[(Hm & Hk & ->)|(Hm & ->)]].
      + split; intros T.
        * eapply (triangle_shift _ _ _ _ _ _ _ _ (-360) _ _ _ _ _ _ _ _ T). Unshelve. all: cbn [fst snd]; try reflexivity; ring.
        * eapply (triangle_shift _ _ _ _ _ _ _ _ 360 _ _ _ _ _ _ _ _ T). Unshelve. all: cbn [fst snd]; try reflexivity; ring.
      + split; intros T; exfalso.
        * pose proof (triangle_gt _ _ _ _ 180 T A B C) as Y. cbn [fst] in Y. lra.
        * destruct Cv as [Cv|Cv].
          -- pose proof (Cv _ Ia). pose proof (Cv _ Ib). pose proof (Cv _ Ic).
             assert (~ (0 <= fst click))%Q; [|contradiction]. intros _.
             assert (exists s, s < 0 /\ fst a - 360 <= s /\ fst b - 360 <= s /\ fst c - 360 <= s)%Q as (s & Hs0 & Sa & Sb & Sc).
             { destruct (Qlt_le_dec (fst a) (fst b)), (Qlt_le_dec (fst b) (fst c)), (Qlt_le_dec (fst a) (fst c));
                 first [exists (fst a - 360)%Q; repeat split; lra|exists (fst b - 360)%Q; repeat split; lra|exists (fst c - 360)%Q; repeat split; lra]. }
             pose proof (triangle_le _ _ _ _ s T Sa Sb Sc). lra.
          -- pose proof (Cv _ Ia). lra.
      + destruct Cv as [Cv|Cv]; [|pose proof (Cv _ Ia); lra]. exfalso.
        assert (In mn (map fst nodes)) by apply (qmin_ok _ _ Mn). apply in_map_iff in H2 as (p & <- & Hp). pose proof (Cv _ Hp). lra. }
  split.
  - intros (a & b & c & Hc & T). exists a, b, c, (shown a), (shown b), (shown c). split; [exact Hc|]. repeat (split; [apply shown_on_map|]). now apply (K a b c).
  - intros (a & b & c & a' & b' & c' & Hc & A & B & C & T). apply on_map_fun in A, B, C. subst. exists a, b, c. split; auto. now apply (K a b c).
Qed.
Lemma query_parts locate nodes faces click mn : qmin (map fst nodes) = Ok mn -> Locates nodes faces locate ->
  let x := if Qle_bool 0 mn && negb (Qle_bool 0 (fst click)) then (fst click + 360)%Q else fst click in
  (locate (x, snd click) = None /\ index_query locate nodes faces click = Ok None) \/
  (exists i a b c row, locate (x, snd click) = Some i /\ nth_error faces i = Some row /\ Corners nodes faces i a b c /\ InTriangle (x, snd click) a b c /\
     index_query locate nodes faces click = Ok (Some (mkAnswer i row [shown a; shown b; shown c] click))).
Proof.
  intros Mn L x. unfold index_query. rewrite Mn. cbn [bind]. fold x. specialize (L (x, snd click)). destruct (locate (x, snd click)) as [i|]; [|auto].
  right. destruct L as (a & b & c & Hc & T). pose proof Hc as (u & v & w & Hr & A & B & C). exists i, a, b, c, [u; v; w]. rewrite Hr. cbn [mapM].
  rewrite (py_index_is _ _ _ A), (py_index_is _ _ _ B), (py_index_is _ _ _ C). cbn [bind]. auto.
Qed.
(** A face reported contains the point on the map, with the nodes of the face
    and their places on the map; a point in a face on the map is found. *)
Theorem c91_query_partial :
  forall locate nodes faces click, nodes <> [] -> Convention nodes -> Locates nodes faces locate -> (-180 < fst click <= 180)%Q ->
  (forall i, OneSide nodes faces i) ->
  (exists r, index_query locate nodes faces click = Ok r) /\
  (forall a, index_query locate nodes faces click = Ok (Some a) ->
     InDrawn nodes faces click (an_face a) /\ nth_error faces (an_face a) = Some (an_nodes a) /\ an_click a = click /\
     Forall2 (fun k q => exists p, IsNode nodes k p /\ OnMap p q) (an_nodes a) (an_coords a)) /\
  (forall i, InDrawn nodes faces click i -> exists a, index_query locate nodes faces click = Ok (Some a)).
Proof.
  intros locate nodes faces click N Cv L Ck OS. destruct (qmin_total (map fst nodes)) as (mn & Mn); [destruct nodes; [congruence|discriminate]|].
  pose proof (fun i => searched_iff nodes faces click i mn Cv Mn Ck (OS i)) as S. pose proof (L (if Qle_bool 0 mn && negb (Qle_bool 0 (fst click)) then (fst click + 360)%Q else fst click, snd click)) as L'.
  destruct (query_parts locate nodes faces click mn Mn L) as [(F & E)|(i & a & b & c & row & F & Hr & Hc & T & E)]; cbn zeta in F; rewrite F in L'.
  - rewrite E. split; [eauto|]. split; [discriminate|]. intros i Hi. apply S in Hi. destruct (L' _ Hi).
  - rewrite E. split; [eauto|]. split; [|eauto]. intros r [= <-]. cbn [an_face an_nodes an_coords an_click]. apply S in L'. repeat split; auto.
    destruct Hc as (u & v & w & Hr' & A & B & C). rewrite Hr in Hr'. injection Hr' as ->.
    repeat constructor; eexists; split; eauto using shown_on_map.
Qed.
Print Assumptions c91_query_partial.
(** Nothing is reported away from every face. *)
Theorem c91_outside :
  forall locate nodes faces click, nodes <> [] -> Convention nodes -> Locates nodes faces locate -> (-180 < fst click <= 180)%Q ->
  (forall i, OneSide nodes faces i) -> (forall i, ~ InDrawn nodes faces click i) -> index_query locate nodes faces click = Ok None.
Proof.
  intros locate nodes faces click N Cv L Ck OS No. destruct (c91_query_partial locate nodes faces click N Cv L Ck OS) as ((r & E) & A & _).
  destruct r as [a|]; [|exact E]. destruct (A _ E) as (I & _). destruct (No _ I).
Qed.
Print Assumptions c91_outside.

(** One face: the triangle at longitude [t]. *)
Definition tent (t : Q) : list point := [(t, 0); (t + 2, 0); (t + 1, 1)]%Q.
Definition find_tent (t : Q) (p : point) : option nat :=
  if Qle_bool 0 (snd p) && Qle_bool (snd p) (fst p - t) && Qle_bool (snd p) (t + 2 - fst p) then Some 0 else None.
Lemma tent_corners t more i a b c : Corners (tent t ++ more) [[0; 1; 2]%Z] i a b c <-> i = 0 /\ a = (t, 0%Q) /\ b = (t + 2, 0)%Q /\ c = (t + 1, 1)%Q.
Proof.
  split.
  - intros (x & y & z & E & (_ & A) & (_ & B) & (_ & C)). destruct i; [|destruct i; discriminate]. injection E as <- <- <-. cbn in A, B, C.
    injection A as <-. injection B as <-. injection C as <-. auto.
  - intros (-> & -> & -> & ->). exists 0%Z, 1%Z, 2%Z. unfold IsNode. cbn. repeat split; lia.
Qed.
Lemma tent_located t more : Locates (tent t ++ more) [[0; 1; 2]%Z] (find_tent t).
Proof.
  intros [x y]. unfold find_tent. cbn [fst snd]. destruct (Qle_bool 0 y && Qle_bool y (x - t) && Qle_bool y (t + 2 - x)) eqn:E.
  - rewrite !andb_true_iff, !Qle_bool_iff in E. destruct E as ((A & B) & C).
    exists (t, 0%Q), (t + 2, 0)%Q, (t + 1, 1)%Q. split; [now apply tent_corners|].
    exists (1 - (x - t - y) * (1 # 2) - y)%Q, ((x - t - y) * (1 # 2))%Q, y. cbn [fst snd]. repeat split; lra.
  - intros i (a & b & c & Hc & (u & v & w & Hu & Hv & Hw & S & X & Y)). apply tent_corners in Hc. destruct Hc as (_ & -> & -> & ->). cbn [fst snd] in X, Y.
    assert (U : (u == 1 - v - w)%Q) by lra. rewrite U in X.
    assert (X' : (x == t + 2 * v + w)%Q) by (rewrite X; ring).
    assert (Y' : (y == w)%Q) by (rewrite Y; ring).
    assert (T : Qle_bool 0 y && Qle_bool y (x - t) && Qle_bool y (t + 2 - x) = true); [|congruence].
    rewrite !andb_true_iff, !Qle_bool_iff. repeat split; lra.
Qed.
Lemma tent_drawn t more p u v w : (0 <= u -> 0 <= v -> 0 <= w -> u + v + w == 1 ->
  fst p == u * display t + v * display (t + 2) + w * display (t + 1) -> snd p == w -> InDrawn (tent t ++ more) [[0; 1; 2]%Z] p 0)%Q.
Proof.
  intros Hu Hv Hw S X Y. exists (t, 0%Q), (t + 2, 0)%Q, (t + 1, 1)%Q, (shown (t, 0%Q)), (shown (t + 2, 0)%Q), (shown (t + 1, 1)%Q).
  split; [now apply tent_corners|]. repeat (split; [apply shown_on_map|]). exists u, v, w. cbn [fst snd shown]. repeat split; auto. rewrite Y. ring.
Qed.
(** A face across the 180th meridian is drawn across the map and is not found there. *)
Theorem c91_straddling_refuted :
  exists locate nodes faces click i, Convention nodes /\ Locates nodes faces locate /\ (-180 < fst click <= 180)%Q /\
    InDrawn nodes faces click i /\ index_query locate nodes faces click = Ok None.
Proof.
  exists (find_tent 179), (tent 179 ++ []), [[0; 1; 2]%Z], (0, 0)%Q, 0. split; [|split; [apply tent_located|split; [cbn; lra|split; [|vm_compute; reflexivity]]]].
  - left. intros p Hp. cbn in Hp. destruct Hp as [<-|[<-|[<-|[]]]]; cbn [fst]; lra.
  - apply (tent_drawn _ _ _ (1 # 2) (1 # 2) 0); vm_compute; try congruence.
Qed.
Print Assumptions c91_straddling_refuted.
(** Nor is a face beyond 180 when another node has a negative longitude. *)
Theorem c91_mixed_refuted :
  exists locate nodes faces click i, OneSide nodes faces i /\ Locates nodes faces locate /\ (-180 < fst click <= 180)%Q /\
    InDrawn nodes faces click i /\ index_query locate nodes faces click = Ok None.
Proof.
  exists (find_tent 200), (tent 200 ++ [(-1, 0)%Q]), [[0; 1; 2]%Z], (-159, 0)%Q, 0. split; [|split; [apply tent_located|split; [cbn; lra|split; [|vm_compute; reflexivity]]]].
  - intros a b c Hc. apply tent_corners in Hc. destruct Hc as (_ & -> & -> & ->). right. cbn [fst]. repeat split; lra.
  - apply (tent_drawn _ _ _ (1 # 2) (1 # 2) 0); vm_compute; try congruence.
Qed.
Print Assumptions c91_mixed_refuted.
(** A node at 360 is drawn at 0 and looked for there. *)
Theorem c91_full_circle_refuted :
  exists locate nodes faces click i, (forall p, In p nodes -> 0 <= fst p <= 360)%Q /\ OneSide nodes faces i /\ Locates nodes faces locate /\ (-180 < fst click <= 180)%Q /\
    InDrawn nodes faces click i /\ index_query locate nodes faces click = Ok None.
Proof.
  exists (find_tent 358), (tent 358 ++ []), [[0; 1; 2]%Z], (0, 0)%Q, 0. split; [|split; [|split; [apply tent_located|split; [cbn; lra|split; [|vm_compute; reflexivity]]]]].
  - intros p Hp. cbn in Hp. destruct Hp as [<-|[<-|[<-|[]]]]; cbn [fst]; lra.
  - intros a b c Hc. apply tent_corners in Hc. destruct Hc as (_ & -> & -> & ->). right. cbn [fst]. repeat split; lra.
  - apply (tent_drawn _ _ _ 0 1 0); vm_compute; try congruence.
Qed.
Print Assumptions c91_full_circle_refuted.
(** The node numbers are those of the faces, counted from 0, not the Fortran
    numbers that the documentation names. *)
Theorem c91_fortran_refuted :
  exists locate nodes faces click a, Convention nodes /\ Locates nodes faces locate /\ index_query locate nodes faces click = Ok (Some a) /\ In 0%Z (an_nodes a).
Proof.
  exists (find_tent 10), (tent 10 ++ []), [[0; 1; 2]%Z], (11, 1 # 2)%Q. eexists.
  split; [|split; [apply tent_located|split; [vm_compute; reflexivity|now left]]].
  left. intros p Hp. cbn in Hp. destruct Hp as [<-|[<-|[<-|[]]]]; cbn [fst]; lra.
Qed.
Print Assumptions c91_fortran_refuted.
Example c91_example :
  index_query (find_tent 200) (tent 200) [[0; 1; 2]%Z] (-159, 1 # 2)%Q = Ok (Some (mkAnswer 0 [0; 1; 2]%Z [(-160, 0); (-158, 0); (-159, 1)]%Q (-159, 1 # 2)%Q)) /\
  index_query (find_tent 200) (tent 200) [[0; 1; 2]%Z] (-150, 1 # 2)%Q = Ok None /\
  index_query (find_tent 10) (tent 10) [[0; 1; 2]%Z] (11, 1 # 2)%Q = Ok (Some (mkAnswer 0 [0; 1; 2]%Z [(10, 0); (12, 0); (11, 1)]%Q (11, 1 # 2)%Q)) /\
  max_extent (tent 358) (1 # 2) = Ok (-6 # 2, 2 # 2, -1 # 2, 3 # 2)%Q.
Proof. vm_compute. repeat split; reflexivity. Qed.
