(** C103: grid objects and the arrays they are given. *)
From Verif Require Import Common CommonProofs DepthModel DepthProofs UGridModel UGridSpec UGridProofs UGridProps UGridGeomModel UObjModel UObjSpec UObjProofs.
Open Scope list_scope.
Open Scope nat_scope.

(** Arrays handed over at most once: grids are as if they had copied them when
    they were handed over, and do not see one another. *)
Theorem c103_own_tables_partial : forall h0 pre a post h gs h1 gs1 e h2 gs2,
  NoDup (flat_map arrays (pre ++ New a :: post)) -> (forall i, In i (flat_map arrays (pre ++ New a :: post)) -> i < length h0) ->
  wrun (h0, []) pre = (h, gs) -> wstep (h, gs) (New a) = ((h1, gs1), e) -> wrun (h1, gs1) post = (h2, gs2) ->
  (e = None <-> exists v, Made h0 a v) /\
  (forall v, Made h0 a v -> exists g, nth_error gs2 (length gs) = Some g /\ Evolves h0 (length gs) v post (shown h2 g)).
Proof. exact independent. Qed.
Print Assumptions c103_own_tables_partial.

(** Making a second grid on the same faces changes the first. *)
Definition tri : list pt := [((0, 0)%Q); (1, 0)%Q; (0, 1)%Q].
Definition quad : list pt := tri ++ [(1, 1)%Q].
Definition given_faces (n : list pt) (f : given) : args := mkArgs (Some n) None None f Nothing Nothing Nothing Nothing None None None.
Theorem c103_shared_refuted : exists h0 pre a h gs h' gs' g,
  wrun (h0, []) pre = (h, gs) /\ wstep (h, gs) (New a) = ((h', gs'), None) /\
  nth_error gs 0 = Some g /\ nth_error gs' 0 = Some g /\
  gr_faces (shown h g) = Some [[1; 2; 3]]%Z /\ gr_faces (shown h' g) = Some [[0; 1; 2]]%Z.
Proof.
  exists [[[1; 2; 3]]%Z], [New (given_faces quad (Array 0))], (given_faces tri (Array 0)).
  do 5 eexists. repeat split; reflexivity.
Qed.
Print Assumptions c103_shared_refuted.
(** The caller's own array is changed by the assignment... *)
Theorem c103_caller_array_refuted : exists h a h' gs',
  wstep (h, []) (New a) = ((h', gs'), None) /\ read h 0 = [[1; 2; 3]]%Z /\ read h' 0 = [[0; 1; 2]]%Z.
Proof. exists [[[1; 2; 3]]%Z], (given_faces tri (Array 0)). do 2 eexists. repeat split; reflexivity. Qed.
Print Assumptions c103_caller_array_refuted.
(** ...and what the caller does to it later shows in the grid, unchecked. *)
Theorem c103_edited_refuted : exists h a h1 gs1 h2 g,
  wstep (h, []) (New a) = ((h1, gs1), None) /\ wrun (h1, gs1) [Edit 0 [[7; 8; 9]]%Z] = (h2, [g]) /\ ~ Fits (shown h2 g).
Proof.
  exists [[[0; 1; 2]]%Z], (given_faces tri (Array 0)). do 4 eexists. split; [reflexivity|]. split; [reflexivity|].
  intros [F _]. specialize (F _ 7%Z eq_refl). cbn in F. specialize (F (or_introl eq_refl)). lia.
Qed.
Print Assumptions c103_edited_refuted.

(** An operation that raises changes nothing; a constructor that raises, at
    most the array given as faces. *)
Theorem c103_failed : forall h gs o h' gs' e, wstep (h, gs) o = ((h', gs'), Some e) ->
  gs' = gs /\ length h <= length h' /\
  (forall i, i < length h -> (forall a, o = New a -> ar_faces a <> Array i) -> read h' i = read h i).
Proof.
  intros h gs [a|k p|i t] h' gs' e E.
  - destruct (failed_new _ _ _ _ _ _ E) as (-> & L & R). repeat split; auto.
  - apply failed_on in E. injection E as -> ->. repeat split; auto.
  - discriminate.
Qed.
Print Assumptions c103_failed.
Theorem c103_failed_new_refuted : exists h a h',
  wstep (h, []) (New a) = ((h', []), Some ValueError) /\ read h 0 = [[1; 2; 3]]%Z /\ read h' 0 = [[0; 1; 2]]%Z.
Proof.
  exists [[[1; 2; 3]]%Z],
    (mkArgs (Some tri) None None (Array 0) Nothing Nothing (Alike [[-1; -1]]%Z) Nothing None None None).
  eexists. repeat split; reflexivity.
Qed.
Print Assumptions c103_failed_new_refuted.

(** Nodes are given as one array or as two, not both; the two are as long. *)
Theorem c103_nodes : forall h gs a,
  (forall n, ar_nodes a = Some n -> ar_lon a <> None \/ ar_lat a <> None -> wstep (h, gs) (New a) = ((h, gs), Some TypeError)) /\
  (forall x y, ar_nodes a = None -> ar_lon a = Some x -> ar_lat a = Some y -> length x <> length y ->
     wstep (h, gs) (New a) = ((h, gs), Some ValueError)) /\
  (forall h' gs' n g, wstep (h, gs) (New a) = ((h', gs'), None) -> NodesGiven a n -> nth_error gs' (length gs) = Some g ->
     gr_nodes g = match n with Some l => l | None => [] end).
Proof.
  intros h gs a. split; [|split].
  - intros n N X. cbn [wstep]. unfold args_nodes. rewrite N. destruct (ar_lon a), (ar_lat a); try reflexivity. destruct X; congruence.
  - intros x y N X Y L. cbn [wstep]. unfold args_nodes. rewrite N, X, Y. destruct (Nat.eqb_spec (length x) (length y)); [contradiction|reflexivity].
  - intros h' gs' n g E Gn Hg. apply args_nodes_iff in Gn. cbn [wstep] in E. rewrite Gn in E.
    destruct (until_error h empty_grid (assignments n a)) as [[h1 g1] e1] eqn:U. destruct e1; [discriminate|].
    injection E as <- <-. rewrite nth_last in Hg. injection Hg as <-.
    assert (K : forall ops h g h' g', Forall (fun o => IsAssign o /\ forall n, o <> SetNodes n) ops ->
      until_error h g ops = ((h', g'), None) -> gr_nodes g' = gr_nodes g).
    { clear. induction ops as [|o ops IH]; intros h g h' g' As E; cbn [until_error] in E.
      - injection E as _ <-. reflexivity.
      - inversion As as [|? ? [A N] As']; subst. destruct (hstep h g o) as [[h1 g1] e1] eqn:S1. destruct e1; [discriminate|].
        rewrite (IH _ _ _ _ As' E). clear - S1 A N.
        destruct o as [n| |s a|s|c|c|c| | |]; cbn in A; try contradiction; cbn [hstep] in S1; try (injection S1 as _ <-; destruct g; reflexivity).
        + destruct (N n eq_refl).
        + destruct a as [|t|i].
          * injection S1 as _ <-. destruct g, s; reflexivity.
          * destruct (check s (shown h g) t); [|discriminate]. injection S1 as _ <-. destruct g, s; reflexivity.
          * destruct (check s (shown h g) (read h i)); [|discriminate]. injection S1 as _ <-. destruct g, s; reflexivity. }
    change (assignments n a) with (SetNodes n :: tl (assignments n a)) in U. cbn [until_error hstep] in U.
    rewrite (K (tl (assignments n a)) _ _ _ _ ltac:(repeat constructor; discriminate) U). reflexivity.
Qed.
Print Assumptions c103_nodes.
(** Longitudes without latitudes are dropped without a word. *)
Theorem c103_half_refuted : exists a h' g, ar_lon a = Some [1; 2; 3]%Q /\
  wstep ([], []) (New a) = ((h', [g]), None) /\ gr_nodes g = [].
Proof. exists (mkArgs None (Some [1; 2; 3]%Q) None Nothing Nothing Nothing Nothing Nothing None None None). do 2 eexists. repeat split; reflexivity. Qed.
Print Assumptions c103_half_refuted.

(** With arrays of its own, a grid's tables fit its nodes and faces as long as
    nodes and faces are not taken away from under other tables. *)
Theorem c103_fits_partial : forall h0 pre a post h gs h1 gs1 h2 gs2,
  NoDup (flat_map arrays (pre ++ New a :: post)) -> (forall i, In i (flat_map arrays (pre ++ New a :: post)) -> i < length h0) ->
  wrun (h0, []) pre = (h, gs) -> wstep (h, gs) (New a) = ((h1, gs1), None) -> wrun (h1, gs1) post = (h2, gs2) ->
  (forall p1 p p2 hh gg g, post = p1 ++ On (length gs) p :: p2 -> wrun (h1, gs1) p1 = (hh, gg) ->
     nth_error gg (length gs) = Some g -> Careful (shown hh g) p) ->
  exists g, nth_error gs2 (length gs) = Some g /\ Fits (shown h2 g).
Proof. exact fits_always. Qed.
Print Assumptions c103_fits_partial.
(** Otherwise not: fewer nodes under the faces, other faces under their
    neighbours, no nodes but neighbours. *)
Theorem c103_fits_refuted : exists a,
  let run ops := wrun ([], []) (New a :: map (On 0) ops) in
  forall ops, In ops [[SetNodes (Some tri)]; [BuildFF; Set_ Faces (Alike [[0; 1; 2]; [1; 2; 3]; [0; 2; 3]])]; [BuildFF; DelNodes]]%Z ->
  exists h g, run ops = (h, [g]) /\ ~ Fits (shown h g).
Proof.
  exists (given_faces quad (Alike [[0; 1; 2]; [1; 2; 3]]%Z)). cbn zeta.
  intros ops [<-|[<-|[<-|[]]]]; do 2 eexists; (split; [reflexivity|]).
  - intros [F _]. specialize (F _ 3%Z eq_refl). cbn in F. assert (3 < 3)%Z; [|lia]. apply F. auto 10.
  - intros [_ F]. destruct (F FF _ (or_introl eq_refl) eq_refl) as (f & Hf & L & _). cbn in Hf. injection Hf as <-. discriminate L.
  - intros [_ F]. destruct (F FF _ (or_introl eq_refl) eq_refl) as (f & Hf & _). discriminate Hf.
Qed.
Print Assumptions c103_fits_refuted.

(** What the deleters take away, exactly. *)
Theorem c103_deleters : forall (g : grid rows),
  (let d := delete Faces g in gr_faces d = None /\ gr_ff d = None /\ gr_fe d = None /\ gr_edge_c d = None /\
     gr_nodes d = gr_nodes g /\ gr_edges d = gr_edges g /\ gr_bounds d = gr_bounds g /\ gr_face_c d = gr_face_c g /\ gr_bound_c d = gr_bound_c g) /\
  (let d := delete Edges g in gr_edges d = None /\ gr_fe d = None /\ gr_edge_c d = None /\
     gr_nodes d = gr_nodes g /\ gr_faces d = gr_faces g /\ gr_ff d = gr_ff g /\ gr_bounds d = gr_bounds g /\ gr_face_c d = gr_face_c g /\ gr_bound_c d = gr_bound_c g) /\
  (let d := delete Bounds g in gr_bounds d = None /\ gr_bound_c d = None /\
     gr_nodes d = gr_nodes g /\ gr_faces d = gr_faces g /\ gr_ff d = gr_ff g /\ gr_fe d = gr_fe g /\ gr_edges d = gr_edges g /\ gr_face_c d = gr_face_c g /\ gr_edge_c d = gr_edge_c g) /\
  (let d := delete_nodes g in gr_nodes d = [] /\ gr_faces d = None /\ gr_edges d = None /\ gr_bounds d = None /\
     gr_ff d = gr_ff g /\ gr_fe d = gr_fe g /\ gr_face_c d = gr_face_c g /\ gr_edge_c d = gr_edge_c g /\ gr_bound_c d = gr_bound_c g) /\
  delete FF g = put FF None g /\ delete FE g = put FE None g.
Proof. intros []. repeat split. Qed.
Print Assumptions c103_deleters.
(** "If there are no nodes, there can't be anything else": there can. *)
Theorem c103_del_nodes_refuted : exists a h g,
  wrun ([], []) [New a; On 0 BuildFF; On 0 DelNodes] = (h, [g]) /\
  gr_nodes (shown h g) = [] /\ gr_ff (shown h g) <> None /\ gr_face_c (shown h g) <> None.
Proof.
  exists (mkArgs (Some tri) None None (Alike [[0; 1; 2]]%Z) Nothing Nothing Nothing Nothing None (Some [(1 # 3, 1 # 3)%Q]) None).
  do 2 eexists. repeat split; discriminate.
Qed.
Print Assumptions c103_del_nodes_refuted.
(** Deleting the faces takes the coordinates of the edges, which stay, and
    leaves those of the faces, which go. *)
Theorem c103_del_faces_refuted : exists a h g,
  wrun ([], []) [New a; On 0 (Del Faces)] = (h, [g]) /\ ar_edge_c a <> None /\
  gr_edges (shown h g) <> None /\ gr_edge_c (shown h g) = None /\
  gr_faces (shown h g) = None /\ gr_face_c (shown h g) <> None.
Proof.
  exists (mkArgs (Some tri) None None (Alike [[0; 1; 2]]%Z) (Alike [[0; 1]]%Z) Nothing Nothing Nothing
            (Some [(1 # 2, 0)%Q]) (Some [(1 # 3, 1 # 3)%Q]) None).
  do 2 eexists. repeat split; discriminate.
Qed.
Print Assumptions c103_del_faces_refuted.

(** The lines: one for each edge, from its nodes in order; the edges are made
    from the faces, and kept, when there are none. *)
Theorem c103_lines_partial : forall g es, gr_edges g = Some es ->
  (forall r x, In r es -> In x r -> (0 <= x < Z.of_nat (length (gr_nodes g)))%Z) ->
  exists L, lines g = (g, Ok L) /\
    Forall2 (fun r l => Forall2 (fun x p => nth_error (gr_nodes g) (Z.to_nat x) = Some p) r l) es L.
Proof.
  intros g es E H. rewrite (lines_of _ _ E).
  enough (exists L, mapM (fun r => mapM (py_get (gr_nodes g)) r) es = Ok L /\
    Forall2 (fun r l => Forall2 (fun x p => nth_error (gr_nodes g) (Z.to_nat x) = Some p) r l) es L) as (L & EL & F).
  { exists L. split; [exact (f_equal (pair g) EL)|exact F]. }
  clear E. induction es as [|r es IH].
  - exists []. split; [reflexivity|constructor].
  - destruct IH as (L & E & F). { intros r' x Hr. apply H. right. exact Hr. }
    assert (R : exists l, mapM (py_get (gr_nodes g)) r = Ok l /\ Forall2 (fun x p => nth_error (gr_nodes g) (Z.to_nat x) = Some p) r l).
    { specialize (H r). assert (Hr : forall x, In x r -> (0 <= x < Z.of_nat (length (gr_nodes g)))%Z) by (intros; apply H; auto; left; auto).
      clear - Hr. induction r as [|x r IH].
      - exists []. split; [reflexivity|constructor].
      - destruct IH as (l & E & F); [intros; apply Hr; right; auto|].
        assert (0 <= x < Z.of_nat (length (gr_nodes g)))%Z as B by (apply Hr; left; auto).
        destruct (nth_error (gr_nodes g) (Z.to_nat x)) as [p|] eqn:N.
        2:{ apply nth_error_None in N. lia. }
        exists (p :: l). cbn [mapM]. replace x with (Z.of_nat (Z.to_nat x)) at 1 by lia. rewrite (py_get_nat _ _ _ N). cbn [bind]. rewrite E.
        split; [reflexivity|constructor; auto]. }
    destruct R as (l & El & Fl). exists (l :: L). cbn [mapM]. rewrite El. cbn [bind]. rewrite E. split; [reflexivity|constructor; auto].
Qed.
Print Assumptions c103_lines_partial.
Theorem c103_lines_of_faces_partial : forall nv g f, gr_edges g = None -> gr_faces g = Some f -> Rect nv f ->
  (forall x, In x (concat f) -> (0 <= x < Z.of_nat (length (gr_nodes g)))%Z) ->
  exists es L, lines g = (put Edges (Some es) g, Ok L) /\
    Forall2 (fun r l => Forall2 (fun x p => nth_error (gr_nodes g) (Z.to_nat x) = Some p) r l) es L /\
    (forall r, In r es -> exists p a b c d, r = [a; b] /\ Side f p c d /\ SameEnds a b c d) /\
    (forall p a b, Side f p a b -> exists c d, In [c; d] es /\ SameEnds a b c d) /\ NoDup es.
Proof.
  intros nv g f E F R H.
  set (es := map edge_row (build_edges f)). set (g' := put Edges (Some es) g).
  assert (N : gr_nodes g' = gr_nodes g) by (destruct g; reflexivity).
  assert (Sd : forall r, In r es -> exists p a b c d, r = [a; b] /\ Side f p c d /\ SameEnds a b c d).
  { intros r Hr. apply in_map_iff in Hr. destruct Hr as ([a b] & <- & Hab).
    destruct (c20_edges_are_sides _ _ _ _ R Hab) as (p & c & d & S1 & S2). exists p, a, b, c, d. auto. }
  assert (In_f : forall p c d, Side f p c d -> In c (concat f) /\ In d (concat f)).
  { intros p c d (row & R1 & R2 & R3). split; apply in_concat; exists row; split; eapply nth_error_In; eauto. }
  destruct (c103_lines_partial g' es) as (L & EL & FL).
  { destruct g; reflexivity. }
  { intros r x Hr Hx. rewrite N. destruct (Sd _ Hr) as (p & a & b & c & d & -> & S1 & S2).
    destruct (In_f _ _ _ S1) as [Ic Id]. cbn in Hx.
    destruct S2 as [[-> ->]|[-> ->]]; destruct Hx as [<-|[<-|[]]]; apply H; assumption. }
  exists es, L. rewrite N in FL. split; [|split; [exact FL|split; [exact Sd|split]]].
  - etransitivity; [|exact EL]. subst g' es. destruct g as [n0 f0 e0 b ff fe ec fc bc]. cbn in E, F. subst f0 e0. reflexivity.
  - intros p a b S1. destruct (c20_every_side_is_listed _ _ R _ _ _ S1) as (c & d & I1 & S2). exists c, d. split; auto.
    apply in_map_iff. exists (c, d). auto.
  - apply FinFun.Injective_map_NoDup; [|apply (c20_no_duplicates _ _ R)]. intros [a b] [c d] [= -> ->]. reflexivity.
Qed.
Print Assumptions c103_lines_of_faces_partial.
(** Without faces there is one line, through all the nodes; and faces with
    fewer nodes draw a line to the last node. *)
Theorem c103_lines_refuted :
  (exists g, gr_edges g = None /\ gr_faces g = None /\ lines g = (g, Ok [quad])) /\
  (exists g g' L, gr_nodes g = quad ++ [(9, 9)%Q] /\ gr_faces g = Some [[0; 1; 2; -1]; [0; 2; 3; 4]]%Z /\ Fits g /\
     lines g = (g', Ok L) /\ In [(9, 9); (0, 1)]%Q L).
Proof.
  split.
  - exists (mkGrid quad None None None None None None None None). repeat split.
  - exists (mkGrid (quad ++ [(9, 9)%Q]) (Some [[0; 1; 2; -1]; [0; 2; 3; 4]]%Z) None None None None None None None).
    do 2 eexists. split; [reflexivity|]. split; [reflexivity|]. split; [|split; [vm_compute; reflexivity|cbn; auto 10]].
    split.
    + intros f x [= <-]. cbn. intros K. repeat destruct K as [<-|K]; try lia.
    + intros s t [-> | ->]; discriminate.
Qed.
Print Assumptions c103_lines_refuted.

(** The builders on a grid without faces: no neighbours, the edges are dropped,
    and boundaries only from a table of neighbours in which nothing is missing
    (there are none then). *)
Theorem c103_without_faces : forall h gs k g, nth_error gs k = Some g -> gr_faces g = None ->
  wstep (h, gs) (On k BuildFF) = ((h, gs), Some AttributeError) /\
  (exists g', wstep (h, gs) (On k BuildEdges) = ((h, replace gs k g'), None) /\ gr_edges g' = None /\ gr_nodes g' = gr_nodes g /\ gr_faces g' = None /\
     gr_bounds g' = gr_bounds g /\ gr_ff g' = gr_ff g /\ gr_fe g' = gr_fe g) /\
  match option_map (read h) (gr_ff g) with
  | None => wstep (h, gs) (On k BuildBounds) = ((h, gs), Some AttributeError)
  | Some t => ((exists r, In r t /\ In (-1)%Z r) -> wstep (h, gs) (On k BuildBounds) = ((h, gs), Some TypeError)) /\
              ((forall r, In r t -> ~ In (-1)%Z r) -> exists g', wstep (h, gs) (On k BuildBounds) = ((h ++ [[]], replace gs k g'), None) /\
                 gr_bounds (shown (h ++ [[]]) g') = Some [] /\ gr_edges g' = gr_edges g /\ gr_ff g' = gr_ff g)
  end.
Proof.
  intros h gs k [n f e b ff fe ec fc bc] G NF. cbn [gr_faces] in NF. subst f.
  assert (Same : replace gs k (mkGrid n None e b ff fe ec fc bc) = gs).
  { revert k G. clear. induction gs as [|x gs IH]; intros [|k] G; cbn in *; try discriminate; [injection G as <-; reflexivity|f_equal; auto]. }
  split; [|split].
  - cbn [wstep]. rewrite G. cbn [hstep built shown gmap gr_faces option_map fst snd fold_left]. rewrite Same. reflexivity.
  - eexists. cbn [wstep]. rewrite G. split; [reflexivity|]. repeat split.
  - cbn [gr_ff]. destruct ff as [i|]; cbn [option_map].
    + split.
      * intros (r & Ir & I1). cbn [wstep]. rewrite G. cbn [hstep built shown gmap gr_faces gr_ff option_map fst snd].
        assert (X : existsb (existsb (Z.eqb (-1))) (read h i) = true) by (apply existsb_exists; exists r; split; [exact Ir|]; apply existsb_exists; exists (-1)%Z; split; [exact I1|reflexivity]).
        rewrite X. cbn [fst snd fold_left]. rewrite Same. reflexivity.
      * intros No. cbn [wstep]. rewrite G. cbn [hstep built shown gmap gr_faces gr_ff option_map fst snd].
        assert (X : existsb (existsb (Z.eqb (-1))) (read h i) = false).
        { apply Bool.not_true_is_false. intros X. apply existsb_exists in X. destruct X as (r & Ir & X). apply existsb_exists in X. destruct X as (z & Iz & X). apply Z.eqb_eq in X. subst z. exact (No r Ir Iz). }
        rewrite X. cbn [fst snd fold_left store put]. eexists. split; [reflexivity|]. cbn [shown gmap gr_bounds option_map gr_edges gr_ff].
        split; [|split; reflexivity]. f_equal. unfold read. rewrite nth_middle. reflexivity.
    + cbn [wstep]. rewrite G. cbn [hstep built shown gmap gr_faces gr_ff option_map fst snd fold_left]. rewrite Same. reflexivity.
Qed.
Print Assumptions c103_without_faces.

(** Two grids made from arrays of their own, one renumbered; the neighbours of
    one are built, the other's faces are deleted. *)
Example c103_example :
  let h0 := [[[1; 2; 3]; [2; 3; 4]]%Z; [[0; 1; 2]]%Z] in
  let ops := [New (given_faces quad (Array 0)); New (given_faces tri (Array 1)); On 0 BuildFF; On 1 (Del Faces)] in
  let w := wrun (h0, []) ops in
  NoDup (flat_map arrays ops) /\
  map (fun g => (gr_faces (shown (fst w) g), gr_ff (shown (fst w) g))) (snd w) =
    [(Some [[0; 1; 2]; [1; 2; 3]], Some [[-1; 1; -1]; [0; -1; -1]]); (None, None)]%Z.
Proof.
  cbn zeta. split; [|vm_compute; reflexivity].
  repeat constructor; cbn; intuition discriminate.
Qed.
