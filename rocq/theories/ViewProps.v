(** C112: what the mesh viewer draws. *)
From Coq Require Import String QArith Qfield.
From Verif Require Import Common CommonProofs DepthModel DepthProofs PlotModel InfoModel InfoProofs ViewModel ViewSpec.
Open Scope string_scope.
Open Scope list_scope.
Open Scope nat_scope.

Lemma numbered_nth {A} (l : list A) i : nth_error (numbered l) i = option_map (fun x => (i, x)) (nth_error l i).
Proof.
  unfold numbered. assert (G : forall (l : list A) s i, nth_error (combine (seq s (length l)) l) i = option_map (fun x => (s + i, x)) (nth_error l i)).
  { clear. induction l as [|a l IH]; intros s [|i]; [reflexivity..|cbn; now rewrite Nat.add_0_r|]. cbn [length seq combine nth_error]. rewrite IH. destruct (nth_error l i); [cbn; do 2 f_equal; lia|reflexivity]. }
  apply G.
Qed.
Lemma numbered_length {A} (l : list A) : length (numbered l) = length l.
Proof. unfold numbered. rewrite combine_length, seq_length. lia. Qed.
Lemma index_in (nodes : list point) i : (0 <= i < Z.of_nat (length nodes))%Z -> exists k p, i = Z.of_nat k /\ nth_error nodes k = Some p /\ py_index nodes i = Ok p.
Proof.
  intros H. exists (Z.to_nat i). destruct (nth_error nodes (Z.to_nat i)) as [p|] eqn:E; [|apply nth_error_None in E; lia]. exists p. split; [lia|]. split; [reflexivity|].
  unfold py_index. destruct (Z.ltb_spec i 0); [lia|]. cbn zeta. destruct (Z.ltb_spec i 0); [lia|]. now rewrite E.
Qed.
Lemma corners_in (nodes : list point) row : (forall i, In i row -> (0 <= i < Z.of_nat (length nodes))%Z) -> exists ps, corners_of nodes row = Ok ps /\ AtNodes nodes row ps.
Proof.
  induction row as [|i row IH]; intros H; [exists []; split; [reflexivity|constructor]|]. destruct IH as (ps & E & F); [intros; apply H; now right|].
  destruct (index_in nodes i (H i (or_introl eq_refl))) as (k & p & Ek & Hk & Ep). exists (p :: ps). unfold corners_of in *. cbn [mapM]. rewrite Ep. cbn [bind]. rewrite E. split; [reflexivity|]. constructor; [eauto|exact F].
Qed.
Lemma sum_minus (f : point -> Q) m ps : (qsum (map (fun p => f p - m) ps) == qsum (map f ps) - inject_Z (Z.of_nat (length ps)) * m)%Q.
Proof.
  induction ps as [|p ps IH]; [cbn; ring|]. cbn [map qsum fold_right length]. unfold qsum in IH. rewrite IH. rewrite Nat2Z.inj_succ. unfold Z.succ. rewrite inject_Z_plus. ring.
Qed.
Lemma middle_balanced ps : ps <> [] -> Balanced ps (middle ps).
Proof.
  intros N. assert (P : ~ (inject_Z (Z.of_nat (length ps)) == 0)%Q). { destruct ps; [contradiction|]. cbn [length]. rewrite Nat2Z.inj_succ. intros E. unfold Qeq in E. cbn in E. lia. }
  unfold Balanced, middle. cbn [fst snd]. assert (F : forall x n, ~ (n == 0)%Q -> (x - n * (x / n) == 0)%Q) by (intros; field; assumption). split; [rewrite (sum_minus fst)|rewrite (sum_minus snd)]; apply F, P.
Qed.
Lemma rows_drawn labels polygon nodes rows : RowsFit (length nodes) rows -> exists ds, draw_rows labels polygon nodes rows = Ok ds /\ RowsDrawn labels polygon nodes rows ds.
Proof.
  intros H. destruct rows as [l|]; [|exists []; split; reflexivity]. cbn [draw_rows RowsDrawn].
  destruct (mapM_rows_in (draw_row labels polygon nodes) (fun ix d => RowDrawn labels polygon nodes (fst ix) (snd ix) d) (numbered l)) as (parts & E & L & K).
  { intros [i row] I. apply In_nth_error in I. destruct I as (j & I). rewrite numbered_nth in I. destruct (nth_error l j) as [r|] eqn:Ej; [|discriminate]. injection I as -> ->. apply nth_error_In in Ej.
    destruct (H l row eq_refl Ej) as [N B]. destruct (corners_in nodes row B) as (ps & Ep & At). unfold draw_row. cbn [fst snd]. rewrite Ep. cbn [bind]. eexists. split; [reflexivity|].
    exists ps, (middle ps). split; [exact At|]. split; [|reflexivity]. apply middle_balanced. intros ->. inversion At. subst. now apply N. }
  rewrite E. cbn [bind]. eexists. split; [reflexivity|]. exists parts. split; [reflexivity|]. split; [rewrite L; apply numbered_length|].
  intros i row Hi. destruct (K i (i, row)) as (d & Hd & R); [rewrite numbered_nth, Hi; reflexivity|]. eauto.
Qed.
(** Every face, then every edge, then the nodes; whatever was drawn before. *)
Theorem c112_drawn : forall labels nodes faces edges, RowsFit (length nodes) faces -> RowsFit (length nodes) edges ->
  exists f e ts, draw_ugrid labels nodes faces edges = Ok (f ++ e ++ ts ++ [PointSet nodes]) /\
    RowsDrawn labels true nodes faces f /\ RowsDrawn labels false nodes edges e /\
    (labels = false -> ts = []) /\
    (labels = true -> length ts = length nodes /\ forall i p, nth_error nodes i = Some p -> nth_error ts i = Some (Text (decimal i) p false)).
Proof.
  intros labels nodes faces edges Hf He. destruct (rows_drawn labels true nodes faces Hf) as (f & Ef & Rf). destruct (rows_drawn labels false nodes edges He) as (e & Ee & Re).
  exists f, e, (if labels then map (fun ip => Text (decimal (fst ip)) (snd ip) false) (numbered nodes) else []). split; [unfold draw_ugrid; rewrite Ef; cbn [bind]; rewrite Ee; reflexivity|].
  split; [exact Rf|]. split; [exact Re|]. split; [now intros ->|]. intros ->. split; [rewrite map_length; apply numbered_length|]. intros i p H. rewrite nth_error_map, numbered_nth, H. reflexivity.
Qed.
Print Assumptions c112_drawn.

(** Labels are different for different nodes. *)
Theorem c112_labels : forall i j, decimal i = decimal j -> i = j.
Proof. exact decimal_inj. Qed.
Print Assumptions c112_labels.

(** When it fails: a node number that is not one of the mesh, counted from either
    end. *)
Lemma index_ok {A} (l : list A) i : (exists x, py_index l i = Ok x) <-> (- Z.of_nat (length l) <= i < Z.of_nat (length l))%Z.
Proof.
  unfold py_index. cbn zeta. destruct (Z.ltb_spec i 0) as [H|H].
  - destruct (Z.ltb_spec (i + Z.of_nat (length l)) 0) as [G|G]; [split; [intros (x & E); discriminate|lia]|].
    destruct (nth_error l (Z.to_nat (i + Z.of_nat (length l)))) as [x|] eqn:E; [split; [lia|eauto]|]. apply nth_error_None in E. lia.
  - destruct (Z.ltb_spec i 0); [lia|]. destruct (nth_error l (Z.to_nat i)) as [x|] eqn:E.
    + assert (nth_error l (Z.to_nat i) <> None) by congruence. apply nth_error_Some in H1. split; [lia|eauto].
    + apply nth_error_None in E. split; [intros (x & D); discriminate|lia].
Qed.
Lemma mapM_all {A B} (f : A -> result B) l : (exists ys, mapM f l = Ok ys) <-> forall x, In x l -> exists y, f x = Ok y.
Proof.
  split.
  - intros (ys & E) x I. destruct (mapM_ok _ _ _ E) as [_ K]. apply In_nth_error in I. destruct I as (k & I). destruct (K k x I) as (y & _ & Y). eauto.
  - intros H. destruct (mapM_rows_in f (fun _ _ => True) l) as (ys & E & _); [intros x I; destruct (H x I); eauto|eauto].
Qed.
Lemma rows_ok labels polygon nodes rows : (exists ds, draw_rows labels polygon nodes rows = Ok ds) <->
  forall l row i, rows = Some l -> In row l -> In i row -> (- Z.of_nat (length nodes) <= i < Z.of_nat (length nodes))%Z.
Proof.
  destruct rows as [l|]; cbn [draw_rows]; [|split; [intros _ ? ? ? E; discriminate|eauto]].
  assert (X : (exists ds, (do d <- mapM (draw_row labels polygon nodes) (numbered l); Ok (concat d)) = Ok ds) <-> exists ds, mapM (draw_row labels polygon nodes) (numbered l) = Ok ds).
  { destruct (mapM _ _) as [d|x]; cbn [bind]; split; intros (ds & E); try discriminate; eauto. }
  rewrite X, mapM_all. split.
  - intros H l' row i E I J. injection E as <-. apply In_nth_error in I. destruct I as (k & I). destruct (H (k, row)) as (d & Ed); [apply nth_error_In with k; now rewrite numbered_nth, I|].
    unfold draw_row in Ed. cbn [snd fst] in Ed. apply bind_ok in Ed. destruct Ed as (ps & Ep & _). apply index_ok. unfold corners_of in Ep. assert (Y : exists ys, mapM (py_index nodes) row = Ok ys) by eauto. rewrite mapM_all in Y. auto.
  - intros H [k row] I. apply In_nth_error in I. destruct I as (j & I). rewrite numbered_nth in I. destruct (nth_error l j) as [r|] eqn:Ej; [|discriminate]. injection I as -> ->. apply nth_error_In in Ej.
    assert (Y : exists ys, mapM (py_index nodes) row = Ok ys) by (rewrite mapM_all; intros i J; apply index_ok; eauto). destruct Y as (ys & Y). unfold draw_row, corners_of. cbn [snd fst]. rewrite Y. cbn [bind]. eauto.
Qed.
Theorem c112_fails : forall labels nodes faces edges,
  (exists ds, draw_ugrid labels nodes faces edges = Ok ds) <->
  (forall rows l row i, rows = faces \/ rows = edges -> rows = Some l -> In row l -> In i row -> (- Z.of_nat (length nodes) <= i < Z.of_nat (length nodes))%Z).
Proof.
  intros labels nodes faces edges. unfold draw_ugrid. split.
  - intros (ds & E). apply bind_ok in E. destruct E as (f & Ef & E). apply bind_ok in E. destruct E as (e & Ee & _). intros rows l row i [-> | ->] El I J.
    + exact (proj1 (rows_ok labels true nodes faces) (ex_intro _ f Ef) l row i El I J).
    + exact (proj1 (rows_ok labels false nodes edges) (ex_intro _ e Ee) l row i El I J).
  - intros H. assert (F : exists f, draw_rows labels true nodes faces = Ok f) by (apply rows_ok; intros l row i E; exact (H faces l row i (or_introl eq_refl) E)). assert (E : exists e, draw_rows labels false nodes edges = Ok e) by (apply rows_ok; intros l row i E; exact (H edges l row i (or_intror eq_refl) E)).
    destruct F as (f & ->). destruct E as (e & ->). cbn [bind]. eauto.
Qed.
Print Assumptions c112_fails.

(** A face padded with -1 is drawn with the last node of the mesh as a corner,
    and its number is out of the middle. *)
Theorem c112_padding_refuted : forall labels nodes row edges p q, row <> [] -> (forall i, In i row -> (0 <= i < Z.of_nat (length nodes))%Z) -> nodes = p ++ [q] ->
  edges = None -> exists ps ds, AtNodes nodes row ps /\ draw_ugrid labels nodes (Some [row ++ [(-1)%Z]]) edges = Ok (Polygon (ps ++ [q]) :: ds).
Proof.
  intros labels nodes row edges p q N B -> ->. destruct (corners_in (p ++ [q]) row B) as (ps & E & At). exists ps.
  assert (L : py_index (p ++ [q]) (-1) = Ok q).
  { unfold py_index. cbn zeta. change (-1 <? 0)%Z with true. cbn iota. rewrite app_length. cbn [length]. destruct (Z.ltb_spec (-1 + Z.of_nat (length p + 1)) 0); [lia|].
    replace (Z.to_nat (-1 + Z.of_nat (length p + 1))) with (length p) by lia. rewrite nth_error_app2, Nat.sub_diag by lia. reflexivity. }
  assert (C : corners_of (p ++ [q]) (row ++ [(-1)%Z]) = Ok (ps ++ [q])).
  { clear - E L. unfold corners_of in *. revert ps E. induction row as [|i row IH]; intros ps E; cbn [mapM app] in *; [injection E as <-; rewrite L; reflexivity|].
    apply bind_ok in E. destruct E as (x & Ex & E). apply bind_ok in E. destruct E as (xs & Exs & E). injection E as <-. rewrite Ex. cbn [bind]. rewrite (IH xs Exs). reflexivity. }
  eexists. split; [exact At|]. unfold draw_ugrid. cbn [draw_rows numbered length seq combine mapM]. unfold draw_row at 1. cbn [fst snd]. rewrite C. cbn [bind concat app]. reflexivity.
Qed.
Print Assumptions c112_padding_refuted.

Example c112_example : exists m,
  draw_ugrid true [(0, 0); (3, 0); (0, 3)]%Q (Some [[0; 1; 2]]%Z) None =
    Ok [Polygon [(0, 0); (3, 0); (0, 3)]%Q; Text "0" m true; Text "0" (0, 0)%Q false; Text "1" (3, 0)%Q false; Text "2" (0, 3)%Q false; PointSet [(0, 0); (3, 0); (0, 3)]%Q] /\
  (fst m == 1)%Q /\ (snd m == 1)%Q.
Proof. eexists. split; [vm_compute; reflexivity|]. split; reflexivity. Qed.
Example c112_padding_example : exists ds, draw_ugrid false [(0, 0); (3, 0); (0, 3); (9, 9)]%Q (Some [[0; 1; 2; -1]]%Z) None = Ok (Polygon [(0, 0); (3, 0); (0, 3); (9, 9)]%Q :: ds).
Proof. eexists. reflexivity. Qed.
