(** Lemmas about drawing grids. *)
From Coq Require Import QArith Lqa.
From Verif Require Import Common CommonProofs MaskModel DepthModel DepthProofs UGridModel UGridSpec UGridProofs SGridModel SGridProofs NLoadModel NLoadSpec NLoadProofs PlotModel PlotSpec.
Open Scope nat_scope.

(** ** lines of a structured grid *)
Definition row_path (c i : nat) : list (nat * nat) := map (fun j => (i, j)) (seq 0 c).
Definition col_path (r j : nat) : list (nat * nat) := map (fun i => (i, j)) (seq 0 r).
Definition paths (r c : nat) : list (list (nat * nat)) := map (row_path c) (seq 0 r) ++ map (col_path r) (seq 0 c).

Lemma nth_map_seq {A} (f : nat -> A) n k : nth_error (map f (seq 0 n)) k = if k <? n then Some (f k) else None.
Proof.
  rewrite nth_error_map, nth_seq. destruct (k <? n); reflexivity.
Qed.
Lemma lines_paths lon lat : sgrid_lines lon lat = map (map (fun n => (a_at lon (fst n) (snd n), a_at lat (fst n) (snd n)))) (paths (a_r lon) (a_c lon)).
Proof.
  unfold sgrid_lines, paths. rewrite map_app, !map_map. f_equal; apply map_ext; intros i; unfold row_path, col_path; rewrite map_map; apply map_ext; reflexivity.
Qed.
Lemma next_row c i n m : Next (row_path c i) n m <-> fst n = i /\ fst m = i /\ snd m = S (snd n) /\ snd m < c.
Proof.
  unfold Next, row_path. split.
  - intros (k & A & B). rewrite nth_map_seq in A, B. destruct (Nat.ltb_spec k c); [|discriminate]. destruct (Nat.ltb_spec (S k) c); [|discriminate].
    injection A as <-. injection B as <-. cbn [fst snd]. lia.
  - destruct n as [a b], m as [a' b']. cbn [fst snd]. intros (-> & -> & -> & H). exists b. rewrite !nth_map_seq.
    destruct (Nat.ltb_spec b c); [|lia]. destruct (Nat.ltb_spec (S b) c); [|lia]. auto.
Qed.
Lemma next_col r j n m : Next (col_path r j) n m <-> snd n = j /\ snd m = j /\ fst m = S (fst n) /\ fst m < r.
Proof.
  unfold Next, col_path. split.
  - intros (k & A & B). rewrite nth_map_seq in A, B. destruct (Nat.ltb_spec k r); [|discriminate]. destruct (Nat.ltb_spec (S k) r); [|discriminate].
    injection A as <-. injection B as <-. cbn [fst snd]. lia.
  - destruct n as [a b], m as [a' b']. cbn [fst snd]. intros (-> & -> & -> & H). exists a. rewrite !nth_map_seq.
    destruct (Nat.ltb_spec a r); [|lia]. destruct (Nat.ltb_spec (S a) r); [|lia]. auto.
Qed.
Lemma nth_paths r c k : nth_error (paths r c) k = if k <? r then Some (row_path c k) else if k - r <? c then Some (col_path r (k - r)) else None.
Proof.
  unfold paths. destruct (Nat.ltb_spec k r).
  - rewrite nth_error_app1 by now rewrite map_length, seq_length. rewrite nth_map_seq. destruct (Nat.ltb_spec k r); [reflexivity|lia].
  - rewrite nth_error_app2 by (rewrite map_length, seq_length; lia). rewrite map_length, seq_length, nth_map_seq. reflexivity.
Qed.
Lemma paths_once r c n m : Neighbours r c n m -> exists! k, exists p, nth_error (paths r c) k = Some p /\ Next p n m.
Proof.
  intros (Hr & Hc & [(E1 & E2)|(E1 & E2)]).
  - exists (fst m). split.
    + exists (row_path c (fst m)). rewrite nth_paths. destruct (Nat.ltb_spec (fst m) r); [|lia]. split; [reflexivity|]. apply next_row. lia.
    + intros k (p & Hp & N). rewrite nth_paths in Hp. destruct (Nat.ltb_spec k r).
      * injection Hp as <-. apply next_row in N. lia.
      * destruct (Nat.ltb_spec (k - r) c); [|discriminate]. injection Hp as <-. apply next_col in N. lia.
  - exists (r + snd m). split.
    + exists (col_path r (snd m)). rewrite nth_paths. destruct (Nat.ltb_spec (r + snd m) r); [lia|]. replace (r + snd m - r) with (snd m) by lia.
      destruct (Nat.ltb_spec (snd m) c); [|lia]. split; [reflexivity|]. apply next_col. lia.
    + intros k (p & Hp & N). rewrite nth_paths in Hp. destruct (Nat.ltb_spec k r).
      * injection Hp as <-. apply next_row in N. lia.
      * destruct (Nat.ltb_spec (k - r) c); [|discriminate]. injection Hp as <-. apply next_col in N. lia.
Qed.
Lemma paths_only r c k p n m : nth_error (paths r c) k = Some p -> Next p n m -> Neighbours r c n m.
Proof.
  intros Hp N. rewrite nth_paths in Hp. unfold Neighbours. destruct (Nat.ltb_spec k r).
  - injection Hp as <-. apply next_row in N. lia.
  - destruct (Nat.ltb_spec (k - r) c); [|discriminate]. injection Hp as <-. apply next_col in N. lia.
Qed.

(** ** indices *)
Lemma py_index_is {A} (l : list A) i x : IsNode l i x -> py_index l i = Ok x.
Proof.
  intros (H & E). unfold py_index. destruct (Z.ltb_spec i 0); [lia|]. destruct (Z.ltb_spec i 0); [lia|]. now rewrite E.
Qed.
Lemma is_node_map {A B} (f : A -> B) l i x : IsNode l i x -> IsNode (map f l) i (f x).
Proof. intros (H & E). split; auto. now rewrite nth_error_map, E. Qed.
Lemma is_node_exists {A} (l : list A) i : (0 <= i < Z.of_nat (length l))%Z -> exists x, IsNode l i x.
Proof.
  intros H. destruct (nth_error l (Z.to_nat i)) eqn:E; [exists a; split; [lia|auto]|]. apply nth_error_None in E. lia.
Qed.
Lemma is_node_fun {A} (l : list A) i x y : IsNode l i x -> IsNode l i y -> x = y.
Proof. intros (_ & A1) (_ & B). congruence. Qed.
Lemma is_node_in {A} (l : list A) i x : IsNode l i x -> In x l.
Proof. intros (_ & H). now apply nth_error_In in H. Qed.
Lemma shown_on_map p : OnMap p (shown p).
Proof.
  unfold OnMap, shown, display. cbn [fst snd]. split; [reflexivity|]. destruct (Qle_bool (fst p) 180) eqn:E.
  - apply Qle_bool_iff in E. auto.
  - right. split; [|reflexivity]. apply Qnot_le_lt. intros H. apply Qle_bool_iff in H. congruence.
Qed.
Lemma on_map_fun p q : OnMap p q -> q = shown p.
Proof.
  destruct p as [x y], q as [x' y']. unfold OnMap, shown, display. cbn [fst snd]. intros (-> & [(H & ->)|(H & ->)]).
  - apply Qle_bool_iff in H. now rewrite H.
  - destruct (Qle_bool x 180) eqn:E; [|reflexivity]. apply Qle_bool_iff in E. lra.
Qed.

(** ** unique edges *)
Lemma edge_lt_irrefl e : edge_lt e e = false.
Proof. unfold edge_lt. rewrite !Z.ltb_irrefl, andb_false_r. reflexivity. Qed.
Lemma edge_lt_trans a b c : edge_lt a b = true -> edge_lt b c = true -> edge_lt a c = true.
Proof. unfold edge_lt. lia. Qed.
Lemma edge_total a b : edge_lt a b = false -> edge_eqb a b = false -> edge_lt b a = true.
Proof. unfold edge_lt, edge_eqb. lia. Qed.
Fixpoint Increasing (l : list edge) : Prop :=
  match l with [] => True | x :: r => (forall y, In y r -> edge_lt x y = true) /\ Increasing r end.
Lemma in_insert e l x : In x (insert e l) <-> x = e \/ In x l.
Proof.
  induction l as [|y l IH]; cbn [insert]; [cbn; intuition congruence|].
  destruct (edge_lt e y) eqn:E; [cbn [In]; intuition congruence|]. destruct (edge_eqb_spec e y) as [->|].
  - cbn [In]. intuition congruence.
  - cbn [In]. rewrite IH. intuition congruence.
Qed.
Lemma increasing_insert e l : Increasing l -> Increasing (insert e l).
Proof.
  induction l as [|y l IH]; cbn [insert Increasing]; [intros _; split; [intros ? []|exact I]|]. intros (H & Hl).
  destruct (edge_lt e y) eqn:E.
  - cbn [Increasing]. split; [|auto]. intros z [<-|Hz]; auto. eapply edge_lt_trans; eauto.
  - destruct (edge_eqb e y) eqn:Q; [cbn [Increasing]; auto|]. cbn [Increasing]. split; [|auto].
    intros z Hz. apply in_insert in Hz as [->|Hz]; auto. now apply edge_total.
Qed.
Lemma unique_increasing l : Increasing (unique l).
Proof. induction l; [exact I|]. now apply increasing_insert. Qed.
Lemma in_unique l x : In x (unique l) <-> In x l.
Proof. induction l as [|y l IH]; [reflexivity|]. unfold unique in *. cbn [fold_right]. rewrite in_insert, IH. cbn [In]. intuition congruence. Qed.
Lemma increasing_nodup l : Increasing l -> NoDup l.
Proof.
  induction l as [|x l IH]; [constructor|]. cbn [Increasing]. intros (H & Hl). constructor; auto. intros Hx. specialize (H x Hx). rewrite edge_lt_irrefl in H. discriminate.
Qed.

Lemma sorted_pair_ends a b : (sorted_pair a b = (a, b) \/ sorted_pair a b = (b, a)) /\ (fst (sorted_pair a b) <= snd (sorted_pair a b))%Z.
Proof. unfold sorted_pair. destruct (Z.ltb_spec b a); cbn [fst snd]; split; auto; lia. Qed.
Lemma sorted_pair_sym a b : sorted_pair a b = sorted_pair b a.
Proof. unfold sorted_pair. destruct (Z.ltb_spec b a), (Z.ltb_spec a b); auto; try lia. now replace a with b by lia. Qed.
Lemma sorted_pair_fixed a b : (a <= b)%Z -> sorted_pair a b = (a, b).
Proof. unfold sorted_pair. destruct (Z.ltb_spec b a); auto; lia. Qed.

Lemma in_edge_pairs faces e : In e (edge_pairs faces) <->
  exists r, In r faces /\ (e = sorted_pair (corner r 0) (corner r 1) \/ e = sorted_pair (corner r 1) (corner r 2) \/ e = sorted_pair (corner r 2) (corner r 0)).
Proof.
  unfold edge_pairs. rewrite !in_app_iff, !in_map_iff. split.
  - intros [(r & <- & H)|[(r & <- & H)|(r & <- & H)]]; eauto 6.
  - intros (r & H & [->|[->| ->]]); eauto 6.
Qed.
Lemma three_row (r : list Z) : length r = 3 -> exists x y z, r = [x; y; z].
Proof. destruct r as [|x [|y [|z [|]]]]; try discriminate. intros _. eauto. Qed.
Lemma side_edges faces a b : Rect 3 faces -> (IsSide faces a b <-> In (sorted_pair a b) (edge_pairs faces)).
Proof.
  intros R. rewrite in_edge_pairs. split.
  - intros ([i j] & S).
    assert (K : forall u v, Side faces (i, j) u v -> exists r, In r faces /\ (sorted_pair u v = sorted_pair (corner r 0) (corner r 1) \/ sorted_pair u v = sorted_pair (corner r 1) (corner r 2) \/ sorted_pair u v = sorted_pair (corner r 2) (corner r 0))).
    { intros u v (row & Hr & Hu & Hv). cbn [fst snd] in *. assert (In row faces) by now apply nth_error_In in Hr. exists row. split; auto.
      assert (L : length row = 3) by (unfold Rect in R; rewrite Forall_forall in R; auto). destruct (three_row _ L) as (x & y & z & ->).
      destruct j as [|[|[|j]]]; cbn in Hu, Hv; try (injection Hu as <-; injection Hv as <-; unfold corner; cbn [nth]; auto).
      destruct j; discriminate. }
    destruct S as [S|S]; [now apply K|]. rewrite sorted_pair_sym. now apply K.
  - intros (r & Hr & E). assert (L : length r = 3) by (unfold Rect in R; rewrite Forall_forall in R; auto).
    apply In_nth_error in Hr as (i & Hi). destruct (three_row _ L) as (x & y & z & ->). unfold corner in E; cbn [nth] in E.
    assert (K : forall u v j, Side faces (i, j) u v -> sorted_pair a b = sorted_pair u v -> IsSide faces a b).
    { intros u v j S Q. exists (i, j). destruct (sorted_pair_ends a b) as ([A|A] & _), (sorted_pair_ends u v) as ([B|B] & _); rewrite A, B in Q; injection Q as -> ->; auto. }
    destruct E as [E|[E|E]]; [apply (K x y 0)|apply (K y z 1)|apply (K z x 2)]; auto; exists [x; y; z]; cbn; auto.
Qed.
Lemma side_entries faces p a b : Side faces p a b -> In a (concat faces) /\ In b (concat faces).
Proof.
  intros (r & H & A & B). apply nth_error_In in H, A, B. split; apply in_concat; eauto.
Qed.

Lemma mapM_forall2 {A B} (f : A -> result B) (R : A -> B -> Prop) l : (forall x, In x l -> exists y, f x = Ok y /\ R x y) ->
  exists ys, mapM f l = Ok ys /\ Forall2 R l ys.
Proof.
  induction l as [|x l IH]; intros H; [exists []; split; [reflexivity|constructor]|].
  destruct (H x (or_introl eq_refl)) as (y & E & Hy). destruct IH as (ys & E' & F); [intros; apply H; now right|].
  exists (y :: ys). cbn [mapM]. rewrite E. cbn [bind]. rewrite E'. cbn [bind]. split; [reflexivity|]. now constructor.
Qed.
Lemma lines_ok nodes faces : Rect 3 faces -> (forall x, In x (concat faces) -> (0 <= x < Z.of_nat (length nodes))%Z) ->
  exists ls, grid_lines nodes faces = Ok ls /\ Forall2 (Drawn nodes) (unique (edge_pairs faces)) ls.
Proof.
  intros R V. unfold grid_lines.
  assert (F : forallb (fun r => 3 <=? length r) faces = true).
  { apply forallb_forall. intros r Hr. unfold Rect in R. rewrite Forall_forall in R. rewrite (R _ Hr). reflexivity. }
  rewrite F. apply mapM_forall2. intros [a b] He. apply -> in_unique in He.
  assert (K : In a (concat faces) /\ In b (concat faces)).
  { assert (O : (a <= b)%Z). { apply -> in_edge_pairs in He; destruct He as (r & _ & [E|[E|E]]); match type of E with _ = sorted_pair ?u ?v => destruct (sorted_pair_ends u v) as (_ & O); rewrite <- E in O; exact O end. }
    rewrite <- (sorted_pair_fixed a b O) in He. apply side_edges in He; auto. destruct He as (p & [S|S]); apply side_entries in S; tauto. }
  destruct K as (Ka & Kb). destruct (is_node_exists nodes a (V _ Ka)) as (p & Hp), (is_node_exists nodes b (V _ Kb)) as (q & Hq).
  cbn [fst snd]. rewrite (py_index_is _ _ _ (is_node_map shown _ _ _ Hp)), (py_index_is _ _ _ (is_node_map shown _ _ _ Hq)). cbn [bind].
  eexists. split; [reflexivity|]. exists p, q. cbn [fst snd]. repeat split; auto; try apply shown_on_map; try apply Hp; try apply Hq.
Qed.

(** ** extents *)
Lemma qmin_ok l m : qmin l = Ok m -> In m l /\ forall x, In x l -> (m <= x)%Q.
Proof.
  destruct l as [|a l]; [discriminate|]. cbn [qmin]. intros [= <-]. revert a. induction l as [|b l IH]; intros a; cbn [fold_left].
  - split; [now left|]. intros x [<-|[]]. lra.
  - destruct (Qle_bool a b) eqn:E.
    + apply Qle_bool_iff in E. destruct (IH a) as (I & H). split; [destruct I; [now left|now right; right]|].
      intros x [<-|[<-|Hx]]; [apply H; now left| |apply H; now right]. specialize (H a (or_introl eq_refl)). lra.
    + assert (b < a)%Q by (apply Qnot_le_lt; intros K; apply Qle_bool_iff in K; congruence).
      destruct (IH b) as (I & H'). split; [now right|].
      intros x [<-|Hx]; [|now apply H']. specialize (H' b (or_introl eq_refl)). lra.
Qed.
Lemma qmax_ok l m : qmax l = Ok m -> In m l /\ forall x, In x l -> (x <= m)%Q.
Proof.
  destruct l as [|a l]; [discriminate|]. cbn [qmax]. intros [= <-]. revert a. induction l as [|b l IH]; intros a; cbn [fold_left].
  - split; [now left|]. intros x [<-|[]]. lra.
  - destruct (Qle_bool b a) eqn:E.
    + apply Qle_bool_iff in E. destruct (IH a) as (I & H). split; [destruct I; [now left|now right; right]|].
      intros x [<-|[<-|Hx]]; [apply H; now left| |apply H; now right]. specialize (H a (or_introl eq_refl)). lra.
    + assert (a < b)%Q by (apply Qnot_le_lt; intros K; apply Qle_bool_iff in K; congruence).
      destruct (IH b) as (I & H'). split; [now right|].
      intros x [<-|Hx]; [|now apply H']. specialize (H' b (or_introl eq_refl)). lra.
Qed.
Lemma qmin_total l : l <> [] -> exists m, qmin l = Ok m.
Proof. destruct l; [congruence|]. cbn. eauto. Qed.
Lemma qmax_total l : l <> [] -> exists m, qmax l = Ok m.
Proof. destruct l; [congruence|]. cbn. eauto. Qed.

(** ** triangles *)
Lemma triangle_le p a b c (t : Q) : InTriangle p a b c -> (fst a <= t -> fst b <= t -> fst c <= t -> fst p <= t)%Q.
Proof. intros (u & v & w & Hu & Hv & Hw & S & X & _) A B C. rewrite X. nra. Qed.
Lemma triangle_ge p a b c (t : Q) : InTriangle p a b c -> (t <= fst a -> t <= fst b -> t <= fst c -> t <= fst p)%Q.
Proof. intros (u & v & w & Hu & Hv & Hw & S & X & _) A B C. rewrite X. nra. Qed.
Lemma triangle_gt p a b c (t : Q) : InTriangle p a b c -> (t < fst a -> t < fst b -> t < fst c -> t < fst p)%Q.
Proof.
  intros T A B C.
  assert (exists s, t < s /\ s <= fst a /\ s <= fst b /\ s <= fst c)%Q as (s & Hs & A' & B' & C').
  { destruct (Qlt_le_dec (fst a) (fst b)), (Qlt_le_dec (fst b) (fst c)), (Qlt_le_dec (fst a) (fst c));
    first [exists (fst a); repeat split; lra|exists (fst b); repeat split; lra|exists (fst c); repeat split; lra]. }
  pose proof (triangle_ge p a b c s T A' B' C'). lra.
Qed.
(** Moving a triangle and a point by the same longitude. *)
Lemma triangle_shift p a b c p' a' b' c' (d : Q) : (fst p' == fst p + d)%Q -> snd p' = snd p -> (fst a' == fst a + d)%Q -> snd a' = snd a ->
  (fst b' == fst b + d)%Q -> snd b' = snd b -> (fst c' == fst c + d)%Q -> snd c' = snd c -> InTriangle p a b c -> InTriangle p' a' b' c'.
Proof.
  intros Hp Ep Ha Ea Hb Eb Hc Ec (u & v & w & Hu & Hv & Hw & S & X & Y). exists u, v, w. repeat split; auto.
  - rewrite Hp, Ha, Hb, Hc, X. assert (d == (u + v + w) * d)%Q by (rewrite S; ring). rewrite H at 1. ring.
  - rewrite Ep, Ea, Eb, Ec. exact Y.
Qed.
Lemma corners_fun nodes faces i a b c a' b' c' : Corners nodes faces i a b c -> Corners nodes faces i a' b' c' -> a = a' /\ b = b' /\ c = c'.
Proof.
  intros (x & y & z & E & A & B & C) (x' & y' & z' & E' & A' & B' & C'). rewrite E in E'. injection E' as <- <- <-.
  repeat split; eapply is_node_fun; eauto.
Qed.
Lemma corners_in nodes faces i a b c : Corners nodes faces i a b c -> In a nodes /\ In b nodes /\ In c nodes.
Proof. intros (x & y & z & _ & A & B & C). repeat split; eapply is_node_in; eauto. Qed.
