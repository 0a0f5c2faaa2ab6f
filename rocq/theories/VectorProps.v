(** C61, C68: rotation of vectors, averages. *)
From Coq Require Import Reals Lra Lqa.
From Verif Require Import Common SGridModel VectorModel.

(** C61: rotation by an unmasked angle keeps the length, also of masked vectors. *)
Theorem c61_length : forall x y angle,
  let v := rotate_vectors x y (Some angle) in vector_sum (fst v) (snd v) = vector_sum x y.
Proof.
  intros [x|] [y|] a; cbn; try reflexivity. do 2 f_equal.
  pose proof (sin2_cos2 a) as H. unfold Rsqr in H.
  replace ((x * cos a - y * sin a) * (x * cos a - y * sin a) + (x * sin a + y * cos a) * (x * sin a + y * cos a))%R
    with ((x * x + y * y) * (sin a * sin a + cos a * cos a))%R by ring.
  rewrite H. ring.
Qed.
Print Assumptions c61_length.
(** C61: the length is the Euclidean one. *)
Theorem c61_vector_sum : forall x y, exists s, vector_sum (Some x) (Some y) = Some s /\ (0 <= s /\ s * s = x * x + y * y)%R.
Proof.
  intros x y. eexists. split; [reflexivity|]. split; [apply sqrt_pos|]. apply sqrt_sqrt. pose proof (Rle_0_sqr x). pose proof (Rle_0_sqr y). unfold Rsqr in *. Lra.lra.
Qed.
Print Assumptions c61_vector_sum.
(** C61: rotations compose, so the opposite angle restores the vector, and a rotation
    by 0 does nothing. *)
Theorem c61_compose : forall x y a b,
  let v := rotate_vectors (Some x) (Some y) (Some a) in
  rotate_vectors (fst v) (snd v) (Some b) = rotate_vectors (Some x) (Some y) (Some (a + b)%R).
Proof. intros. unfold v, rotate_vectors. cbn [op1 op2 fst snd]. rewrite cos_plus, sin_plus. apply f_equal2; f_equal; ring. Qed.
Print Assumptions c61_compose.
Theorem c61_back : forall x y a,
  let v := rotate_vectors (Some x) (Some y) (Some a) in
  rotate_vectors (fst v) (snd v) (Some (- a)%R) = (Some x, Some y).
Proof.
  intros. unfold v. rewrite c61_compose. replace (a + - a)%R with 0%R by ring. unfold rotate_vectors. cbn [op1 op2]. rewrite cos_0, sin_0. apply f_equal2; f_equal; ring.
Qed.
Print Assumptions c61_back.
(** C61: a quarter turn takes east to north: the rotation is counter-clockwise. *)
Theorem c61_direction : forall x, rotate_vectors (Some x) (Some 0%R) (Some (PI / 2)%R) = (Some 0%R, Some x).
Proof. intros. unfold rotate_vectors. cbn [op1 op2]. rewrite cos_PI2, sin_PI2. apply f_equal2; f_equal; ring. Qed.
Print Assumptions c61_direction.
(** C61: masked exactly where a vector component or the angle is. *)
Theorem c61_masked : forall x y a, (fst (rotate_vectors x y a) = None <-> x = None \/ y = None \/ a = None) /\
  (snd (rotate_vectors x y a) = None <-> x = None \/ y = None \/ a = None).
Proof. intros [x|] [y|] [a|]; cbn; intuition discriminate. Qed.
Print Assumptions c61_masked.

(** The mean of unmasked entries. *)
Definition MeanOf (l : list (option Q)) (m : option Q) : Prop :=
  (exists v, In v l /\ v = None) /\ m = None \/
  exists vs q, l = map Some vs /\ m = Some q /\ (q * inject_Z (Z.of_nat (length vs)) == fold_right Qplus 0 vs)%Q.

Lemma half_mean : forall a b, MeanOf [a; b] (half_sum a b).
Proof.
  intros [a|] [b|].
  - right. exists [a; b], ((1 # 2) * (a + b))%Q. repeat split. cbn. change (inject_Z 2) with 2%Q. lra.
  - left. split; [exists None; cbn; tauto|reflexivity].
  - left. split; [exists None; cbn; tauto|reflexivity].
  - left. split; [exists None; cbn; tauto|reflexivity].
Qed.

Lemma slice_from1 : forall n, slice_start n (Some 1%Z, None) = Nat.min 1 n /\ slice_stop n (Some 1%Z, None) = n.
Proof. intros. unfold slice_start, slice_stop, norm_index. cbn [fst snd]. change (1 <? 0)%Z with false. cbv iota. split; lia. Qed.
Lemma slice_but_last : forall n s, s = None \/ s = Some 0%Z ->
  slice_start n (s, Some (-1)%Z) = 0%nat /\ slice_stop n (s, Some (-1)%Z) = (n - 1)%nat.
Proof.
  intros n s H. unfold slice_start, slice_stop, norm_index. cbn [fst snd]. change (-1 <? 0)%Z with true. cbv iota.
  split; [|lia]. destruct H as [-> | ->]; [reflexivity|]. change (0 <? 0)%Z with false. cbv iota. lia.
Qed.
Lemma slice_all : forall n, slice_start n (None, None) = 0%nat /\ slice_stop n (None, None) = n.
Proof. intros. split; reflexivity. Qed.

(** C61: along columns (avg_dim = 0) or rows (any other number) there is one entry
    fewer, each the mean of the two neighbours. *)
Theorem c61_average : forall a d,
  let m := avg_to_cell_center a d in
  (d = 0%Z -> a_r m = (a_r a - 1)%nat /\ a_c m = a_c a /\
     forall i j, (i < a_r m)%nat -> MeanOf [a_at a (i + 1) j; a_at a i j] (a_at m i j)) /\
  (d <> 0%Z -> a_r m = a_r a /\ a_c m = (a_c a - 1)%nat /\
     forall i j, (j < a_c m)%nat -> MeanOf [a_at a i (j + 1); a_at a i j] (a_at m i j)).
Proof.
  intros a d. cbv zeta. unfold avg_to_cell_center. split; intros Hd.
  - subst d. cbn [Z.eqb]. unfold transpose, slice2. cbn [a_r a_c a_at fst snd].
    destruct (slice_all (a_c a)) as [-> ->]. destruct (slice_from1 (a_r a)) as [-> ->].
    destruct (slice_but_last (a_r a) None (or_introl eq_refl)) as [-> _].
    split; [lia|]. split; [lia|]. intros i j Hi. cbn [plus]. replace (Nat.min 1 (a_r a) + i)%nat with (i + 1)%nat by lia. apply half_mean.
  - apply Z.eqb_neq in Hd. rewrite Hd. unfold slice2. cbn [a_r a_c a_at fst snd].
    destruct (slice_all (a_r a)) as [-> ->]. destruct (slice_from1 (a_c a)) as [-> ->].
    destruct (slice_but_last (a_c a) None (or_introl eq_refl)) as [-> _].
    split; [lia|]. split; [lia|]. intros i j Hi. cbn [plus]. replace (Nat.min 1 (a_c a) + j)%nat with (j + 1)%nat by lia. apply half_mean.
Qed.
Print Assumptions c61_average.

(** C68: cell values averaged to the nodes: one row and one column fewer, each the
    mean of the four cells around the node. *)
Theorem c68_four_cells : forall a, let m := to_nodes a in
  a_r m = (a_r a - 1)%nat /\ a_c m = (a_c a - 1)%nat /\
  forall i j, (i < a_r m)%nat -> (j < a_c m)%nat ->
    MeanOf [a_at a i j; a_at a (i + 1) j; a_at a i (j + 1); a_at a (i + 1) (j + 1)] (a_at m i j).
Proof.
  intros a. cbv zeta. unfold to_nodes, zip_with, slice2. cbn [a_r a_c a_at fst snd].
  destruct (slice_but_last (a_r a) (Some 0%Z) (or_intror eq_refl)) as [-> ->]. destruct (slice_from1 (a_r a)) as [-> _].
  rewrite !Nat.sub_0_r. destruct (slice_all (a_r a - 1)) as [-> ->]. destruct (slice_all (a_c a)) as [-> ->]. rewrite ?Nat.sub_0_r.
  destruct (slice_but_last (a_c a) (Some 0%Z) (or_intror eq_refl)) as [-> ->]. destruct (slice_from1 (a_c a)) as [-> _].
  split; [lia|]. split; [lia|]. intros i j Hi Hj. cbn [plus].
  replace (Nat.min 1 (a_r a) + i)%nat with (i + 1)%nat by lia. replace (Nat.min 1 (a_c a) + j)%nat with (j + 1)%nat by lia.
  destruct (a_at a i j) as [v1|] eqn:E1; [|left; split; [exists None; cbn; tauto|reflexivity]].
  destruct (a_at a (i + 1) j) as [v2|] eqn:E2; [|left; split; [exists None; cbn; tauto|reflexivity]].
  destruct (a_at a i (j + 1)) as [v3|] eqn:E3; [|left; split; [exists None; cbn; tauto|reflexivity]].
  destruct (a_at a (i + 1) (j + 1)) as [v4|] eqn:E4; [|left; split; [exists None; cbn; tauto|reflexivity]].
  right. exists [v1; v2; v3; v4], (((v1 + v2) / 2 + (v3 + v4) / 2) / 2)%Q. repeat split. cbn [length fold_right].
  change (inject_Z (Z.of_nat 4)) with 4%Q. field.
Qed.
Print Assumptions c68_four_cells.
(** C68: so a constant stays, and every node value lies between bounds of the cells. *)
Theorem c68_bounds : forall a lo hi, (forall i j v, a_at a i j = Some v -> (lo <= v <= hi)%Q) ->
  forall i j q, (i < a_r (to_nodes a))%nat -> (j < a_c (to_nodes a))%nat -> a_at (to_nodes a) i j = Some q -> (lo <= q <= hi)%Q.
Proof.
  intros a lo hi H i j q Hi Hj E. destruct (c68_four_cells a) as (_ & _ & M). specialize (M i j Hi Hj).
  destruct M as [[_ M]|(vs & q' & L & M & S)]; rewrite E in M; [discriminate|]. injection M as <-.
  assert (F : Forall (fun v => (lo <= v <= hi)%Q) vs).
  { apply Forall_forall. intros v I. assert (J : In (Some v) (map Some vs)) by (apply in_map, I). rewrite <- L in J.
    cbn in J. destruct J as [J|[J|[J|[J|[]]]]]; eapply H; exact J. }
  assert (Ln : length vs = 4%nat) by (apply (f_equal (@length _)) in L; rewrite map_length in L; cbn in L; auto).
  destruct vs as [|v1 [|v2 [|v3 [|v4 [|]]]]]; try discriminate. cbn [length fold_right] in S. change (inject_Z (Z.of_nat 4)) with 4%Q in S.
  inversion F as [|? ? F1 G1]; inversion G1 as [|? ? F2 G2]; inversion G2 as [|? ? F3 G3]; inversion G3 as [|? ? F4 G4]; subst. lra.
Qed.
Print Assumptions c68_bounds.
(** C68: cells padded on both sides (one row and column more than the nodes) give an
    array of the nodes' shape. *)
Theorem c68_shape : forall (ny nx : nat) sc a,
  (1 <= a_r a)%nat -> (1 <= a_c a)%nat ->
  infer_location (ny, nx) true true true (Some sc) = Some SCenter -> rev sc = [a_c a; a_r a] ->
  exists m, node_bathymetry (Some SCenter) a = Ok m /\
    ((a_r m = ny /\ a_c m = nx) <-> a_r a = S ny).
Proof.
  intros ny nx sc a R1 C1 I L. exists (to_nodes a). split; [reflexivity|].
  destruct (c68_four_cells a) as (Er & Ec & _). rewrite Er, Ec.
  unfold infer_location, last_two in I. rewrite L in I. cbn [fst snd] in I.
  destruct (Z.eqb_spec (Z.of_nat (a_r a) - Z.of_nat ny) 1); destruct (Z.eqb_spec (Z.of_nat (a_c a) - Z.of_nat nx) 1);
  destruct (Z.eqb_spec (Z.of_nat (a_r a) - Z.of_nat ny) (-1)); destruct (Z.eqb_spec (Z.of_nat (a_c a) - Z.of_nat nx) (-1));
  cbn [andb orb] in I; try lia;
  repeat match type of I with context [if ?c then _ else _] => destruct c end; discriminate || lia.
Qed.
Print Assumptions c68_shape.
(** C68: cells inside the nodes (one fewer in each direction) are also taken for
    center data, and give an array of no location at all. *)
Theorem c68_inner_cells_refuted : exists ny nx a m,
  infer_location (ny, nx) true false false (Some [a_r a; a_c a]) = Some SCenter /\
  node_bathymetry (Some SCenter) a = Ok m /\
  infer_location (ny, nx) true false false (Some [a_r m; a_c m]) = None.
Proof.
  exists 5%nat, 7%nat, (mkArr 4 6 (fun _ _ => Some 1%Q)), (to_nodes (mkArr 4 6 (fun _ _ => Some 1%Q))).
  repeat split.
Qed.
Print Assumptions c68_inner_cells_refuted.

(** C68: bathymetry given at the nodes is used as it is; without a location it is
    a TypeError. *)
Theorem c68_at_nodes : forall a, node_bathymetry (Some SNode) a = Ok a /\ node_bathymetry None a = Err TypeError.
Proof. auto. Qed.
Print Assumptions c68_at_nodes.

Example c61_example : 
  let a := mkArr 2 3 (fun i j => if (i =? 1)%nat && (j =? 2)%nat then None else Some (inject_Z (Z.of_nat (3 * i + j)))) in
  a_ravel (avg_to_cell_center a 1) = [Some ((1 # 2) * (1 + 0)); Some ((1 # 2) * (2 + 1)); Some ((1 # 2) * (4 + 3)); None]%Q /\
  a_ravel (to_nodes a) = [Some ((((0 + 3) / 2) + (1 + 4) / 2) / 2); None]%Q.
Proof. split; reflexivity. Qed.
