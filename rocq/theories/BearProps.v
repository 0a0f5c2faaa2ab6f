(** C83: angles computed from the cell centers. *)
From Coq Require Import Reals Lra List Lia.
From Verif Require Import BearModel BearSpec BearProofs VectorModel.
Import ListNotations.
Open Scope R_scope.
Notation entry := BearModel.entry.

(** The bearing is a number of degrees, clockwise from north, of the direction
    in which the second point is seen from the first. *)
Theorem c83_bearing : forall p q, 0 <= bearing p q < 360 /\
  exists r, 0 <= r /\ r * r = 1 - dot (place p) (place q) * dot (place p) (place q) /\
    eastward p q = r * sin (rad (bearing p q)) /\ northward p q = r * cos (rad (bearing p q)).
Proof.
  intros p q. split; [unfold bearing; apply mod360_range|].
  destruct (bearing_turns p q) as (a & k & E & A & _). rewrite E, sin_turns, cos_turns, A.
  destruct (arctan2_polar (eastward p q) (northward p q)) as [N Ea].
  exists (sqrt (northward p q * northward p q + eastward p q * eastward p q)).
  split; [apply sqrt_pos|]. split.
  - rewrite sqrt_def; [rewrite <- spread; ring|]. pose proof (Rle_0_sqr (northward p q)). pose proof (Rle_0_sqr (eastward p q)). unfold Rsqr in *. lra.
  - split; assumption.
Qed.
Print Assumptions c83_bearing.

Lemma cos_one t : cos t = 1 -> -2 * PI < t < 2 * PI -> t = 0.
Proof.
  intros C B. assert (S : sin (t / 2) = 0).
  { replace t with (2 * (t / 2)) in C by field. rewrite cos_2a_sin in C.
    assert (X : sin (t / 2) * sin (t / 2) = 0) by lra. now apply Rmult_integral in X as [X|X]. }
  destruct (Rtotal_order t 0) as [H|[H|H]]; auto.
  - pose proof (sin_gt_0 (- (t / 2))). rewrite sin_neg in H0. lra.
  - pose proof (sin_gt_0 (t / 2)). lra.
Qed.
(** No other number of degrees is. *)
Theorem c83_unique : forall p q r b, 0 < r -> 0 <= b < 360 -> eastward p q = r * sin (rad b) -> northward p q = r * cos (rad b) -> b = bearing p q.
Proof.
  intros p q r b R B E N. destruct (c83_bearing p q) as (B' & r' & R' & _ & E' & N'). set (b' := bearing p q) in *. pose proof PI_RGT_0 as P.
  assert (RR : r * r = r' * r').
  { transitivity (eastward p q * eastward p q + northward p q * northward p q).
    - rewrite E, N. pose proof (sin2_cos2 (rad b)) as S. unfold Rsqr in S. transitivity (r * r * (sin (rad b) * sin (rad b) + cos (rad b) * cos (rad b))); [rewrite S; ring|ring].
    - rewrite E', N'. pose proof (sin2_cos2 (rad b')) as S. unfold Rsqr in S. transitivity (r' * r' * (sin (rad b') * sin (rad b') + cos (rad b') * cos (rad b'))); [ring|rewrite S; ring]. }
  assert (Er : r = r') by nra. subst r'.
  assert (S : sin (rad b) = sin (rad b')) by (apply Rmult_eq_reg_l with r; lra).
  assert (C : cos (rad b) = cos (rad b')) by (apply Rmult_eq_reg_l with r; lra).
  assert (D : cos (rad b - rad b') = 1).
  { rewrite cos_minus, S, C. pose proof (sin2_cos2 (rad b')) as X. unfold Rsqr in X. lra. }
  apply cos_one in D.
  - unfold rad in D. assert (X : (b - b') * (PI / 180) = 0) by lra. apply Rmult_integral in X. destruct X; lra.
  - unfold rad. nra.
Qed.
Print Assumptions c83_unique.

(** Seen along a meridian and along the equator. *)
Theorem c83_cardinal : (forall lon a b, -90 <= a -> a < b -> b < 90 -> bearing (lon, a) (lon, b) = 0 /\ bearing (lon, b) (lon, a) = 180) /\
  (forall x y, x < y < x + 180 -> bearing (x, 0) (y, 0) = 90 /\ bearing (y, 0) (x, 0) = 270).
Proof.
  pose proof PI_RGT_0 as P. split.
  - intros lon a b A AB B.
    assert (En : forall c d, eastward (lon, c) (lon, d) = 0) by (intros; unfold eastward, place, dot, east, sphere; cbn [fst snd]; ring).
    assert (Nn : forall c d, northward (lon, c) (lon, d) = sin (rad d - rad c)).
    { intros c d. unfold northward, place, dot, north, sphere. cbn [fst snd]. rewrite sin_minus.
      pose proof (sin2_cos2 (rad lon)) as S. unfold Rsqr in S.
      transitivity (cos (rad c) * sin (rad d) - sin (rad c) * cos (rad d) * (sin (rad lon) * sin (rad lon) + cos (rad lon) * cos (rad lon))); [ring|rewrite S; ring]. }
    assert (Sp : 0 < sin (rad b - rad a)) by (apply sin_gt_0; unfold rad; nra).
    split; symmetry; apply (c83_unique _ _ (sin (rad b - rad a))); auto; try lra; rewrite ?En, ?Nn.
    + replace (rad 0) with 0 by (unfold rad; ring). rewrite sin_0. ring.
    + replace (rad 0) with 0 by (unfold rad; ring). rewrite cos_0. ring.
    + replace (rad 180) with PI by (unfold rad; field). rewrite sin_PI. ring.
    + replace (rad 180) with PI by (unfold rad; field). rewrite cos_PI. replace (rad a - rad b) with (- (rad b - rad a)) by ring. rewrite sin_neg. ring.
  - intros x y H. assert (Z : rad 0 = 0) by (unfold rad; ring).
    assert (En : forall c d, eastward (c, 0) (d, 0) = sin (rad d - rad c)).
    { intros c d. unfold eastward, place, dot, east, sphere. cbn [fst snd]. rewrite Z, cos_0, sin_minus. ring. }
    assert (Nn : forall c d, northward (c, 0) (d, 0) = 0).
    { intros c d. unfold northward, place, dot, north, sphere. cbn [fst snd]. rewrite Z, sin_0. ring. }
    assert (Sp : 0 < sin (rad y - rad x)) by (apply sin_gt_0; unfold rad; nra).
    split; symmetry; apply (c83_unique _ _ (sin (rad y - rad x))); auto; try lra; rewrite ?En, ?Nn.
    + replace (rad 90) with (PI / 2) by (unfold rad; field). rewrite sin_PI2. ring.
    + replace (rad 90) with (PI / 2) by (unfold rad; field). rewrite cos_PI2. ring.
    + replace (rad 270) with (3 * (PI / 2)) by (unfold rad; field). rewrite sin_3PI2. replace (rad x - rad y) with (- (rad y - rad x)) by ring. rewrite sin_neg. ring.
    + replace (rad 270) with (3 * (PI / 2)) by (unfold rad; field). rewrite cos_3PI2. ring.
Qed.
Print Assumptions c83_cardinal.
Example c83_cardinal_demo : bearing (170, 0) (190, 0) = 90 /\ bearing (5, 50) (5, 10) = 180.
Proof. split; [apply (proj2 c83_cardinal)|apply (proj1 c83_cardinal)]; lra. Qed.

(** Whole turns of longitude make no difference. *)
Theorem c83_turns : forall x a y b (j k : Z), bearing (x + 360 * IZR j, a) (y + 360 * IZR k, b) = bearing (x, a) (y, b).
Proof.
  intros x a y b j k. unfold bearing. cbv zeta. cbn [fst snd]. rewrite !radians_rad.
  replace (rad (y + 360 * IZR k) - rad (x + 360 * IZR j)) with ((rad y - rad x) + 2 * IZR (k - j) * PI) by (unfold rad; rewrite minus_IZR; field).
  now rewrite sin_turns, cos_turns.
Qed.
Print Assumptions c83_turns.
Example c83_turns_demo : bearing (359, 0) (1, 0) = 90.
Proof. replace 359 with (-1 + 360 * IZR 1) by lra. replace 1 with (1 + 360 * IZR 0) at 2 by lra. rewrite c83_turns. apply (proj2 c83_cardinal). lra. Qed.

(** The angle is counted in radians from east towards north, and turns a
    vector along the row of cells into its parts to the east and north. *)
Theorem c83_angle : forall p q, - (3 * PI / 2) < angle_from_true_east p q <= PI / 2 /\
  exists r, 0 <= r /\ r * r = 1 - dot (place p) (place q) * dot (place p) (place q) /\
    eastward p q = r * cos (angle_from_true_east p q) /\ northward p q = r * sin (angle_from_true_east p q) /\
    rotate_vectors (Some r) (Some 0) (Some (angle_from_true_east p q)) = (Some (eastward p q), Some (northward p q)).
Proof.
  intros p q. destruct (c83_bearing p q) as (B & r & R & RR & E & N). pose proof PI_RGT_0 as P.
  assert (A : angle_from_true_east p q = PI / 2 - rad (bearing p q)) by (unfold angle_from_true_east, rad; field).
  rewrite A. split; [unfold rad; nra|]. exists r. rewrite cos_shift, sin_shift. repeat split; auto.
  unfold rotate_vectors, op1, op2. rewrite cos_shift, sin_shift, E, N. do 2 f_equal; ring.
Qed.
Print Assumptions c83_angle.

(** A row of at least two cells has as many angles, the last one repeated. *)
Lemma pairs_length {A} (c : list A) : length (combine (removelast c) (tl c)) = (length c - 1)%nat.
Proof.
  rewrite combine_length. assert (L : length (removelast c) = (length c - 1)%nat).
  { induction c as [|a [|b c] IH]; cbn; auto. cbn in IH. rewrite IH. lia. }
  rewrite L. destruct c; cbn; lia.
Qed.
Lemma pairs_nth {A} (c : list A) d i : (S i < length c)%nat -> nth i (combine (removelast c) (tl c)) (d, d) = (nth i c d, nth (S i) c d).
Proof.
  revert i. induction c as [|a [|b c] IH]; intros i H; cbn [length] in H; try lia.
  destruct i as [|i]; [reflexivity|]. change (removelast (a :: b :: c)) with (a :: removelast (b :: c)). cbn [tl combine nth].
  destruct c as [|e c]; [cbn [length] in H; lia|]. assert (Hi : (S i < length (b :: e :: c))%nat) by (cbn [length] in *; lia). exact (IH i Hi).
Qed.
Lemma last_only_length a : a <> [] -> length (last_only a) = 1%nat.
Proof. unfold last_only. intros H. destruct (rev a) eqn:E; auto. contradict H. now rewrite <- (rev_involutive a), E. Qed.
Lemma last_only_nth a d : a <> [] -> nth 0 (last_only a) d = nth (length a - 1) a d.
Proof.
  intros H. unfold last_only. destruct (rev a) as [|x r] eqn:E; [contradict H; now rewrite <- (rev_involutive a), E|].
  assert (X : a = rev r ++ [x]) by (rewrite <- (rev_involutive a), E; reflexivity). rewrite X, app_length. cbn [length nth].
  replace (length (rev r) + 1 - 1)%nat with (length (rev r)) by lia. rewrite app_nth2, Nat.sub_diag by lia. reflexivity.
Qed.
Theorem c83_rows_partial : forall lon lat d, length lon = length lat -> (2 <= length lon)%nat ->
  length (angles_row lon lat) = length lon /\
  (forall i, (S i < length lon)%nat -> nth i (angles_row lon lat) d =
     angle_from_true_east (fst (nth i lon (0, false)), fst (nth i lat (0, false))) (fst (nth (S i) lon (0, false)), fst (nth (S i) lat (0, false)))) /\
  nth (length lon - 1) (angles_row lon lat) d = nth (length lon - 2) (angles_row lon lat) d.
Proof.
  intros lon lat d L H. unfold BearModel.entry in *. unfold angles_row. cbv zeta. set (c := pair_row lon lat).
  assert (Lc : length c = length lon) by (unfold c, pair_row; rewrite combine_length, !map_length; unfold BearModel.entry in *; lia).
  assert (Nc : forall i, nth i c (0, 0) = (fst (nth i lon (0, false)), fst (nth i lat (0, false)))).
  { intros i. unfold c, pair_row. rewrite combine_nth by now rewrite !map_length.
    change 0 with (fst (0, false)) at 1. rewrite map_nth. change 0 with (fst (0, false)) at 2. now rewrite map_nth. }
  set (a := map _ _). assert (La : length a = (length lon - 1)%nat) by (unfold a; rewrite map_length, pairs_length; lia).
  assert (Na : a <> []) by (intros X; rewrite X in La; cbn in La; lia).
  assert (Ai : forall i, (S i < length lon)%nat -> nth i a d = angle_from_true_east (nth i c (0, 0)) (nth (S i) c (0, 0))).
  { intros i Hi. unfold a. rewrite (nth_indep _ d (angle_from_true_east (fst ((0, 0), (0, 0))) (snd ((0, 0), (0, 0))))) by (rewrite map_length, pairs_length; lia).
    rewrite (map_nth (fun pq => angle_from_true_east (fst pq) (snd pq)) _ ((0, 0), (0, 0)) i). rewrite pairs_nth by lia. reflexivity. }
  split; [rewrite app_length, last_only_length by auto; lia|]. split.
  - intros i Hi. rewrite app_nth1 by lia. rewrite Ai by auto. now rewrite !Nc.
  - rewrite app_nth2 by lia. replace (length lon - 1 - length a)%nat with 0%nat by lia. rewrite last_only_nth by auto.
    rewrite app_nth1 by lia. f_equal. lia.
Qed.
Print Assumptions c83_rows_partial.
Example c83_rows_demo : length (angles_row [(0, false); (1, false); (2, true)] [(0, false); (0, false); (0, false)]) = 3%nat /\
  nth 1 (angles_row [(0, false); (1, false); (2, true)] [(0, false); (0, false); (0, false)]) 7 = 0.
Proof.
  destruct (c83_rows_partial [(0, false); (1, false); (2, true)] [(0, false); (0, false); (0, false)] 7) as (A & B & _); cbn; auto; try lia.
  split; [exact A|]. etransitivity; [exact (B 1%nat ltac:(cbn; lia))|]. cbn [nth fst]. unfold angle_from_true_east. rewrite (proj1 (proj2 c83_cardinal 1 2 ltac:(lra))). lra.
Qed.
(** The array of angles is made row by row. *)
Theorem c83_grid : forall lon lat, length lon = length lat -> length (angles lon lat) = length lon /\
  forall i, (i < length lon)%nat -> nth i (angles lon lat) [] = angles_row (nth i lon []) (nth i lat []).
Proof.
  intros lon lat L. unfold angles. assert (Lc : length (combine lon lat) = length lon) by (rewrite combine_length, <- L; apply Nat.min_id). split; [now rewrite map_length|]. intros i H.
  rewrite (nth_indep _ [] (angles_row (@nil entry) (@nil entry))) by now rewrite map_length, Lc.
  pose proof (map_nth (fun ll => angles_row (fst ll) (snd ll)) (combine lon lat) ([], []) i) as X. cbn [fst snd] in X. rewrite X, combine_nth by exact L. reflexivity.
Qed.
Print Assumptions c83_grid.
Example c83_grid_demo : nth 1 (angles [[(0, false); (1, false)]; [(2, false); (5, false)]] [[(0, false); (0, false)]; [(1, false); (1, true)]]) []
  = angles_row [(2, false); (5, false)] [(1, false); (1, true)].
Proof. apply (proj2 (c83_grid [[(0, false); (1, false)]; [(2, false); (5, false)]] [[(0, false); (0, false)]; [(1, false); (1, true)]] eq_refl) 1%nat). cbn. lia. Qed.
(** A row of one cell gets no angle. *)
Theorem c83_single_refuted : forall x y, angles_row [x] [y] = [].
Proof. reflexivity. Qed.
Print Assumptions c83_single_refuted.
(** Masks are not looked at: the numbers below them are used. *)
Theorem c83_masks_refuted : (forall lon lat lon' lat', map (map fst) lon = map (map fst) lon' -> map (map fst) lat = map (map fst) lat' -> angles lon lat = angles lon' lat') /\
  exists x, angles_row [(0, false); (0, false)] [(0, false); (x, true)] <> angles_row [(0, false); (0, false)] [(0, false); (0, true)].
Proof.
  split.
  - intros lon lat lon' lat' A B. unfold angles, angles_row, pair_row. revert lon' lat lat' A B.
    induction lon as [|r lon IH]; intros [|r' lon'] lat lat' A B; cbn [map] in A; try discriminate; auto.
    injection A as A1 A2. destruct lat as [|s lat], lat' as [|s' lat']; cbn [map] in B; try discriminate; auto.
    injection B as B1 B2. cbn [combine map fst snd]. rewrite A1, B1. f_equal. exact (IH _ _ _ A2 B2).
  - exists (-10). cbn. intros H. injection H as H _.
    assert (E1 : bearing (0, 0) (0, -10) = 180) by (apply (proj1 c83_cardinal); lra).
    assert (E2 : bearing (0, 0) (0, 0) = 0).
    { unfold bearing. cbn [fst snd]. unfold radians. replace (0 * PI / 180) with 0 by field. rewrite Rminus_0_r, sin_0, cos_0.
      replace (0 * 1) with 0 by ring. replace (1 * 0 - 0 * 1) with 0 by ring. unfold arctan2. repeat (destruct (Rlt_dec _ _); [lra|]).
      apply (mod360_unique _ 0 1); [|lra]. pose proof PI_RGT_0. field. lra. }
    unfold angle_from_true_east in H. rewrite E1, E2 in H. pose proof PI_RGT_0. lra.
Qed.
Print Assumptions c83_masks_refuted.
