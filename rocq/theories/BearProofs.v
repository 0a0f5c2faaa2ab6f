(** Lemmas about bearings. *)
From Coq Require Import Reals Lra List Lia.
From Verif Require Import BearModel BearSpec.
Import ListNotations.
Open Scope R_scope.

Lemma radians_rad d : radians d = rad d.
Proof. unfold radians, rad. field. Qed.
Lemma sqrt_ratio x y : 0 < x -> sqrt (x * x + y * y) = x * sqrt (1 + Rsqr (y / x)).
Proof.
  intros H. replace (x * x + y * y) with (Rsqr x * (1 + Rsqr (y / x))) by (unfold Rsqr; field; lra).
  rewrite sqrt_mult; [|apply Rle_0_sqr|pose proof (Rle_0_sqr (y / x)); lra]. rewrite sqrt_Rsqr by lra. reflexivity.
Qed.
Lemma pos_root t : 0 < sqrt (1 + Rsqr t).
Proof. apply sqrt_lt_R0. pose proof (Rle_0_sqr t). lra. Qed.
(** The polar form. *)
Lemma arctan2_polar y x : x = sqrt (x * x + y * y) * cos (arctan2 y x) /\ y = sqrt (x * x + y * y) * sin (arctan2 y x).
Proof.
  unfold arctan2. pose proof PI_RGT_0 as P.
  destruct (Rlt_dec 0 x) as [H|H].
  - rewrite cos_atan, sin_atan, (sqrt_ratio x y H). pose proof (pos_root (y / x)). split; field; lra.
  - destruct (Rlt_dec x 0) as [H'|H'].
    + assert (E : sqrt (x * x + y * y) = - x * sqrt (1 + Rsqr (y / x))).
      { replace (x * x + y * y) with ((- x) * (- x) + (- y) * (- y)) by ring. rewrite sqrt_ratio by lra.
        replace (- y / - x) with (y / x) by (field; lra). reflexivity. }
      pose proof (pos_root (y / x)).
      assert (S : sin (atan (y / x) + PI) = - sin (atan (y / x))) by apply neg_sin.
      assert (C : cos (atan (y / x) + PI) = - cos (atan (y / x))) by apply neg_cos.
      assert (S' : sin (atan (y / x) - PI) = - sin (atan (y / x))).
      { replace (atan (y / x)) with ((atan (y / x) - PI) + PI) at 2 by ring. rewrite neg_sin. ring. }
      assert (C' : cos (atan (y / x) - PI) = - cos (atan (y / x))).
      { replace (atan (y / x)) with ((atan (y / x) - PI) + PI) at 2 by ring. rewrite neg_cos. ring. }
      destruct (Rle_dec 0 y); rewrite ?S, ?C, ?S', ?C', cos_atan, sin_atan, E; split; field; lra.
    + assert (x = 0) by lra. subst x. replace (0 * 0 + y * y) with (Rsqr y) by (unfold Rsqr; ring). rewrite sqrt_Rsqr_abs.
      destruct (Rlt_dec 0 y) as [Y|Y].
      * rewrite cos_PI2, sin_PI2, Rabs_pos_eq by lra. split; ring.
      * destruct (Rlt_dec y 0) as [Y'|Y'].
        -- rewrite cos_neg, sin_neg, cos_PI2, sin_PI2, Rabs_left by lra. split; ring.
        -- assert (y = 0) by lra. subst. rewrite Rabs_R0, cos_0, sin_0. split; ring.
Qed.
Lemma arctan2_range y x : - PI <= arctan2 y x <= PI.
Proof.
  unfold arctan2. pose proof PI_RGT_0 as P. pose proof (atan_bound (y / x)) as B.
  destruct (Rlt_dec 0 x); [lra|]. destruct (Rlt_dec x 0) as [X|X].
  - destruct (Rle_dec 0 y) as [Y|Y].
    + assert (y / x <= 0).
      { unfold Rdiv. pose proof (Rinv_lt_0_compat x X). nra. }
      assert (atan (y / x) <= 0). { rewrite <- atan_0. destruct (Req_dec (y / x) 0) as [->|]; [lra|]. left. apply atan_increasing. lra. }
      lra.
    + assert (0 < y / x). { unfold Rdiv. pose proof (Rinv_lt_0_compat x X). nra. }
      assert (0 < atan (y / x)). { rewrite <- atan_0. now apply atan_increasing. }
      lra.
  - destruct (Rlt_dec 0 y); [lra|]. destruct (Rlt_dec y 0); lra.
Qed.
Lemma mod360_range x : 0 <= mod360 x < 360.
Proof. unfold mod360. destruct (base_Int_part (x / 360)) as [A B]. lra. Qed.
Lemma mod360_unique x b k : x = b + 360 * IZR k -> 0 <= b < 360 -> mod360 x = b.
Proof.
  intros E B. pose proof (mod360_range x) as R. unfold mod360 in *. set (n := Int_part (x / 360)) in *.
  assert (D : IZR (k - n) * 360 = x - 360 * IZR n - b) by (rewrite minus_IZR; lra).
  assert (k - n < 1)%Z by (apply lt_IZR; lra). assert (-1 < k - n)%Z by (apply lt_IZR; lra).
  assert (k = n) by lia. subst k. lra.
Qed.
Lemma sin_turns t : forall k : Z, sin (t + 2 * IZR k * PI) = sin t.
Proof.
  intros k. destruct (Z_le_dec 0 k) as [H|H].
  - rewrite <- (Z2Nat.id k H), <- INR_IZR_INZ. apply sin_period.
  - rewrite <- (sin_period (t + 2 * IZR k * PI) (Z.to_nat (- k))). f_equal. rewrite INR_IZR_INZ, Z2Nat.id by lia. rewrite opp_IZR. ring.
Qed.
Lemma cos_turns t : forall k : Z, cos (t + 2 * IZR k * PI) = cos t.
Proof.
  intros k. destruct (Z_le_dec 0 k) as [H|H].
  - rewrite <- (Z2Nat.id k H), <- INR_IZR_INZ. apply cos_period.
  - rewrite <- (cos_period (t + 2 * IZR k * PI) (Z.to_nat (- k))). f_equal. rewrite INR_IZR_INZ, Z2Nat.id by lia. rewrite opp_IZR. ring.
Qed.
(** The bearing in radians is the polar angle, up to turns. *)
Lemma bearing_turns p q : exists (a : R) (k : Z), rad (bearing p q) = a + 2 * IZR k * PI /\
  a = arctan2 (eastward p q) (northward p q) /\ -1 <= IZR k <= 1.
Proof.
  unfold bearing. cbv zeta. rewrite !radians_rad.
  set (lon1 := rad (fst p)). set (lat1 := rad (snd p)). set (lon2 := rad (fst q)). set (lat2 := rad (snd q)).
  assert (E : sin (lon2 - lon1) * cos lat2 = eastward p q).
  { unfold eastward, place, dot, east, sphere. fold lon1 lon2 lat2. rewrite sin_minus. ring. }
  assert (N : cos lat1 * sin lat2 - sin lat1 * cos lat2 * cos (lon2 - lon1) = northward p q).
  { unfold northward, place, dot, north, sphere. fold lon1 lon2 lat1 lat2. rewrite cos_minus. ring. }
  rewrite E, N. set (a := arctan2 _ _). exists a, (1 - Int_part ((a * 180 / PI + 360) / 360))%Z.
  pose proof PI_RGT_0. split; [|split; [reflexivity|]].
  - unfold rad, mod360. rewrite minus_IZR. field. lra.
  - pose proof (mod360_range (a * 180 / PI + 360)) as M. unfold mod360 in M. set (n := Int_part ((a * 180 / PI + 360) / 360)) in *.
    pose proof (arctan2_range (eastward p q) (northward p q)) as R. fold a in R.
    assert (L : -180 <= a * 180 / PI <= 180).
    { split; [apply Rmult_le_reg_r with PI|apply Rmult_le_reg_r with PI]; try assumption; unfold Rdiv; rewrite Rmult_assoc, Rinv_l by lra; lra. }
    rewrite minus_IZR. assert (-1 < n)%Z by (apply lt_IZR; lra). assert (n < 2)%Z by (apply lt_IZR; lra).
    assert (0 <= IZR n <= 1) by (split; [apply (IZR_le 0)|apply (IZR_le n 1)]; lia). lra.
Qed.
Lemma spread p q : eastward p q * eastward p q + northward p q * northward p q = 1 - dot (place p) (place q) * dot (place p) (place q).
Proof.
  unfold eastward, northward, place, dot, east, north, sphere.
  set (a := rad (fst p)). set (b := rad (snd p)). set (c := rad (fst q)). set (d := rad (snd q)).
  pose proof (sin2_cos2 a) as A. pose proof (sin2_cos2 b) as B. pose proof (sin2_cos2 c) as C. pose proof (sin2_cos2 d) as D. unfold Rsqr in *.
  set (sa := sin a) in *. set (ca := cos a) in *. set (sb := sin b) in *. set (cb := cos b) in *. set (sc := sin c) in *. set (cc := cos c) in *. set (sd := sin d) in *. set (cd := cos d) in *.
  set (u := ca * cc + sa * sc). set (v := ca * sc - sa * cc).
  assert (UV : u * u + v * v = 1).
  { transitivity ((sa * sa + ca * ca) * (sc * sc + cc * cc)); [unfold u, v; ring|]. rewrite A, C. ring. }
  transitivity (cd * cd * (v * v) + (cb * sd - sb * cd * u) * (cb * sd - sb * cd * u)); [unfold u, v; ring|].
  transitivity (1 - (cb * cd * u + sb * sd) * (cb * cd * u + sb * sd)); [|unfold u, v; ring].
  assert (cd * cd * (v * v) + (cb * sd - sb * cd * u) * (cb * sd - sb * cd * u) + (cb * cd * u + sb * sd) * (cb * cd * u + sb * sd) = 1); [|lra].
  transitivity (cd * cd * (v * v) + (sb * sb + cb * cb) * (sd * sd) + (sb * sb + cb * cb) * (cd * cd * (u * u))); [ring|]. rewrite B.
  transitivity (cd * cd * (u * u + v * v) + sd * sd); [ring|]. rewrite UV. lra.
Qed.
