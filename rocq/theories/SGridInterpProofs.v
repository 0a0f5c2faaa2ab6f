(** Geometry of the bilinear cell map and of the code that inverts it. *)
From Coq Require Import Reals Lra String.
From Verif Require Import Common CommonProofs DepthModel DepthProofs MaskModel GridTypeModel SGridModel SGridSpec SGridProofs
  SGridInterpModel SGridInterpSpec.
Open Scope R_scope.

Lemma coef_of v00 v10 v11 v01 :
  cell_coef [v00; v10; v11; v01] = (v00, v01 - v00, v10 - v00, v11 - v10 - v01 + v00).
Proof. unfold cell_coef, to_coef, mat_vec, dotZ. cbn -[IZR]. apply f_equal2; [apply f_equal2; [apply f_equal2|]|]; ring. Qed.

Definition ev (a : coef) (l m : R) : R := let '(a0, a1, a2, a3) := a in a0 + a1 * l + a2 * m + a3 * l * m.
Lemma ev_bilin v00 v10 v11 v01 l m : ev (cell_coef [v00; v10; v11; v01]) l m = bilin v00 v01 v10 v11 l m.
Proof. rewrite coef_of. unfold ev, bilin. ring. Qed.

Lemma ratio_some x a0 a2 m a1 a3 l : ratio x a0 a2 m a1 a3 = Some l ->
  a1 + a3 * m <> 0 /\ l * (a1 + a3 * m) = x - a0 - a2 * m.
Proof.
  unfold ratio. destruct (Req_EM_T _ _) as [|Hn]; [discriminate|]. intros E. injection E as <-. split; [exact Hn|]. field. exact Hn.
Qed.
Lemma ratio_ok x a0 a2 m a1 a3 l : a1 + a3 * m <> 0 -> l * (a1 + a3 * m) = x - a0 - a2 * m ->
  ratio x a0 a2 m a1 a3 = Some l.
Proof.
  intros Hn E. unfold ratio. destruct (Req_EM_T _ _) as [|H]; [contradiction|]. rewrite <- E. f_equal. field. exact Hn.
Qed.

Section Inv.
  Context (x y a0 a1 a2 a3 b0 b1 b2 b3 : R).
  Let aa := a3 * b2 - a2 * b3.
  Let bb := a3 * b0 - a0 * b3 + a1 * b2 - a2 * b1 + x * b3 - y * a3.
  Let cc := a1 * b0 - a0 * b1 + x * b1 - y * a1.
  Let q (m : R) := aa * m * m + bb * m + cc.
  Let a : coef := (a0, a1, a2, a3).
  Let b : coef := (b0, b1, b2, b3).
  (** Derivative determinant of the cell map. *)
  Definition jac (l m : R) : R := (a1 + a3 * m) * (b2 + b3 * l) - (b1 + b3 * m) * (a2 + a3 * l).

  Lemma q_ident m : q m = (x - a0 - a2 * m) * (b1 + b3 * m) - (y - b0 - b2 * m) * (a1 + a3 * m).
  Proof. unfold q, aa, bb, cc. ring. Qed.
  Lemma q_root l m : ev a l m = x -> ev b l m = y -> q m = 0.
  Proof. unfold ev, a, b. intros Hx Hy. rewrite q_ident, <- Hx, <- Hy. ring. Qed.
  Lemma q_deriv l m : ev a l m = x -> ev b l m = y -> 2 * aa * m + bb = jac l m.
  Proof. unfold ev, a, b, aa, bb, jac. intros Hx Hy. rewrite <- Hx, <- Hy. ring. Qed.
  Lemma root_maps m l : q m = 0 -> a1 + a3 * m <> 0 -> l * (a1 + a3 * m) = x - a0 - a2 * m ->
    ev a l m = x /\ ev b l m = y.
  Proof.
    intros Hq Hd Hl. rewrite q_ident, <- Hl in Hq. unfold ev, a, b. split; [lra|].
    assert (E : (a1 + a3 * m) * (l * (b1 + b3 * m) - (y - b0 - b2 * m)) = 0) by lra.
    apply Rmult_integral in E. destruct E as [E|E]; [contradiction|lra].
  Qed.

  Lemma quad_roots : aa <> 0 -> 0 <= bb * bb - 4 * aa * cc ->
    let det := sqrt (bb * bb - 4 * aa * cc) in
    q ((- bb - det) / (2 * aa)) = 0 /\ q ((- bb + det) / (2 * aa)) = 0 /\
    forall m, q m = 0 -> m = (- bb - det) / (2 * aa) \/ m = (- bb + det) / (2 * aa).
  Proof.
    intros Ha Hk det. assert (Hd : det * det = bb * bb - 4 * aa * cc) by (apply sqrt_sqrt; exact Hk).
    assert (F : forall m, 4 * aa * q m = (2 * aa * m + bb) * (2 * aa * m + bb) - det * det).
    { intros m. unfold q. rewrite Hd. ring. }
    assert (Z : forall m, (2 * aa * m + bb) * (2 * aa * m + bb) = det * det -> q m = 0).
    { intros m E. specialize (F m). rewrite E in F. assert (E' : 4 * aa * q m = 0) by lra.
      apply Rmult_integral in E'. destruct E' as [E'|E']; [lra|exact E']. }
    split; [|split].
    - apply Z. field_simplify; [|exact Ha..]. ring.
    - apply Z. field_simplify; [|exact Ha..]. ring.
    - intros m Hm. specialize (F m). rewrite Hm in F.
      assert (E : (2 * aa * m + bb + det) * (2 * aa * m + bb - det) = 0) by lra.
      apply Rmult_integral in E. destruct E as [E|E]; [left|right];
        (apply Rmult_eq_reg_l with (2 * aa); [|lra]); field_simplify; try exact Ha; lra.
  Qed.

  Lemma maps_back l m : x_to_l x y a b = LM l m -> ev a l m = x /\ ev b l m = y.
  Proof.
    unfold x_to_l, a, b. fold aa bb cc. destruct (Req_EM_T aa 0) as [Ha|Ha].
    - destruct (Req_EM_T bb 0) as [|Hb]; [discriminate|].
      destruct (ratio x a0 a2 (- cc / bb) a1 a3) eqn:E; [|discriminate]. intros H. injection H as <- <-.
      apply ratio_some in E. destruct E as [Hd E]. apply (root_maps (- cc / bb) r); [|exact Hd|exact E].
      unfold q. rewrite Ha. field. exact Hb.
    - destruct (Rlt_dec _ 0) as [|Hk]; [discriminate|]. apply Rnot_lt_le in Hk.
      destruct (quad_roots Ha Hk) as (R1 & R2 & _). cbv zeta.
      set (m1 := (- bb - sqrt (bb * bb - 4 * aa * cc)) / (2 * aa)) in *.
      set (m2 := (- bb + sqrt (bb * bb - 4 * aa * cc)) / (2 * aa)) in *.
      assert (S2 : match ratio x a0 a2 m2 a1 a3 with Some l2 => LM l2 m2 | None => LAny end = LM l m ->
                   ev a l m = x /\ ev b l m = y).
      { destruct (ratio x a0 a2 m2 a1 a3) eqn:E; [|discriminate]. intros H. injection H as <- <-.
        apply ratio_some in E. apply root_maps; tauto. }
      destruct (ratio x a0 a2 m1 a1 a3) as [l1|] eqn:E1.
      + destruct (off01 l1 || off01 m1); [exact S2|]. intros H. injection H as <- <-.
        apply ratio_some in E1. apply root_maps; tauto.
      + destruct (off01 m1); [exact S2|discriminate].
  Qed.

  Lemma off01_false t : off01 t = false <-> 0 <= t <= 1.
  Proof.
    unfold off01. destruct (Rlt_dec t 0); [split; [discriminate|lra]|]. destruct (Rgt_dec t 1); [split; [discriminate|lra]|]. split; [lra|auto].
  Qed.

  (** The cell map takes different points of the unit square to different
      points, and its derivative does not vanish there. *)
  Context (Inj : forall l m l' m', Unit l m -> Unit l' m' -> ev a l m = ev a l' m' -> ev b l m = ev b l' m' -> l = l' /\ m = m')
          (Jac : forall l m, Unit l m -> jac l m <> 0).

  Lemma in_cell_exact l0 m0 l m : Unit l0 m0 -> ev a l0 m0 = x -> ev b l0 m0 = y ->
    x_to_l x y a b = LM l m -> l = l0 /\ m = m0.
  Proof.
    intros Hu Hx Hy. pose proof (q_root l0 m0 Hx Hy) as Hq.
    assert (L0 : l0 * (a1 + a3 * m0) = x - a0 - a2 * m0) by (rewrite <- Hx; unfold ev, a; ring).
    unfold x_to_l, a, b. fold aa bb cc. destruct (Req_EM_T aa 0) as [Ha|Ha].
    - destruct (Req_EM_T bb 0) as [|Hb]; [discriminate|].
      destruct (ratio x a0 a2 (- cc / bb) a1 a3) eqn:E; [|discriminate]. intros H. injection H as <- <-.
      assert (M : m0 = - cc / bb).
      { unfold q in Hq. rewrite Ha in Hq. apply Rmult_eq_reg_l with bb; [|exact Hb]. field_simplify; [|exact Hb]. lra. }
      apply ratio_some in E. destruct E as [Hd E]. rewrite <- M in *. split; [|reflexivity].
      apply Rmult_eq_reg_r with (a1 + a3 * m0); [|exact Hd]. lra.
    - destruct (Rlt_dec _ 0) as [|Hk]; [discriminate|]. apply Rnot_lt_le in Hk.
      destruct (quad_roots Ha Hk) as (R1 & R2 & RR). cbv zeta.
      set (m1 := (- bb - sqrt (bb * bb - 4 * aa * cc)) / (2 * aa)) in *.
      set (m2 := (- bb + sqrt (bb * bb - 4 * aa * cc)) / (2 * aa)) in *.
      assert (S2 : m0 = m2 -> match ratio x a0 a2 m2 a1 a3 with Some l2 => LM l2 m2 | None => LAny end = LM l m -> l = l0 /\ m = m0).
      { intros M. destruct (ratio x a0 a2 m2 a1 a3) eqn:E; [|discriminate]. intros H. injection H as <- <-.
        apply ratio_some in E. destruct E as [Hd E]. rewrite <- M in *. split; [|reflexivity].
        apply Rmult_eq_reg_r with (a1 + a3 * m0); [|exact Hd]. lra. }
      destruct (ratio x a0 a2 m1 a1 a3) as [l1|] eqn:E1.
      + apply ratio_some in E1. destruct E1 as [Hd E1].
        destruct (off01 l1 || off01 m1) eqn:Ho.
        * apply S2. destruct (RR m0 Hq) as [M|M]; [|exact M]. exfalso. rewrite <- M in *.
          assert (l1 = l0) by (apply Rmult_eq_reg_r with (a1 + a3 * m0); [|exact Hd]; lra). subst l1.
          destruct Hu as [U1 U2]. apply off01_false in U1. apply off01_false in U2. rewrite U1, U2 in Ho. discriminate.
        * intros H. injection H as <- <-. apply orb_false_iff in Ho. destruct Ho as [O1 O2].
          apply off01_false in O1. apply off01_false in O2.
          destruct (root_maps m1 l1 R1 Hd E1) as [X1 Y1]. apply Inj; [split; assumption|exact Hu|congruence|congruence].
      + destruct (off01 m1) eqn:Ho; [|discriminate]. apply S2. destruct (RR m0 Hq) as [M|M]; [|exact M]. exfalso.
        destruct Hu as [U1 U2]. apply off01_false in U2. congruence.
  Qed.

  Lemma in_cell_defined l0 m0 : Unit l0 m0 -> ev a l0 m0 = x -> ev b l0 m0 = y ->
    (forall m, 0 <= m <= 1 -> a1 + a3 * m <> 0) -> x_to_l x y a b = LM l0 m0.
  Proof.
    intros Hu Hx Hy Hden. pose proof (q_root l0 m0 Hx Hy) as Hq. pose proof (q_deriv l0 m0 Hx Hy) as Hj.
    pose proof (Jac l0 m0 Hu) as HJ.
    assert (L0 : l0 * (a1 + a3 * m0) = x - a0 - a2 * m0) by (rewrite <- Hx; unfold ev, a; ring).
    assert (R0 : ratio x a0 a2 m0 a1 a3 = Some l0) by (apply ratio_ok; [apply Hden, Hu|exact L0]).
    destruct (x_to_l x y a b) as [l m| |] eqn:E.
    { destruct (in_cell_exact l0 m0 l m Hu Hx Hy E) as [-> ->]. reflexivity. }
    all: exfalso; revert E; unfold x_to_l, a, b; fold aa bb cc; destruct (Req_EM_T aa 0) as [Ha|Ha].
    - assert (Hb : bb <> 0) by (rewrite Ha in Hj; lra). destruct (Req_EM_T bb 0) as [|_]; [contradiction|].
      assert (M : m0 = - cc / bb).
      { unfold q in Hq. rewrite Ha in Hq. apply Rmult_eq_reg_l with bb; [|exact Hb]. field_simplify; [|exact Hb]. lra. }
      cbv zeta. rewrite <- M, R0. discriminate.
    - clear R0. cbv zeta. repeat (match goal with |- context [match ?t with _ => _ end] => destruct t end; try discriminate).
    - clear R0. cbv zeta. repeat (match goal with |- context [match ?t with _ => _ end] => destruct t end; try discriminate).
    - assert (Hk : 0 <= bb * bb - 4 * aa * cc).
      { assert (Ek : bb * bb - 4 * aa * cc = (2 * aa * m0 + bb) * (2 * aa * m0 + bb)).
        { assert (4 * aa * q m0 = 0) by (rewrite Hq; ring). unfold q in H. lra. }
        rewrite Ek. apply Rle_0_sqr. }
      destruct (Rlt_dec _ 0) as [|_]; [lra|]. destruct (quad_roots Ha Hk) as (R1 & R2 & RR). cbv zeta.
      set (m1 := (- bb - sqrt (bb * bb - 4 * aa * cc)) / (2 * aa)) in *.
      set (m2 := (- bb + sqrt (bb * bb - 4 * aa * cc)) / (2 * aa)) in *.
      destruct (RR m0 Hq) as [M|M].
      + rewrite <- M, R0. destruct Hu as [U1 U2]. apply off01_false in U1. apply off01_false in U2. rewrite U1, U2. discriminate.
      + rewrite <- M, R0. destruct (ratio x a0 a2 m1 a1 a3) eqn:E1.
        * destruct (off01 r || off01 m1); discriminate.
        * destruct (off01 m1) eqn:Ho; [discriminate|]. apply off01_false in Ho. apply Hden in Ho.
          exfalso. unfold ratio in E1. destruct (Req_EM_T _ _); [contradiction|discriminate].
  Qed.
End Inv.

(** ** Convex cells *)
Definition qa (q : quad) : coef := cell_coef (quad_lon q).
Definition qb (q : quad) : coef := cell_coef (quad_lat q).
Lemma place_ev q l m : place q l m = (ev (qa q) l m, ev (qb q) l m).
Proof. unfold place, qa, qb, quad_lon, quad_lat. cbn [map]. rewrite !ev_bilin. reflexivity. Qed.

Definition qjac (q : quad) (l m : R) : R :=
  let '(a0, a1, a2, a3) := qa q in let '(b0, b1, b2, b3) := qb q in jac a1 a2 a3 b1 b2 b3 l m.
(** The Jacobian is the bilinear mixture of the four turns. *)
Lemma qjac_turns q l m :
  qjac q l m = (1 - l - m) * turn (q00 q) (q01 q) (q10 q) + l * turn (q01 q) (q11 q) (q00 q) + m * turn (q10 q) (q00 q) (q11 q)
  /\ qjac q l m = (l + m - 1) * turn (q11 q) (q10 q) (q01 q) + (1 - m) * turn (q01 q) (q11 q) (q00 q) + (1 - l) * turn (q10 q) (q00 q) (q11 q).
Proof.
  unfold qjac, qa, qb, quad_lon, quad_lat. cbn [map]. rewrite !coef_of. unfold jac, turn. split; ring.
Qed.
Lemma comb_pos u v w a b c : 0 <= u -> 0 <= v -> 0 <= w -> 0 < u + v + w -> 0 < a -> 0 < b -> 0 < c -> 0 < u * a + v * b + w * c.
Proof.
  intros. assert (0 <= u * a) by (apply Rmult_le_pos; lra). assert (0 <= v * b) by (apply Rmult_le_pos; lra).
  assert (0 <= w * c) by (apply Rmult_le_pos; lra).
  destruct (Req_dec u 0); [destruct (Req_dec v 0)|].
  - assert (0 < w * c) by (apply Rmult_lt_0_compat; lra). lra.
  - assert (0 < v * b) by (apply Rmult_lt_0_compat; lra). lra.
  - assert (0 < u * a) by (apply Rmult_lt_0_compat; lra). lra.
Qed.
Lemma comb_neg u v w a b c : 0 <= u -> 0 <= v -> 0 <= w -> 0 < u + v + w -> a < 0 -> b < 0 -> c < 0 -> u * a + v * b + w * c < 0.
Proof. intros. pose proof (comb_pos u v w (- a) (- b) (- c)). lra. Qed.
Lemma convex_jac q l m : Convex q -> Unit l m -> qjac q l m <> 0.
Proof.
  intros HC [Hl Hm]. destruct (qjac_turns q l m) as [E1 E2].
  destruct (Rle_dec (l + m) 1) as [H|H].
  - rewrite E1. destruct HC as [(A & B & C & D)|(A & B & C & D)].
    + apply Rgt_not_eq, comb_pos; lra.
    + apply Rlt_not_eq, comb_neg; lra.
  - rewrite E2. destruct HC as [(A & B & C & D)|(A & B & C & D)].
    + apply Rgt_not_eq, comb_pos; lra.
    + apply Rlt_not_eq, comb_neg; lra.
Qed.
(** F(p) - F(p') is the derivative at the midpoint applied to p - p'. *)
Lemma convex_inj q l m l' m' : Convex q -> Unit l m -> Unit l' m' ->
  ev (qa q) l m = ev (qa q) l' m' -> ev (qb q) l m = ev (qb q) l' m' -> l = l' /\ m = m'.
Proof.
  intros HC Hu Hu' Ha Hb.
  assert (Hmid : Unit ((l + l') / 2) ((m + m') / 2)) by (destruct Hu, Hu'; split; lra).
  pose proof (convex_jac q _ _ HC Hmid) as HJ. unfold qjac in HJ.
  destruct (qa q) as [[[a0 a1] a2] a3]. destruct (qb q) as [[[b0 b1] b2] b3]. unfold ev in Ha, Hb. unfold jac in HJ.
  set (X1 := a1 + a3 * ((m + m') / 2)) in *. set (X2 := a2 + a3 * ((l + l') / 2)) in *.
  set (Y1 := b1 + b3 * ((m + m') / 2)) in *. set (Y2 := b2 + b3 * ((l + l') / 2)) in *.
  assert (EX : X1 * (l - l') + X2 * (m - m') = 0) by (unfold X1, X2; lra).
  assert (EY : Y1 * (l - l') + Y2 * (m - m') = 0) by (unfold Y1, Y2; lra).
  assert (D1 : (X1 * Y2 - Y1 * X2) * (l - l') = 0).
  { replace ((X1 * Y2 - Y1 * X2) * (l - l')) with (Y2 * (X1 * (l - l') + X2 * (m - m')) - X2 * (Y1 * (l - l') + Y2 * (m - m'))) by ring.
    rewrite EX, EY. ring. }
  assert (D2 : (X1 * Y2 - Y1 * X2) * (m - m') = 0).
  { replace ((X1 * Y2 - Y1 * X2) * (m - m')) with (X1 * (Y1 * (l - l') + Y2 * (m - m')) - Y1 * (X1 * (l - l') + X2 * (m - m'))) by ring.
    rewrite EX, EY. ring. }
  apply Rmult_integral in D1. apply Rmult_integral in D2. split; destruct D1, D2; lra.
Qed.
Lemma east_den q : EastAlongColumns q ->
  let '(a0, a1, a2, a3) := qa q in forall m, 0 <= m <= 1 -> a1 + a3 * m <> 0.
Proof.
  unfold EastAlongColumns, qa, quad_lon. cbn [map]. rewrite coef_of. intros H m Hm.
  replace (fst (q01 q) - fst (q00 q) + (fst (q11 q) - fst (q10 q) - fst (q01 q) + fst (q00 q)) * m)
    with ((1 - m) * (fst (q01 q) - fst (q00 q)) + m * (fst (q11 q) - fst (q10 q)) + 0 * 1) by ring.
  destruct H as [[H1 H2]|[H1 H2]].
  - apply Rgt_not_eq, comb_pos; lra.
  - pose proof (comb_pos (1 - m) m 0 (- (fst (q01 q) - fst (q00 q))) (- (fst (q11 q) - fst (q10 q))) 1). lra.
Qed.

Lemma quad_back q p l m : x_to_l (fst p) (snd p) (qa q) (qb q) = LM l m -> place q l m = p.
Proof.
  intros E. rewrite place_ev. destruct (qa q) as [[[a0 a1] a2] a3]. destruct (qb q) as [[[b0 b1] b2] b3].
  apply maps_back in E. destruct E as [-> ->]. destruct p; reflexivity.
Qed.
Lemma quad_exact q p l0 m0 l m : Convex q -> Unit l0 m0 -> place q l0 m0 = p ->
  x_to_l (fst p) (snd p) (qa q) (qb q) = LM l m -> l = l0 /\ m = m0.
Proof.
  intros HC Hu <-. rewrite place_ev. cbn [fst snd].
  pose proof (fun l m l' m' => convex_inj q l m l' m' HC) as I.
  destruct (qa q) as [[[a0 a1] a2] a3]. destruct (qb q) as [[[b0 b1] b2] b3].
  apply in_cell_exact; auto.
Qed.
Lemma quad_defined q p l0 m0 : Convex q -> EastAlongColumns q -> Unit l0 m0 -> place q l0 m0 = p ->
  x_to_l (fst p) (snd p) (qa q) (qb q) = LM l0 m0.
Proof.
  intros HC HE Hu <-. rewrite place_ev. cbn [fst snd].
  pose proof (fun l m l' m' => convex_inj q l m l' m' HC) as I.
  pose proof (fun l m => convex_jac q l m HC) as J. pose proof (east_den q HE) as D. unfold qjac in J.
  destruct (qa q) as [[[a0 a1] a2] a3]. destruct (qb q) as [[[b0 b1] b2] b3].
  apply in_cell_defined; auto.
Qed.
