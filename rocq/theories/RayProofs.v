From Coq Require Import Permutation Sorting Lqa Qfield Bool.
From Verif Require Import Common CommonProofs UGridGeomModel RayModel RaySpec.
Open Scope Q_scope.

Ltac qb := repeat match goal with
  | H : Qlt_bool _ _ = true |- _ => apply Qlt_bool_iff in H
  | H : Qlt_bool _ _ = false |- _ => apply Qlt_bool_false in H
  end.

(** ** One side *)
Definition upw (p a b : pt) : bool := Qle_bool (snd a) (snd p) && Qlt_bool (snd p) (snd b).

Lemma upw_iff : forall p a b, upw p a b = true <-> snd a <= snd p /\ snd p < snd b.
Proof. intros. unfold upw. rewrite andb_true_iff, Qle_bool_iff, Qlt_bool_iff. tauto. Qed.

Lemma crosses_iff : forall p a b, crosses p a b = true <->
  (snd a <= snd p /\ snd p < snd b /\ 0 < turn a b p) \/ (snd b <= snd p /\ snd p < snd a /\ turn a b p < 0).
Proof.
  intros [px py] [ax ay] [bx by_]. unfold crosses, turn. cbn [fst snd].
  destruct (Qlt_bool py by_) eqn:B; destruct (Qlt_bool py ay) eqn:A; cbv [xorb]; cbv zeta; cbv iota;
  qb.
  - split; [discriminate|]. intros [(?&?&?)|(?&?&?)]; lra.
  - rewrite Qlt_bool_iff. assert (E : (ax - bx) * (py - by_) / (ay - by_) + bx - px ==
      ((bx - ax) * (py - ay) - (px - ax) * (by_ - ay)) / (by_ - ay)) by (field; try split; lra).
    assert (P : 0 < / (by_ - ay)) by (apply Qinv_lt_0_compat; lra).
    unfold Qdiv in E at 2. split.
    + intros H. left. repeat split; try lra.
      apply (Qmult_lt_r _ _ (/ (by_ - ay))); [exact P|]. lra.
    + intros [(_&_&H)|(?&?&?)]; [|lra]. apply (Qmult_lt_r _ _ (/ (by_ - ay))) in H; [lra|exact P].
  - rewrite Qlt_bool_iff. assert (E : px - ((ax - bx) * (py - by_) / (ay - by_) + bx) ==
      ((bx - ax) * (py - ay) - (px - ax) * (by_ - ay)) / (ay - by_)) by (field; try split; lra).
    assert (P : 0 < / (ay - by_)) by (apply Qinv_lt_0_compat; lra).
    unfold Qdiv in E at 2. split.
    + intros H. right. repeat split; try lra.
      apply (Qmult_lt_r _ _ (/ (ay - by_))); [exact P|]. lra.
    + intros [(?&?&?)|(_&_&H)]; [lra|]. apply (Qmult_lt_r _ _ (/ (ay - by_))) in H; [lra|exact P].
  - split; [discriminate|]. intros [(?&?&?)|(?&?&?)]; lra.
Qed.

Lemma turn_swap : forall a b c, turn b a c == - turn a b c.
Proof. intros. unfold turn. ring. Qed.
Lemma turn_cycle : forall a b c, turn b c a == turn a b c.
Proof. intros. unfold turn. ring. Qed.
Lemma bool_iff : forall a b : bool, (a = true <-> b = true) -> a = b.
Proof. intros [] []; intuition congruence. Qed.
Lemma crosses_sym : forall p a b, crosses p a b = crosses p b a.
Proof.
  intros. apply bool_iff. rewrite !crosses_iff. pose proof (turn_swap a b p). pose proof (turn_swap b a p). split; intros [(?&?&?)|(?&?&?)]; [right|left|right|left]; repeat split; lra.
Qed.

(** ** Walks *)
Fixpoint walk (p : pt) (l : list pt) : bool :=
  match l with
  | a :: ((b :: _) as r) => xorb (crosses p a b) (walk p r)
  | _ => false
  end.
Lemma walk_cons : forall p a b r, walk p (a :: b :: r) = xorb (crosses p a b) (walk p (b :: r)).
Proof. reflexivity. Qed.
Lemma sides_walk : forall p l v r, sides_from p v l r = xorb r (walk p (v :: l)).
Proof.
  induction l as [|w l IH]; intros v r; [cbn; now rewrite xorb_false_r|].
  cbn [sides_from]. rewrite IH, walk_cons. now rewrite xorb_assoc.
Qed.
Lemma walk_app : forall p l a r, walk p (l ++ a :: r) = xorb (walk p (l ++ [a])) (walk p (a :: r)).
Proof.
  induction l as [|x l IH]; intros a r; [cbn [app]; change (walk p [a]) with false; symmetry; apply xorb_false_l|].
  destruct l as [|y l].
  - cbn [app]. rewrite walk_cons. cbn [walk]. now rewrite xorb_false_r.
  - cbn [app] in *. rewrite !walk_cons, IH. now rewrite xorb_assoc.
Qed.
Lemma last_snoc {A} : forall (l : list A) x d, last (l ++ [x]) d = x.
Proof. induction l as [|y [|z l] IH]; intros; cbn in *; auto. Qed.
Lemma in_poly_closed : forall p v r, in_poly p (v :: r) = walk p (v :: r ++ [v]).
Proof.
  intros. unfold in_poly. rewrite sides_walk, xorb_false_l.
  destruct (exists_last (l := v :: r)) as (l & x & E); [discriminate|].
  rewrite E at 1. rewrite last_snoc. rewrite walk_cons.
  destruct r as [|w r] using rev_ind.
  - destruct l as [|? [|]]; inversion E; subst. cbn. now rewrite xorb_false_r.
  - clear IHr. assert (x = w). { change (v :: r ++ [w]) with ((v :: r) ++ [w]) in E. now apply app_inj_tail in E. }
    subst w. rewrite <- app_assoc. cbn [app]. change (v :: r ++ [x; v]) with ((v :: r) ++ x :: [v]).
    rewrite walk_app. cbn [app]. rewrite (walk_cons p x v []). cbn [walk]. rewrite xorb_false_r. apply xorb_comm.
Qed.
Lemma walk_snoc : forall p l a b, walk p (l ++ [a; b]) = xorb (walk p (l ++ [a])) (crosses p a b).
Proof. intros. rewrite walk_app, walk_cons. cbn [walk]. now rewrite xorb_false_r. Qed.
Lemma walk_rev : forall p l, walk p (rev l) = walk p l.
Proof.
  induction l as [|a l IH]; [reflexivity|]. destruct l as [|b l]; [reflexivity|].
  rewrite walk_cons, <- IH. cbn [rev]. rewrite <- app_assoc. cbn [app].
  rewrite walk_snoc, crosses_sym. apply xorb_comm.
Qed.

(** ** The whole polygon *)
Lemma in_poly_rot1 : forall p v r, in_poly p (r ++ [v]) = in_poly p (v :: r).
Proof.
  intros p v [|w r]; [reflexivity|]. cbn [app]. rewrite !in_poly_closed.
  change (w :: (r ++ [v]) ++ [w]) with ((w :: r ++ [v]) ++ [w]).
  change (w :: r ++ [v]) with ((w :: r) ++ [v]). rewrite <- app_assoc. cbn [app].
  change (w :: r ++ [v; w]) with ((w :: r) ++ [v; w]). rewrite walk_snoc.
  cbn [app]. rewrite walk_cons. apply xorb_comm.
Qed.
Lemma in_poly_rot : forall p l1 l2, in_poly p (l1 ++ l2) = in_poly p (l2 ++ l1).
Proof.
  intros p l1. induction l1 as [|v l1 IH]; intros l2; [now rewrite app_nil_r|].
  cbn [app]. rewrite <- in_poly_rot1, <- app_assoc, IH, <- app_assoc. reflexivity.
Qed.
Lemma in_poly_rev : forall p l, in_poly p (rev l) = in_poly p l.
Proof.
  intros p [|v r]; [reflexivity|]. cbn [rev]. rewrite in_poly_rot1, !in_poly_closed.
  rewrite <- (walk_rev p (v :: r ++ [v])). cbn [rev]. rewrite rev_app_distr. reflexivity.
Qed.
Lemma in_poly_chord : forall p a b l1 l2,
  in_poly p (a :: l1 ++ b :: l2) = xorb (in_poly p (a :: l1 ++ [b])) (in_poly p (b :: l2 ++ [a])).
Proof.
  intros. rewrite !in_poly_closed, <- !app_assoc. cbn [app].
  change (a :: l1 ++ b :: l2 ++ [a]) with ((a :: l1) ++ b :: (l2 ++ [a])). rewrite walk_app.
  change (a :: l1 ++ [b; a]) with ((a :: l1) ++ [b; a]). change (b :: l2 ++ [a; b]) with ((b :: l2) ++ [a; b]).
  rewrite !walk_snoc. cbn [app]. rewrite (crosses_sym p b a).
  destruct (walk p (a :: l1 ++ [b])), (walk p (b :: l2 ++ [a])), (crosses p a b); reflexivity.
Qed.
Lemma in_poly_two : forall p a b, in_poly p [a; b] = false.
Proof. intros. rewrite in_poly_closed. cbn [app walk]. rewrite (crosses_sym p b a), xorb_false_r. apply xorb_nilpotent. Qed.

Fixpoint parity (l : list bool) : bool := match l with [] => false | b :: r => xorb b (parity r) end.
Lemma in_poly_fan : forall p v l, in_poly p (v :: l) = parity (map (in_poly p) (fan v l)).
Proof.
  intros p v. induction l as [|a [|b r] IH].
  - rewrite in_poly_closed. cbn. rewrite xorb_false_r. apply not_true_iff_false. rewrite crosses_iff. unfold turn. intros [(?&?&H)|(?&?&H)]; lra.
  - apply in_poly_two.
  - change (fan v (a :: b :: r)) with ([v; a; b] :: fan v (b :: r)). cbn [map parity]. change (v :: a :: b :: r) with (v :: [a] ++ b :: r). rewrite in_poly_chord.
    rewrite <- IH. change (v :: [a] ++ [b]) with [v; a; b].
    f_equal. change (b :: r ++ [v]) with ((b :: r) ++ [v]). apply in_poly_rot1.
Qed.

(** ** Boxes *)
Lemma walk_false : forall p l, (forall a b, In a l -> In b l -> crosses p a b = false) -> walk p l = false.
Proof.
  induction l as [|a [|b r] IH]; intros H; [reflexivity..|]. rewrite walk_cons, H by (cbn; auto). rewrite xorb_false_l.
  apply IH. intros x y Hx Hy. apply H; cbn in *; tauto.
Qed.
Lemma in_poly_false : forall p l, (forall a b, In a l -> In b l -> crosses p a b = false) -> in_poly p l = false.
Proof.
  intros p [|v r] H; [reflexivity|]. rewrite in_poly_closed. apply walk_false.
  intros a b Ha Hb. apply H; cbn in Ha, Hb |- *; rewrite in_app_iff in Ha, Hb; cbn in Ha, Hb; tauto.
Qed.
Lemma not_crosses : forall p a b,
  ~ (snd a <= snd p /\ snd p < snd b /\ 0 < turn a b p) -> ~ (snd b <= snd p /\ snd p < snd a /\ turn a b p < 0) ->
  crosses p a b = false.
Proof. intros. apply not_true_iff_false. rewrite crosses_iff. tauto. Qed.

(** Left of the polygon: the crossings are the changes of side. *)
Definition above (p a : pt) : bool := Qlt_bool (snd p) (snd a).
Lemma crosses_left : forall p a b, fst p < fst a -> fst p < fst b -> crosses p a b = xorb (above p a) (above p b).
Proof.
  intros p a b Ha Hb. apply bool_iff. rewrite crosses_iff. unfold above, turn.
  destruct (Qlt_bool (snd p) (snd a)) eqn:A; destruct (Qlt_bool (snd p) (snd b)) eqn:B; cbn [xorb];
  qb; split; try discriminate; try tauto.
  - intros [(?&?&?)|(?&?&?)]; lra.
  - intros _. right. repeat split; try lra. nra.
  - intros _. left. repeat split; try lra. nra.
  - intros [(?&?&?)|(?&?&?)]; lra.
Qed.
Lemma walk_left : forall p a r, (forall x, In x (a :: r) -> fst p < fst x) ->
  walk p (a :: r) = xorb (above p a) (above p (last r a)).
Proof.
  intros p a r. revert a. induction r as [|b r IH]; intros a H; [cbn; now rewrite xorb_nilpotent|].
  rewrite walk_cons, IH by (intros; apply H; cbn in *; tauto). rewrite crosses_left by (apply H; cbn; auto).
  replace (last (b :: r) a) with (last r b).
  - destruct (above p a), (above p b), (above p (last r b)); reflexivity.
  - clear. revert b a. induction r as [|c r IH]; intros; [reflexivity|]. cbn [last] in *. destruct r; auto.
Qed.
Lemma in_poly_left : forall p l, (forall x, In x l -> fst p < fst x) -> in_poly p l = false.
Proof.
  intros p [|v r] H; [reflexivity|]. rewrite in_poly_closed, walk_left.
  - rewrite last_snoc. apply xorb_nilpotent.
  - intros x Hx. apply H. cbn in *. rewrite in_app_iff in Hx. cbn in Hx. tauto.
Qed.
Lemma in_poly_right : forall p l, (forall x, In x l -> fst x <= fst p) -> in_poly p l = false.
Proof.
  intros p l H. apply in_poly_false. intros a b Ha Hb. apply H in Ha, Hb. unfold turn. apply not_crosses; unfold turn; intros (?&?&?); nra.
Qed.

(** ** Convex polygons *)
Lemma fop_app {A} (R : A -> A -> Prop) : forall l1 l2, ForallOrdPairs R (l1 ++ l2) <->
  ForallOrdPairs R l1 /\ ForallOrdPairs R l2 /\ forall a b, In a l1 -> In b l2 -> R a b.
Proof.
  induction l1 as [|x l1 IH]; intros l2; cbn [app].
  - split; [intros H; split; [constructor|split; [exact H|intros ? ? []]]|tauto].
  - split.
    + intros H. inversion H as [|? ? Hx Hr]; subst. apply IH in Hr. destruct Hr as (H1 & H2 & H3).
      rewrite Forall_app in Hx. destruct Hx as [Hx Hy].
      split; [constructor; auto|]. split; [auto|]. intros a b [<-|Ha] Hb; [|auto]. rewrite Forall_forall in Hy. auto.
    + intros (H1 & H2 & H3). inversion H1 as [|? ? Hx Hr]; subst. constructor.
      * apply Forall_app. split; auto. apply Forall_forall. intros b Hb. apply H3; cbn; auto.
      * apply IH. repeat split; auto. intros a b Ha Hb. apply H3; cbn; auto.
Qed.
Lemma fop_in {A} (R : A -> A -> Prop) : forall l1 a l2 b l3, ForallOrdPairs R (l1 ++ a :: l2 ++ b :: l3) -> R a b.
Proof.
  intros l1 a l2 b l3 H. apply fop_app in H. destruct H as (_ & H & _). inversion H as [|? ? Hx _]; subst.
  rewrite Forall_forall in Hx. apply Hx. rewrite in_app_iff. cbn. auto.
Qed.
Lemma convex_app : forall l1 l2, Convex (l1 ++ l2) -> Convex l2.
Proof. induction l1; cbn; intros; [auto|]. apply IHl1. tauto. Qed.
Lemma convex_three : forall l1 a l2 b l3 c l4, Convex (l1 ++ a :: l2 ++ b :: l3 ++ c :: l4) -> 0 < turn a b c.
Proof. intros l1 a l2 b l3 c l4 H. apply convex_app in H. destruct H as [H _]. apply fop_in in H. exact H. Qed.
Lemma convex_snoc : forall r v, Convex r -> ForallOrdPairs (fun b c => 0 < turn v b c) r -> Convex (r ++ [v]).
Proof.
  induction r as [|a r IH]; intros v H F; cbn [app Convex]; [split; constructor|].
  destruct H as [H1 H2]. inversion F as [|? ? Fa Fr]; subst. split; [|apply IH; auto].
  apply fop_app. repeat split; auto; [repeat constructor|].
  intros b c Hb [<-|[]]. rewrite Forall_forall in Fa. specialize (Fa b Hb). pose proof (turn_cycle v a b). lra.
Qed.
Lemma convex_rot1 : forall v r, Convex (v :: r) -> Convex (r ++ [v]).
Proof. intros v r [H1 H2]. now apply convex_snoc. Qed.
Lemma convex_rot : forall l1 l2, Convex (l1 ++ l2) -> Convex (l2 ++ l1).
Proof.
  induction l1 as [|v l1 IH]; intros l2 H; [now rewrite app_nil_r|].
  cbn [app] in H. apply convex_rot1 in H. rewrite <- app_assoc in H. apply IH in H. now rewrite <- app_assoc in H.
Qed.

(** Four vertices in order cannot lie alternately above and below. *)
Lemma no_alternation : forall (p : pt) a b c d, 0 < turn a b c -> 0 < turn a b d -> 0 < turn a c d -> 0 < turn b c d ->
  snd p < snd a -> snd b <= snd p -> snd p < snd c -> snd d <= snd p -> False.
Proof.
  intros p a b c d H1 H2 H3 H4 Ha Hb Hc Hd.
  assert (E : snd a * turn b c d + snd c * turn a b d == snd b * turn a c d + snd d * turn a b c) by (unfold turn; ring).
  assert (E2 : turn b c d + turn a b d == turn a c d + turn a b c) by (unfold turn; ring).
  assert (K1 : snd p * turn b c d < snd a * turn b c d) by (apply Qmult_lt_r; auto).
  assert (K2 : snd p * turn a b d < snd c * turn a b d) by (apply Qmult_lt_r; auto).
  assert (K3 : snd b * turn a c d <= snd p * turn a c d) by (apply Qmult_le_r; auto).
  assert (K4 : snd d * turn a b c <= snd p * turn a b c) by (apply Qmult_le_r; auto).
  assert (E3 : snd p * turn b c d + snd p * turn a b d == snd p * turn a c d + snd p * turn a b c).
  { rewrite <- !Qmult_plus_distr_r, E2. reflexivity. }
  lra.
Qed.

Lemma partition_prefix {A} (f : A -> bool) : forall l, exists l1 l2, l = l1 ++ l2 /\
  Forall (fun x => f x = true) l1 /\ match l2 with [] => True | x :: _ => f x = false end.
Proof.
  induction l as [|a l (l1 & l2 & -> & F & H)]; [exists [], []; repeat split; constructor|].
  destruct (f a) eqn:E.
  - exists (a :: l1), l2. repeat split; auto.
  - exists [], (a :: l1 ++ l2). repeat split; auto.
Qed.

(** A polygon with vertices on both sides of the horizontal through [p], rotated. *)
Lemma two_sides : forall p l, Convex l -> (exists x, In x l /\ above p x = true) -> (exists x, In x l /\ above p x = false) ->
  exists up dn l1 l2, l = l1 ++ l2 /\ l2 ++ l1 = up ++ dn /\ up <> [] /\ dn <> [] /\
    Forall (fun x => above p x = true) up /\ Forall (fun x => above p x = false) dn.
Proof.
  intros p l HC (x & Hx & Ax) (y & Hy & Ay).
  (* rotate to start with a vertex above that follows one below *)
  assert (R : exists l1 l2, l = l1 ++ l2 /\ exists a m d, l2 ++ l1 = a :: m ++ [d] /\ above p a = true /\ above p d = false).
  { destruct (partition_prefix (fun v => negb (above p v)) l) as (q1 & q2 & E & F & H).
    destruct q1 as [|d0 q1].
    - (* starts above: take the first block above away *)
      cbn [app] in E. subst q2. destruct (partition_prefix (above p) l) as (r1 & r2 & E & F' & H').
      destruct r2 as [|d r2].
      { exfalso. rewrite app_nil_r in E. subst r1. rewrite Forall_forall in F'. specialize (F' y Hy). cbn beta in F'. congruence. }
      destruct (partition_prefix (fun v => negb (above p v)) (d :: r2)) as (s1 & s2 & E2 & F2 & H2).
      destruct s1 as [|s s1].
      { cbn [app] in E2. subst s2. cbn beta in H2. rewrite H' in H2. discriminate. }
      exists (r1 ++ s :: s1), s2. split; [now rewrite E, E2, <- app_assoc|].
      destruct s2 as [|a s2].
      + cbn [app]. destruct r1 as [|a r1].
        { cbn [app] in E. subst l. cbn beta in H. rewrite H' in H. discriminate. }
        destruct (exists_last (l := s :: s1)) as (s' & d' & E3); [discriminate|]. rewrite E3.
        exists a, (r1 ++ s'), d'. split; [cbn; now rewrite <- app_assoc|]. inversion F'; subst. split; auto.
        rewrite E3 in F2. apply Forall_app in F2. destruct F2 as [_ F2]. inversion F2; subst. now apply negb_true_iff.
      + destruct (exists_last (l := s :: s1)) as (s' & d' & E3); [discriminate|]. rewrite E3.
        exists a, (s2 ++ r1 ++ s'), d'. split; [cbn; now rewrite <- !app_assoc|]. cbn beta in H2. apply negb_false_iff in H2. split; auto.
        rewrite E3 in F2. apply Forall_app in F2. destruct F2 as [_ F2]. inversion F2; subst. now apply negb_true_iff.
    - destruct q2 as [|a q2].
      { exfalso. rewrite app_nil_r in E. rewrite <- E in F. rewrite Forall_forall in F. specialize (F x Hx). cbn beta in F. rewrite Ax in F. discriminate. }
      exists (d0 :: q1), (a :: q2). split; [exact E|].
      destruct (exists_last (l := d0 :: q1)) as (q' & d & E3); [discriminate|]. rewrite E3.
      exists a, (q2 ++ q'), d. split; [cbn; now rewrite <- app_assoc|]. cbn beta in H. apply negb_false_iff in H. split; auto.
      rewrite E3 in F. apply Forall_app in F. destruct F as [_ F]. inversion F; subst. now apply negb_true_iff. }
  destruct R as (l1 & l2 & El & a & m & d & E & Aa & Ad).
  assert (HC' : Convex (a :: m ++ [d])) by (rewrite <- E; apply convex_rot; now rewrite <- El).
  destruct (partition_prefix (above p) (m ++ [d])) as (u & r & E2 & Fu & Hr).
  exists (a :: u), r, l1, l2. split; [auto|]. split; [now rewrite E, E2|]. split; [discriminate|].
  assert (Dr : r <> []).
  { intros ->. rewrite app_nil_r in E2. rewrite <- E2 in Fu. apply Forall_app in Fu. destruct Fu as [_ Fu]. inversion Fu; subst. congruence. }
  split; [exact Dr|]. split; [constructor; auto|].
  destruct r as [|b r]; [congruence|]. constructor; [exact Hr|].
  apply Forall_forall. intros c Hc. destruct (above p c) eqn:Ac; [exfalso|reflexivity].
  (* a above, b below, c above, d below *)
  destruct (in_split _ _ Hc) as (r1 & r2 & ->).
  assert (exists r3, r2 = r3 ++ [d]) as (r3 & ->).
  { destruct r2 as [|z r2] using rev_ind.
    - exfalso. assert (H : m ++ [d] = (u ++ b :: r1) ++ [c]) by (rewrite E2, <- app_assoc; reflexivity).
      apply app_inj_tail in H. destruct H as [_ <-]. congruence.
    - exists r2. f_equal. f_equal. assert (H : m ++ [d] = (u ++ b :: r1 ++ c :: r2) ++ [z]).
      { rewrite E2, <- !app_assoc. cbn. rewrite <- app_assoc. reflexivity. }
      apply app_inj_tail in H. symmetry. tauto. }
  rewrite E2 in HC'. unfold above in *. qb.
  refine (no_alternation p a b c d _ _ _ _ Aa Hr Ac Ad).
  - apply (convex_three [] a u b r1 c (r3 ++ [d])). exact HC'.
  - apply (convex_three [] a u b (r1 ++ c :: r3) d []). cbn [app]. rewrite <- app_assoc. exact HC'.
  - apply (convex_three [] a (u ++ b :: r1) c r3 d []). cbn [app]. rewrite <- app_assoc. exact HC'.
  - apply (convex_three (a :: u) b r1 c r3 d []). cbn [app]. exact HC'.
Qed.

Lemma walk_same : forall p l v, Forall (fun x => above p x = v) l -> walk p l = false.
Proof.
  intros p l v F. apply walk_false. intros a b Ha Hb. rewrite Forall_forall in F. apply F in Ha, Hb.
  unfold above in *. destruct v; qb; apply not_crosses; intros (?&?&?); lra.
Qed.

(** Sides are kept under rotation. *)
Lemma side_rot1 : forall v r a b, PolySide (r ++ [v]) a b <-> PolySide (v :: r) a b.
Proof.
  intros v r a b. destruct r as [|w r]; [reflexivity|]. cbn [app]. unfold PolySide. split.
  - intros [(l & q & E)|(q & l & E1 & E2)].
    + destruct q as [|z q] using rev_ind.
      * right. assert (H : (w :: r) ++ [v] = (l ++ [a]) ++ [b]) by (rewrite <- app_assoc; exact E). apply app_inj_tail in H. destruct H as [H <-].
        exists (w :: r), (v :: l). split; [reflexivity|]. cbn. now rewrite H.
      * clear IHq. left. assert (H : (w :: r) ++ [v] = (l ++ a :: b :: q) ++ [z]) by (rewrite <- app_assoc; exact E).
        apply app_inj_tail in H. destruct H as [H <-]. exists (v :: l), q. cbn. now rewrite H.
    + injection E1 as -> <-. change (b :: r ++ [v]) with ((b :: r) ++ [v]) in E2. apply app_inj_tail in E2. destruct E2 as [_ <-].
      left. exists [], r. reflexivity.
  - intros [(l & q & E)|(q & l & E1 & E2)].
    + destruct l as [|z l].
      * cbn in E. injection E as -> -> ->. right. exists (q ++ [a]), (b :: q). auto.
      * injection E as -> E. left. exists l, (q ++ [z]). change (w :: r ++ [z]) with ((w :: r) ++ [z]). rewrite E, <- app_assoc. reflexivity.
    + injection E1 as -> <-. destruct l as [|z l]; [destruct r; discriminate|]. injection E2 as <- E2.
      left. exists l, []. change (w :: r ++ [b]) with ((w :: r) ++ [b]). rewrite E2, <- app_assoc. reflexivity.
Qed.
Lemma side_rot : forall l1 l2 a b, PolySide (l1 ++ l2) a b <-> PolySide (l2 ++ l1) a b.
Proof.
  induction l1 as [|v l1 IH]; intros l2 a b; [now rewrite app_nil_r|].
  cbn [app]. rewrite <- side_rot1, <- app_assoc, IH, <- app_assoc. reflexivity.
Qed.

(** Every vertex lies left of (or on) every side. *)
Lemma convex_left : forall l, Convex l -> forall a b v, PolySide l a b -> In v l -> 0 <= turn a b v.
Proof.
  assert (K : forall a b r v, Convex (a :: b :: r) -> In v (a :: b :: r) -> 0 <= turn a b v).
  { intros a b r v HC [<-|[<-|Hv]]; [unfold turn; lra|unfold turn; lra|].
    destruct (in_split _ _ Hv) as (r1 & r2 & ->). apply Qlt_le_weak. exact (convex_three [] a [] b r1 v r2 HC). }
  intros l HC a b v [(q & r & E)|(r & q & E1 & E2)] Hv.
  - apply (K a b (r ++ q)).
    + apply convex_rot with (l2 := a :: b :: r). now rewrite <- E.
    + rewrite E in Hv. rewrite in_app_iff in Hv. cbn in *. rewrite in_app_iff. tauto.
  - destruct q as [|z q].
    + rewrite E1 in E2. cbn in E2. injection E2 as -> ->. rewrite E1 in Hv. destruct Hv as [<-|[]]. unfold turn. lra.
    + assert (z = b) as -> by (rewrite E1 in E2; cbn in E2; congruence). apply (K a b q).
      * change (a :: b :: q) with ([a] ++ (b :: q)). apply convex_rot. cbn [app] in *. now rewrite <- E2.
      * rewrite E2 in Hv. rewrite in_app_iff in Hv. cbn in *. tauto.
Qed.

Lemma side_in : forall l a b, PolySide l a b -> In a l /\ In b l.
Proof.
  intros l a b [(q & r & ->)|(r & q & E1 & E2)]; [rewrite !in_app_iff; cbn; auto|].
  split; [rewrite E2, in_app_iff; cbn; auto|rewrite E1; cbn; auto].
Qed.

(** The answer in terms of the two sides crossed. *)
Lemma in_poly_two_sides : forall p up dn, up <> [] -> dn <> [] ->
  Forall (fun x => above p x = true) up -> Forall (fun x => above p x = false) dn ->
  exists a b c d, PolySide (up ++ dn) a b /\ PolySide (up ++ dn) c d /\
    above p a = true /\ above p b = false /\ above p c = false /\ above p d = true /\
    in_poly p (up ++ dn) = xorb (crosses p a b) (crosses p c d).
Proof.
  intros p up dn Hu Hd Fu Fd.
  destruct up as [|d up']; [congruence|]. destruct dn as [|b dn']; [congruence|].
  destruct (exists_last (l := d :: up')) as (u & a & Eu); [discriminate|].
  destruct (exists_last (l := b :: dn')) as (w & c & Ed); [discriminate|].
  exists a, b, c, d. split; [left; exists u, dn'; rewrite Eu, <- app_assoc; reflexivity|].
  split; [right; exists (up' ++ b :: dn'), ((d :: up') ++ w); split; [reflexivity|rewrite Ed, app_assoc; reflexivity]|].
  rewrite Forall_forall in Fu, Fd.
  split; [apply Fu; rewrite Eu, in_app_iff; cbn; auto|]. split; [apply Fd; cbn; auto|].
  split; [apply Fd; rewrite Ed, in_app_iff; cbn; auto|]. split; [apply Fu; cbn; auto|].
  cbn [app]. rewrite in_poly_closed.
  replace (d :: (up' ++ b :: dn') ++ [d]) with (u ++ a :: b :: dn' ++ [d]).
  2:{ change (d :: (up' ++ b :: dn') ++ [d]) with (((d :: up') ++ b :: dn') ++ [d]). rewrite Eu, <- !app_assoc. reflexivity. }
  rewrite walk_app, walk_cons. rewrite <- Eu. rewrite (walk_same p (d :: up') true) by (apply Forall_forall; exact Fu).
  rewrite xorb_false_l. f_equal. change (b :: dn' ++ [d]) with ((b :: dn') ++ [d]). rewrite Ed, <- app_assoc. cbn [app].
  rewrite walk_snoc, <- Ed, (walk_same p (b :: dn') false) by (apply Forall_forall; exact Fd). apply xorb_false_l.
Qed.

(** The side going up lies right of the side going down. *)
Lemma up_right_of_down : forall (p a b c d : pt),
  snd p < snd a -> snd b <= snd p -> snd c <= snd p -> snd p < snd d ->
  0 <= turn c d a -> 0 <= turn c d b -> turn a b p < 0 -> 0 < turn c d p.
Proof.
  intros p a b c d Ha Hb Hc Hd Ta Tb H.
  (* the point of a-b at the height of p *)
  assert (E : (snd p - snd b) * turn c d a + (snd a - snd p) * turn c d b ==
              (snd a - snd b) * turn c d p + (snd d - snd c) * turn a b p) by (unfold turn; ring).
  assert (0 <= (snd p - snd b) * turn c d a) by (apply Qmult_le_0_compat; lra).
  assert (0 <= (snd a - snd p) * turn c d b) by (apply Qmult_le_0_compat; lra).
  assert ((snd d - snd c) * turn a b p < 0) by nra.
  assert (0 < (snd a - snd b) * turn c d p) by lra.
  nra.
Qed.
(** Between the two sides: left of every line that has all four ends on its left. *)
Lemma between_sides : forall (p a b c d x y : pt),
  snd p < snd a -> snd b <= snd p -> snd c <= snd p -> snd p < snd d ->
  0 <= turn a b p -> 0 <= turn c d p ->
  0 <= turn x y a -> 0 <= turn x y b -> 0 <= turn x y c -> 0 <= turn x y d ->
  0 <= turn x y p.
Proof.
  intros p a b c d x y Ha Hb Hc Hd S T Fa Fb Fc Fd.
  assert (E : (turn c d p * (snd a - snd b) + turn a b p * (snd d - snd c)) * turn x y p ==
    turn c d p * ((snd p - snd b) * turn x y a + (snd a - snd p) * turn x y b) +
    turn a b p * ((snd p - snd c) * turn x y d + (snd d - snd p) * turn x y c)) by (unfold turn; ring).
  assert (E1 : (snd a - snd b) * turn x y p ==
    (snd p - snd b) * turn x y a + (snd a - snd p) * turn x y b - turn a b p * (snd y - snd x)) by (unfold turn; ring).
  assert (K1 : 0 <= (snd p - snd b) * turn x y a + (snd a - snd p) * turn x y b).
  { assert (0 <= (snd p - snd b) * turn x y a) by (apply Qmult_le_0_compat; lra).
    assert (0 <= (snd a - snd p) * turn x y b) by (apply Qmult_le_0_compat; lra). lra. }
  assert (K2 : 0 <= (snd p - snd c) * turn x y d + (snd d - snd p) * turn x y c).
  { assert (0 <= (snd p - snd c) * turn x y d) by (apply Qmult_le_0_compat; lra).
    assert (0 <= (snd d - snd p) * turn x y c) by (apply Qmult_le_0_compat; lra). lra. }
  assert (K3 : 0 <= turn c d p * ((snd p - snd b) * turn x y a + (snd a - snd p) * turn x y b)) by (apply Qmult_le_0_compat; lra).
  assert (K4 : 0 <= turn a b p * ((snd p - snd c) * turn x y d + (snd d - snd p) * turn x y c)) by (apply Qmult_le_0_compat; lra).
  assert (cancel : forall k z, 0 < k -> 0 <= k * z -> 0 <= z).
  { intros k z Hk Hz. apply (Qmult_le_l 0 z k); [exact Hk|]. lra. }
  destruct (Qlt_le_dec 0 (turn a b p)) as [P1|P1].
  - apply (cancel (turn c d p * (snd a - snd b) + turn a b p * (snd d - snd c))); [|lra].
    assert (0 <= turn c d p * (snd a - snd b)) by (apply Qmult_le_0_compat; lra).
    assert (0 < turn a b p * (snd d - snd c)) by (rewrite <- (Qmult_0_l (snd d - snd c)); apply Qmult_lt_r; lra). lra.
  - apply (cancel (snd a - snd b)); [lra|]. assert (Z : turn a b p == 0) by lra. rewrite Z in E1. lra.
Qed.

Lemma above_cases : forall p l, (Forall (fun x => above p x = true) l \/ Forall (fun x => above p x = false) l) \/
  ((exists x, In x l /\ above p x = true) /\ (exists x, In x l /\ above p x = false)).
Proof.
  intros p l. destruct (forallb (above p) l) eqn:A.
  - left. left. now apply Forall_forall, forallb_forall.
  - destruct (existsb (above p) l) eqn:B.
    + right. split; [apply existsb_exists in B; exact B|].
      assert (N : existsb (fun x => negb (above p x)) l = true).
      { clear B. induction l as [|x l IH]; [discriminate|]. cbn in *. destruct (above p x); cbn in *; auto. }
      apply existsb_exists in N. destruct N as (x & I & N). exists x. split; auto. now apply negb_true_iff.
    + left. right. apply Forall_forall. intros x I. destruct (above p x) eqn:E; [|reflexivity].
      assert (existsb (above p) l = true) by (apply existsb_exists; eauto). congruence.
Qed.
Lemma in_poly_same : forall p l v, Forall (fun x => above p x = v) l -> in_poly p l = false.
Proof.
  intros p [|a r] v F; [reflexivity|]. rewrite in_poly_closed. apply (walk_same p _ v).
  inversion F; subst. constructor; auto. apply Forall_app. auto.
Qed.

(** If all vertices are on one side of p's height, p is not left of all sides. *)
Definition rising (p : pt) (s : Q) (a b : pt) : Prop :=
  0 < s * (snd a - snd p) /\ 0 < s * (snd b - snd p) /\ 0 < turn a b p.
Lemma rising_trans : forall p s a b c, rising p s a b -> rising p s b c -> rising p s a c.
Proof.
  intros p s a b c (A & B & T1) (_ & C & T2). split; [auto|split; [auto|]].
  assert (E : s * (snd b - snd p) * turn a c p == s * (snd a - snd p) * turn b c p + s * (snd c - snd p) * turn a b p) by (unfold turn; ring).
  assert (0 < s * (snd a - snd p) * turn b c p) by (rewrite <- (Qmult_0_l (turn b c p)); now apply Qmult_lt_r).
  assert (0 < s * (snd c - snd p) * turn a b p) by (rewrite <- (Qmult_0_l (turn a b p)); now apply Qmult_lt_r).
  apply (Qmult_lt_l 0 _ (s * (snd b - snd p))); [auto|]. lra.
Qed.
Lemma no_rising_cycle : forall (p : pt) s (l : list pt), l <> [] -> (forall x, In x l -> 0 < s * (snd x - snd p)) -> ~ Inside p l.
Proof.
  intros p s [|v r] NE H I; [congruence|].
  assert (K : forall q a, (forall x y, (exists l1 l2, a :: q ++ [v] = l1 ++ x :: y :: l2) -> 0 < turn x y p) ->
     (forall x, In x (a :: q) -> In x (v :: r)) -> rising p s a v).
  { induction q as [|b q IH]; intros a T Sub.
    - repeat split; [apply H, Sub; cbn; auto|apply H; cbn; auto|]. apply T. exists [], []. reflexivity.
    - apply (rising_trans p s a b v).
      + repeat split; [apply H, Sub; cbn; auto|apply H, Sub; cbn; auto|]. apply T. exists [], (q ++ [v]). reflexivity.
      + apply IH; [|intros; apply Sub; cbn in *; tauto]. intros x y (l1 & l2 & E). apply T. exists (a :: l1), l2. cbn [app]. f_equal. exact E. }
  assert (R : rising p s v v).
  { apply (K r v); auto. intros x y (l1 & l2 & E). apply I.
    destruct l2 as [|z l2] using rev_ind.
    - change (v :: r ++ [v]) with ((v :: r) ++ [v]) in E. replace (l1 ++ [x; y]) with ((l1 ++ [x]) ++ [y]) in E by (now rewrite <- app_assoc).
      apply app_inj_tail in E. destruct E as [E <-]. right. exists r, l1. auto.
    - clear IHl2. change (v :: r ++ [v]) with ((v :: r) ++ [v]) in E. replace (l1 ++ x :: y :: l2 ++ [z]) with ((l1 ++ x :: y :: l2) ++ [z]) in E by (now rewrite <- app_assoc).
      apply app_inj_tail in E. destruct E as [E _]. left. eauto. }
  destruct R as (_ & _ & R). unfold turn in R. lra.
Qed.
Lemma side_next : forall l a, In a l -> exists b, PolySide l a b.
Proof.
  intros l a I. destruct (in_split _ _ I) as (l1 & [|b l2] & ->); [|exists b; left; eauto].
  destruct l1 as [|b l1]; [exists a|exists b]; right; cbn; [exists [], []|exists (l1 ++ [a]), (b :: l1)]; auto.
Qed.
Lemma side_prev : forall l a, In a l -> exists b, PolySide l b a.
Proof.
  intros l a I. destruct (in_split _ _ I) as (l1 & l2 & ->). destruct l1 as [|z l1] using rev_ind.
  - cbn [app]. destruct (exists_last (l := a :: l2)) as (q & b & E); [discriminate|]. exists b. right. exists l2, q. auto.
  - exists z. left. exists l1, l2. now rewrite <- app_assoc.
Qed.
Lemma one_side_not_inside : forall p l v, l <> [] -> Forall (fun x => above p x = v) l -> ~ Inside p l.
Proof.
  intros p l v NE F I. rewrite Forall_forall in F. unfold above in F. destruct v.
  - apply (no_rising_cycle p 1 l NE); auto. intros x Hx. apply F in Hx. rewrite Qlt_bool_iff in Hx. lra.
  - apply (no_rising_cycle p (-(1)) l NE); auto. intros x Hx. pose proof (F x Hx) as Lx. rewrite Qlt_bool_false in Lx.
    assert (~ snd x == snd p); [|lra]. intros E.
    destruct (side_next l x Hx) as (y & Sy). destruct (side_prev l x Hx) as (z & Sz).
    pose proof (I _ _ Sy) as Ty. pose proof (I _ _ Sz) as Tz.
    apply side_in in Sy, Sz. pose proof (F y (proj2 Sy)) as Ly. pose proof (F z (proj1 Sz)) as Lz. rewrite Qlt_bool_false in Ly, Lz.
    assert (Ey : turn x y p == (fst x - fst p) * (snd y - snd p)) by (unfold turn; setoid_replace (snd x) with (snd p) by exact E; ring).
    assert (Ez : turn z x p == - ((fst x - fst p) * (snd z - snd p))) by (unfold turn; setoid_replace (snd x) with (snd p) by exact E; ring).
    rewrite Ey in Ty. rewrite Ez in Tz. destruct (Qlt_le_dec (fst p) (fst x)); nra.
Qed.

Theorem convex_inside : forall p l, Convex l -> l <> [] -> Inside p l -> in_poly p l = true.
Proof.
  intros p l HC NE I. destruct (above_cases p l) as [[F|F]|[U D]].
  - exfalso. eapply one_side_not_inside; eauto.
  - exfalso. eapply one_side_not_inside; eauto.
  - destruct (two_sides p l HC U D) as (up & dn & l1 & l2 & E & E2 & N1 & N2 & F1 & F2).
    rewrite E, in_poly_rot, E2.
    destruct (in_poly_two_sides p up dn N1 N2 F1 F2) as (a & b & c & d & S1 & S2 & A1 & A2 & A3 & A4 & ->).
    rewrite <- E2, side_rot, <- E in S1, S2. apply I in S1, S2.
    unfold above in *. qb.
    replace (crosses p a b) with false; [replace (crosses p c d) with true; [reflexivity|]|].
    + symmetry. apply crosses_iff. left. lra.
    + symmetry. apply not_crosses; intros (?&?&?); lra.
Qed.
Theorem convex_outside : forall p l, Convex l -> Outside p l -> in_poly p l = false.
Proof.
  intros p l HC (x & y & Sxy & Txy). destruct (above_cases p l) as [[F|F]|[U D]].
  - eapply in_poly_same; eauto.
  - eapply in_poly_same; eauto.
  - destruct (two_sides p l HC U D) as (up & dn & l1 & l2 & E & E2 & N1 & N2 & F1 & F2).
    rewrite E, in_poly_rot, E2.
    destruct (in_poly_two_sides p up dn N1 N2 F1 F2) as (a & b & c & d & S1 & S2 & A1 & A2 & A3 & A4 & ->).
    rewrite <- E2, side_rot, <- E in S1, S2.
    pose proof (side_in _ _ _ S1) as [Ia Ib]. pose proof (side_in _ _ _ S2) as [Ic Id].
    unfold above in *. qb.
    destruct (Qlt_le_dec (turn a b p) 0) as [T1|T1].
    + assert (T2 : 0 < turn c d p) by (apply (up_right_of_down p a b c d); auto; apply (convex_left l); auto).
      replace (crosses p a b) with true by (symmetry; apply crosses_iff; right; lra).
      replace (crosses p c d) with true by (symmetry; apply crosses_iff; left; lra). reflexivity.
    + replace (crosses p a b) with false by (symmetry; apply not_crosses; intros (?&?&?); lra).
      replace (crosses p c d) with false; [reflexivity|]. symmetry. apply not_crosses; intros (?&?&T2); [|lra].
      assert (0 <= turn x y p); [|lra].
      apply (between_sides p a b c d); auto; try lra; apply (convex_left l); auto.
Qed.

(** ** Moved polygons *)
Lemma crosses_move : forall s t p a b, 0 < s -> crosses (move s t p) (move s t a) (move s t b) = crosses p a b.
Proof.
  intros s t p a b Hs. apply bool_iff. rewrite !crosses_iff.
  assert (E : turn (move s t a) (move s t b) (move s t p) == (s * s) * turn a b p) by (unfold turn, move; cbn [fst snd]; ring).
  assert (S2 : 0 < s * s) by nra.
  assert (L : forall x y, snd (move s t x) <= snd (move s t y) <-> snd x <= snd y).
  { intros x y. unfold move. cbn [snd]. split; intros H; nra. }
  assert (L' : forall x y, snd (move s t x) < snd (move s t y) <-> snd x < snd y).
  { intros x y. unfold move. cbn [snd]. split; intros H; nra. }
  rewrite !L, !L', !E. split; intros [(?&?&?)|(?&?&?)]; [left|right|left|right]; repeat split; auto; nra.
Qed.
Lemma walk_move : forall s t p l, 0 < s -> walk (move s t p) (map (move s t) l) = walk p l.
Proof.
  intros s t p l Hs. induction l as [|a [|b r] IH]; [reflexivity..|]. cbn [map] in *. rewrite !walk_cons, crosses_move, IH by auto. reflexivity.
Qed.
Lemma in_poly_move : forall s t p l, 0 < s -> in_poly (move s t p) (map (move s t) l) = in_poly p l.
Proof.
  intros s t p [|v r] Hs; [reflexivity|]. cbn [map]. rewrite !in_poly_closed, <- (walk_move s t p (v :: r ++ [v])) by auto.
  cbn [map]. now rewrite map_app.
Qed.

(** ** Triangles *)
Lemma crosses_above : forall p a b, crosses p a b =
  match above p a, above p b with
  | false, true => Qlt_bool 0 (turn a b p)
  | true, false => Qlt_bool (turn a b p) 0
  | _, _ => false
  end.
Proof.
  intros p a b. apply bool_iff. rewrite crosses_iff. unfold above.
  destruct (Qlt_bool (snd p) (snd a)) eqn:A; destruct (Qlt_bool (snd p) (snd b)) eqn:B; qb; rewrite ?Qlt_bool_iff;
  (split; [intros [(?&?&?)|(?&?&?)]; try lra|try discriminate; intros; (left; lra) || (right; lra)]).
Qed.
Lemma tri_sides : forall a b c x y, PolySide [a; b; c] x y -> (x, y) = (a, b) \/ (x, y) = (b, c) \/ (x, y) = (c, a).
Proof.
  intros a b c x y [(l & r & E)|(r & l & E1 & E2)].
  - destruct l as [|z [|z' [|z'' l]]]; cbn in E; injection E; intros; subst; auto; try discriminate; destruct l; discriminate.
  - injection E1 as <- <-. destruct l as [|z [|z' [|z'' [|]]]]; cbn in E2; try discriminate. injection E2 as _ _ <-. auto.
Qed.
Lemma tri_convex : forall a b c, 0 < turn a b c -> Convex [a; b; c].
Proof. intros. cbn. repeat split; repeat constructor; auto. Qed.
Lemma mean_turn : forall a b c p u v w, Mean a b c p u v w ->
  turn a b p == w * turn a b c /\ turn b c p == u * turn a b c /\ turn c a p == v * turn a b c.
Proof.
  intros a b c p u v w (S & X & Y). assert (U : u == 1 - v - w) by lra.
  unfold turn. rewrite X, Y, U. repeat split; ring.
Qed.
Lemma pos_mult : forall x y, 0 < x -> 0 < y -> 0 < x * y. Proof. intros. nra. Qed.
Lemma tri_in : forall a b c p, ~ turn a b c == 0 -> InTriangle a b c p -> in_poly p [a; b; c] = true.
Proof.
  assert (K : forall a b c p, 0 < turn a b c -> InTriangle a b c p -> in_poly p [a; b; c] = true).
  { intros a b c p T (u & v & w & M & U & V & W). destruct (mean_turn _ _ _ _ _ _ _ M) as (E1 & E2 & E3).
    apply convex_inside; [now apply tri_convex|discriminate|]. intros x y S. apply tri_sides in S.
    destruct S as [[= -> ->]|[[= -> ->]|[= -> ->]]]; [rewrite E1|rewrite E2|rewrite E3]; now apply pos_mult. }
  intros a b c p T I. destruct (Qlt_le_dec 0 (turn a b c)) as [P|P]; [now apply K|].
  rewrite <- in_poly_rev. cbn [rev app]. apply K.
  - assert (turn c b a == - turn a b c) by (unfold turn; ring). lra.
  - destruct I as (u & v & w & (S & X & Y) & U & V & W). exists w, v, u. repeat split; auto; lra.
Qed.
Lemma tri_out : forall a b c p, ~ turn a b c == 0 -> ~ OnTriangle a b c p -> in_poly p [a; b; c] = false.
Proof.
  assert (K : forall a b c p, 0 < turn a b c -> ~ OnTriangle a b c p -> in_poly p [a; b; c] = false).
  { intros a b c p T N. apply convex_outside; [now apply tri_convex|].
    destruct (Qlt_le_dec (turn a b p) 0) as [L|G1]; [exists a, b; split; auto; left; exists [], [c]; reflexivity|].
    destruct (Qlt_le_dec (turn b c p) 0) as [L|G2]; [exists b, c; split; auto; left; exists [a], []; reflexivity|].
    destruct (Qlt_le_dec (turn c a p) 0) as [L|G3]; [exists c, a; split; auto; right; exists [b; c], [a; b]; auto|].
    exfalso. apply N. pose proof (Qinv_lt_0_compat _ T) as Ti.
    exists (turn b c p / turn a b c), (turn c a p / turn a b c), (turn a b p / turn a b c). unfold Mean.
    repeat split; try (apply Qmult_le_0_compat; lra).
    - unfold turn in *. field. lra.
    - unfold turn in *. field. lra.
    - unfold turn in *. field. lra. }
  intros a b c p T N. destruct (Qlt_le_dec 0 (turn a b c)) as [P|P]; [now apply K|].
  rewrite <- in_poly_rev. cbn [rev app]. apply K.
  - assert (turn c b a == - turn a b c) by (unfold turn; ring). lra.
  - intros (u & v & w & (S & X & Y) & U & V & W). apply N. exists w, v, u. repeat split; auto; lra.
Qed.
Lemma tri_flat : forall a b c p, turn a b c == 0 -> in_poly p [a; b; c] = false.
Proof.
  intros a b c p T. rewrite in_poly_closed. cbn [app walk]. rewrite xorb_false_r.
  assert (S : turn a b p + turn b c p + turn c a p == 0) by (rewrite <- T; unfold turn; ring).
  assert (Y : (snd c - snd p) * turn a b p + (snd a - snd p) * turn b c p + (snd b - snd p) * turn c a p == 0).
  { setoid_replace ((snd c - snd p) * turn a b p + (snd a - snd p) * turn b c p + (snd b - snd p) * turn c a p) with 0; [reflexivity|]. unfold turn. ring. }
  rewrite (crosses_above p a b), (crosses_above p b c), (crosses_above p c a). unfold above.
  set (t1 := turn a b p) in *. set (t2 := turn b c p) in *. set (t3 := turn c a p) in *.
  clearbody t1 t2 t3. clear T.
  destruct (Qlt_bool (snd p) (snd a)) eqn:A; destruct (Qlt_bool (snd p) (snd b)) eqn:B; destruct (Qlt_bool (snd p) (snd c)) eqn:C; cbv iota; cbn [xorb]; try reflexivity;
  repeat match goal with |- context [Qlt_bool ?x ?y] => let E := fresh "E" in destruct (Qlt_bool x y) eqn:E end; cbn [xorb]; try reflexivity; exfalso; qb; nra.
Qed.
