(** Proofs about the point-layout functions. *)
From Verif Require Import Common PointsModel PointsSpec.

Lemma squeeze_none : forall s, Forall (fun d => d <> 1%nat) s -> squeeze_shape s = s.
Proof.
  induction s; intros H; inversion H; subst; cbn; auto.
  destruct (Nat.eqb_spec a 1); cbn; [congruence|]. f_equal; auto.
Qed.

Lemma unsqueeze_none : forall s ix, Forall (fun d => d <> 1%nat) s -> length ix = length s ->
  unsqueeze s ix = ix.
Proof.
  induction s; intros ix H L; destruct ix; try discriminate; auto.
  inversion H; subst; cbn. destruct (Nat.eqb_spec a 1); [congruence|].
  f_equal. apply IHs; auto.
Qed.

Lemma squeeze_shape_no1 : forall s, Forall (fun d => d <> 1%nat) (squeeze_shape s).
Proof.
  intros. apply Forall_forall. intros x H. apply filter_In in H. destruct H as [_ H].
  destruct (Nat.eqb_spec x 1); cbn in *; congruence.
Qed.

Lemma squeeze_twice : forall s, squeeze_shape (squeeze_shape s) = squeeze_shape s.
Proof. intros. apply squeeze_none, squeeze_shape_no1. Qed.

Lemma in_range_length : forall s ix, InRange s ix -> length ix = length s.
Proof. induction 1; cbn; congruence. Qed.

Lemma squeeze_repeat : forall n s, squeeze_shape (repeat 1%nat n ++ s) = squeeze_shape s.
Proof. induction n; cbn; auto. Qed.
Lemma squeeze_ones : forall n, squeeze_shape (repeat 1%nat n) = [].
Proof. induction n; cbn; auto. Qed.
Lemma unsqueeze_ones : forall n ix, unsqueeze (repeat 1%nat n) ix = repeat 0%nat n.
Proof. induction n; cbn; intros; f_equal; auto. Qed.
Lemma unsqueeze_pre : forall n s ix, unsqueeze (repeat 1%nat n ++ s) ix = repeat 0%nat n ++ unsqueeze s ix.
Proof. induction n; cbn; intros; f_equal; auto. Qed.

(** Squeezing an array without dimensions of length 1 changes nothing. *)
Lemma squeeze_same : forall V (a : nd V), Forall (fun d => d <> 1%nat) (n_shape a) -> Same (squeeze a) a.
Proof.
  intros V a H. split; cbn.
  - now apply squeeze_none.
  - intros ix Hi. rewrite unsqueeze_none; auto. rewrite squeeze_none in Hi by auto.
    now apply in_range_length in Hi.
Qed.

Lemma same_refl : forall V (a : nd V), Same a a.
Proof. split; auto. Qed.
Lemma same_sym : forall V (a b : nd V), Same a b -> Same b a.
Proof. intros V a b [H1 H2]. split; auto. intros. symmetry. apply H2. now rewrite H1. Qed.
Lemma same_trans : forall V (a b c : nd V), Same a b -> Same b c -> Same a c.
Proof. intros V a b c [H1 H2] [H3 H4]. split; [congruence|]. intros. rewrite H2 by auto. apply H4. now rewrite <- H1. Qed.

Lemma two_dims : forall N K, N <> 1%nat -> K <> 1%nat -> Forall (fun d => d <> 1%nat) [N; K].
Proof. repeat constructor; auto. Qed.

Lemma ambiguous_iff : forall s, ambiguous s = true <->
  exists a b, s = [a; b] /\ Coords a /\ Coords b.
Proof.
  intros s. split.
  - destruct s as [|a [|b [|]]]; try discriminate. cbn. intros H. exists a, b.
    unfold Coords. apply andb_true_iff in H. destruct H as [H1 H2].
    apply orb_true_iff in H1, H2. rewrite !Nat.eqb_eq in H1, H2. auto.
  - intros (a & b & -> & Ha & Hb). destruct Ha, Hb; subst; reflexivity.
Qed.
