(** Lemmas about equality of grids. *)
From Coq Require Import String QArith Qabs.
From Verif Require Import Common CommonProofs SVarModel SVarProps EqModel EqSpec.
Open Scope string_scope.
Open Scope list_scope.
Open Scope nat_scope.

Lemma elem_same a b : elem_eqb a b = true <-> SameElem a b.
Proof.
  split.
  - destruct a, b; cbn [elem_eqb]; intros H; try discriminate.
    + constructor. now apply Qeq_bool_iff.
    + apply String.eqb_eq in H. subst. constructor.
    + constructor.
  - destruct 1; cbn [elem_eqb]; auto; [now apply Qeq_bool_iff|apply String.eqb_refl].
Qed.
Lemma all2_same l : forall m, all2 l m = true <-> Forall2 SameElem l m.
Proof.
  induction l as [|a l IH]; intros [|b m]; cbn [all2]; split; intros H; try discriminate; try (inversion H; fail); auto.
  - apply andb_true_iff in H. destruct H as [A B]. constructor; [now apply elem_same|now apply IH].
  - inversion_clear H. apply andb_true_iff. split; [now apply elem_same|now apply IH].
Qed.
Lemma array_same v w : array_equal v w = true <-> Same v w.
Proof.
  unfold array_equal. split.
  - destruct v as [|s d m], w as [|s' d' m']; cbn [asarray]; intros H; apply andb_true_iff in H; destruct H as [A B];
      apply shape_eqb_iff in A; apply all2_same in B; subst.
    + constructor.
    + inversion B as [|? ? ? ? X Y]; subst. inversion Y; subst. inversion X; subst. constructor.
    + inversion B as [|? ? ? ? X Y]; subst. inversion Y; subst. inversion X; subst. constructor.
    + now constructor.
  - destruct 1; cbn [asarray]; auto; apply andb_true_iff; split; try (now apply shape_eqb_iff); now apply all2_same.
Qed.
Lemma elem_sym a b : SameElem a b -> SameElem b a.
Proof. destruct 1; constructor. now apply Qeq_sym. Qed.
Lemma elem_trans a b c : SameElem a b -> SameElem b c -> SameElem a c.
Proof. destruct 1; intros H1; inversion H1; subst; constructor. eapply Qeq_trans; eauto. Qed.
Lemma elems_sym l m : Forall2 SameElem l m -> Forall2 SameElem m l.
Proof. induction 1; constructor; auto. now apply elem_sym. Qed.
Lemma elems_trans l m : Forall2 SameElem l m -> forall n, Forall2 SameElem m n -> Forall2 SameElem l n.
Proof. induction 1; intros n X; inversion X; subst; constructor; eauto. eapply elem_trans; eauto. Qed.
Lemma same_sym v w : Same v w -> Same w v.
Proof. destruct 1; constructor. now apply elems_sym. Qed.
Lemma none_only d : Forall2 SameElem [ENone] d -> d = [ENone].
Proof. intros H. inversion H as [|? ? ? ? X Y]; subst. inversion Y; subst. inversion X; subst. reflexivity. Qed.
Lemma same_trans u v w : Same u v -> Same v w -> Same u w.
Proof.
  destruct 1; intros X; inversion X; subst; try solve [constructor; auto].
  - constructor. eapply elems_trans; eauto.
  - apply elems_sym in H. apply none_only in H. subst. constructor.
  - match goal with Y : Forall2 _ [ENone] _ |- _ => apply none_only in Y; subst end. constructor.
  - constructor. repeat constructor.
Qed.
Lemma same_clean v w : Same v w -> Clean v.
Proof.
  destruct 1; cbn [Clean]; auto.
  - intros I. induction H; [destruct I|]. destruct I as [->|I]; auto. inversion H.
  - intros [X|[]]. discriminate.
Qed.
Lemma same_refl v : Clean v -> Same v v.
Proof.
  destruct v as [|s d m]; cbn [Clean]; intros H; constructor.
  induction d as [|a d IH]; constructor.
  - destruct a; try constructor; [apply Qeq_refl|]. contradict H. now left.
  - apply IH. contradict H. now right.
Qed.
Lemma same_masks s d m m' w : Same (VArr s d m) w -> Same (VArr s d m') w.
Proof. intros H. inversion H; subst; constructor. auto. Qed.
Lemma loop_true ks a b : eq_loop ks a b = Ok true <-> forall k, In k ks -> exists x y, getattr a k = Ok x /\ getattr b k = Ok y /\ Same x y.
Proof.
  induction ks as [|k ks IH]; cbn [eq_loop]; [split; auto; intros _ k []|].
  split.
  - intros H. apply bind_ok in H. destruct H as (x & X & H). apply bind_ok in H. destruct H as (y & Y & H).
    destruct (array_equal x y) eqn:E; [|discriminate]. apply array_same in E.
    intros k' [<-|I]; [eauto|]. now apply IH.
  - intros H. destruct (H k (or_introl eq_refl)) as (x & y & X & Y & S). rewrite X, Y. cbn [bind].
    apply array_same in S. rewrite S. apply IH. intros k' I. apply H. now right.
Qed.
