(** Lemmas about the shared primitives. *)
From Verif Require Import Common.
From Coq Require Import Lqa.
Open Scope nat_scope.

Lemma bind_ok {A B} (r : result A) (k : A -> result B) b :
  bind r k = Ok b -> exists a, r = Ok a /\ k a = Ok b.
Proof. destruct r as [a|e]; simpl; intros H; [exists a; auto | discriminate]. Qed.

Lemma nth_error_Some_lt {A} (l : list A) n x : nth_error l n = Some x -> n < length l.
Proof. intros H. apply nth_error_Some. rewrite H. discriminate. Qed.

Lemma nth_error_lt_Some {A} (l : list A) n : n < length l -> exists x, nth_error l n = Some x.
Proof.
  intros H. destruct (nth_error l n) as [x|] eqn:E; [exists x; auto|].
  apply nth_error_None in E. lia.
Qed.

(** [p] splits the list: once false it stays false. *)
Definition splits {A} (p : A -> bool) (a : list A) : Prop :=
  forall i j x y, i < j -> nth_error a i = Some x -> nth_error a j = Some y ->
                  p y = true -> p x = true.

Definition split_point {A} (p : A -> bool) (a : list A) (n : nat) : Prop :=
  n <= length a /\
  (forall i x, i < n -> nth_error a i = Some x -> p x = true) /\
  (forall i x, n <= i -> nth_error a i = Some x -> p x = false).

Lemma bsearch_spec {A} (p : A -> bool) (a : list A) : splits p a ->
  forall fuel lo hi, lo <= hi -> hi <= length a -> hi - lo <= fuel ->
  (forall i x, i < lo -> nth_error a i = Some x -> p x = true) ->
  (forall i x, hi <= i -> nth_error a i = Some x -> p x = false) ->
  split_point p a (bsearch p a fuel lo hi).
Proof.
  intros Hs fuel; induction fuel as [|f IH]; intros lo hi Hlo Hhi Hf Hl Hr; cbn [bsearch]; cbv zeta.
  - assert (lo = hi) by lia. subst. repeat split; auto.
  - destruct (Nat.ltb_spec lo hi) as [Hlt|Hge].
    + assert (Hmid : lo + (hi - lo) / 2 < hi).
      { assert ((hi - lo) / 2 < hi - lo) by (apply Nat.div_lt; lia). lia. }
      remember (lo + (hi - lo) / 2) as mid eqn:Em.
      assert (lo <= mid) by lia.
      destruct (nth_error_lt_Some a mid) as [x Hx]; [lia|].
      rewrite Hx. destruct (p x) eqn:Hpx.
      * apply IH; try lia; auto.
        intros i y Hi Hy.
        destruct (Nat.eq_dec i mid) as [->|Hne].
        -- rewrite Hx in Hy. injection Hy as <-. exact Hpx.
        -- apply (Hs i mid y x); auto. lia.
      * apply IH; try lia; auto.
        intros i y Hi Hy.
        destruct (Nat.eq_dec i mid) as [->|Hne].
        -- rewrite Hx in Hy. injection Hy as <-. exact Hpx.
        -- destruct (p y) eqn:Hpy; auto.
           rewrite <- Hpx. symmetry. apply (Hs mid i x y); auto. lia.
    + assert (lo = hi) by lia. subst. repeat split; auto.
Qed.

Lemma searchsorted_spec {A} (p : A -> bool) (a : list A) :
  splits p a -> split_point p a (searchsorted p a).
Proof.
  intros Hs. unfold searchsorted. apply bsearch_spec; auto; try lia.
  intros i x Hi Hx. apply nth_error_Some_lt in Hx. lia.
Qed.

Lemma split_point_unique {A} (p : A -> bool) (a : list A) n m :
  split_point p a n -> split_point p a m -> n = m.
Proof.
  intros (Hn & Hn1 & Hn2) (Hm & Hm1 & Hm2).
  destruct (Nat.lt_trichotomy n m) as [H|[H|H]]; auto; exfalso.
  - destruct (nth_error_lt_Some a n) as [x Hx]; [lia|].
    specialize (Hn2 n x ltac:(lia) Hx).
    specialize (Hm1 n x ltac:(lia) Hx). congruence.
  - destruct (nth_error_lt_Some a m) as [x Hx]; [lia|].
    specialize (Hm2 m x ltac:(lia) Hx). specialize (Hn1 m x ltac:(lia) Hx). congruence.
Qed.

(** The split point is also the number of elements satisfying [p]. *)
Lemma split_point_count {A} (p : A -> bool) (a : list A) n :
  split_point p a n -> n = length (filter p a).
Proof.
  revert n. induction a as [|x a IH]; intros n (Hn & H1 & H2).
  - simpl in *. lia.
  - destruct n as [|n].
    + assert (p x = false) by (apply (H2 0 x); auto; lia).
      simpl. rewrite H. apply IH. split; [lia|split; [intros; lia|]].
      intros i y Hi Hy. apply (H2 (S i) y); auto; lia.
    + assert (p x = true) by (apply (H1 0 x); auto; lia).
      simpl. rewrite H. simpl. f_equal. apply IH. simpl in Hn.
      split; [lia|split].
      * intros i y Hi Hy. apply (H1 (S i) y); auto; lia.
      * intros i y Hi Hy. apply (H2 (S i) y); auto; lia.
Qed.

Lemma py_get_nat {A} (l : list A) (n : nat) x :
  nth_error l n = Some x -> py_get l (Z.of_nat n) = Ok x.
Proof.
  intros H. unfold py_get, py_index.
  pose proof (nth_error_Some_lt _ _ _ H).
  destruct (Z.leb_spec 0 (Z.of_nat n)); [|lia].
  destruct (Z.ltb_spec (Z.of_nat n) (Z.of_nat (length l))); [|lia].
  rewrite Nat2Z.id, H. reflexivity.
Qed.

Lemma py_get_last {A} (l : list A) x :
  py_get (l ++ [x]) (-1) = Ok x.
Proof.
  unfold py_get, py_index. rewrite app_length. change (length [x]) with 1.
  replace (0 <=? (-1))%Z with false by reflexivity.
  destruct (Z.leb_spec 0 (-1 + Z.of_nat (length l + 1))); [|lia].
  replace (Z.to_nat (-1 + Z.of_nat (length l + 1))) with (length l) by lia.
  rewrite nth_error_app2; [|lia]. rewrite Nat.sub_diag. reflexivity.
Qed.

Lemma py_get_ok {A} (l : list A) i x :
  py_get l i = Ok x ->
  (exists n, nth_error l n = Some x /\ (i = Z.of_nat n \/ i = Z.of_nat n - Z.of_nat (length l))%Z).
Proof.
  unfold py_get, py_index. intros H.
  destruct (Z.leb_spec 0 i).
  - destruct (Z.ltb_spec i (Z.of_nat (length l))); [|discriminate].
    destruct (nth_error l (Z.to_nat i)) eqn:E; [|discriminate].
    injection H as ->. exists (Z.to_nat i). split; auto. left. lia.
  - destruct (Z.leb_spec 0 (i + Z.of_nat (length l))); [|discriminate].
    destruct (nth_error l (Z.to_nat (i + Z.of_nat (length l)))) eqn:E; [|discriminate].
    injection H as ->. exists (Z.to_nat (i + Z.of_nat (length l))). split; auto. right. lia.
Qed.

Lemma Qlt_bool_iff x y : Qlt_bool x y = true <-> (x < y)%Q.
Proof.
  unfold Qlt_bool. rewrite negb_true_iff. split; intros H.
  - apply Qnot_le_lt. intros H'. apply Qle_bool_iff in H'. congruence.
  - destruct (Qle_bool y x) eqn:E; auto. apply Qle_bool_iff in E. lra.
Qed.
Lemma Qlt_bool_false x y : Qlt_bool x y = false <-> (y <= x)%Q.
Proof.
  unfold Qlt_bool. rewrite negb_false_iff. apply Qle_bool_iff.
Qed.
Lemma Qle_bool_false x y : Qle_bool x y = false <-> (y < x)%Q.
Proof.
  rewrite <- Qlt_bool_iff. unfold Qlt_bool. rewrite negb_true_iff. reflexivity.
Qed.
