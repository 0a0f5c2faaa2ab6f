(** C57: boundary segments are chained into closed loops. *)
From Coq Require Import Permutation.
From Verif Require Import Common ChainModel ChainSpec ChainProofs.
Open Scope Z_scope.

(** C57: whatever the segments, the loops and chains returned are made of exactly
    the given segments, each used once. *)
Theorem c57_partition : forall segs cl op, order_segments segs = Ok (cl, op) ->
  Permutation (map undirected segs) (map undirected (concat (map loop_steps cl) ++ concat (map steps op))).
Proof.
  intros segs cl op H. unfold order_segments in H. apply chains_spec in H. rewrite <- H.
  apply Permutation_map. symmetry. apply sort_perm.
Qed.
Print Assumptions c57_partition.

(** C57: closed boundaries, in any order and direction, never come back as open
    chains. *)
Theorem c57_closed : forall segs cl op, order_segments segs = Ok (cl, op) ->
  Closed segs -> (forall a b, In (a, b) segs -> a <> b) -> op = [].
Proof.
  intros segs cl op H CL NS. unfold order_segments in H. eapply chains_closed; [exact H| |].
  - intros x. rewrite (ends_perm x _ _ (sort_perm segs)). apply CL.
  - intros a b I. apply NS. eapply Permutation_in; [apply sort_perm|exact I].
Qed.
Print Assumptions c57_closed.

(** C57, refuted for arbitrary directions: a triangle whose segments do not all run
    one way makes the function raise TypeError ([bound.insert(p1)]). *)
Theorem c57_direction_refuted : exists segs, Closed segs /\ (forall x, (ends_at x segs <= 2)%nat) /\
  order_segments segs = Err TypeError.
Proof.
  exists [(0, 1); (0, 2); (1, 2)].
  assert (E : forall x, ends_at x [(0, 1); (0, 2); (1, 2)] =
             if 0 =? x then 2%nat else if 1 =? x then 2%nat else if 2 =? x then 2%nat else 0%nat).
  { intros x. cbn [ends_at]. destruct (Z.eqb_spec 0 x); [subst; reflexivity|].
    destruct (Z.eqb_spec 1 x); [subst; reflexivity|]. destruct (Z.eqb_spec 2 x); reflexivity. }
  split; [|split; [|reflexivity]].
  - intros x. rewrite E. destruct (0 =? x), (1 =? x), (2 =? x); reflexivity.
  - intros x. rewrite E. destruct (0 =? x), (1 =? x), (2 =? x); lia.
Qed.
Print Assumptions c57_direction_refuted.

(** That TypeError is the only exception. *)
Theorem c57_only_exception : forall segs e, order_segments segs = Err e -> e = TypeError.
Proof.
  intros segs e H. unfold order_segments in H. eapply chains_err; [|exact H].
  rewrite (Permutation_length (sort_perm segs)). auto.
Qed.
Print Assumptions c57_only_exception.

(** C57, for segments that all run one way (as build_boundaries makes them from
    consistently oriented faces): no exception, and the directions are kept. *)
Theorem c57_one_way : forall segs, OneWay segs ->
  exists cl op, order_segments segs = Ok (cl, op) /\
    Permutation segs (concat (map loop_steps cl) ++ concat (map steps op)).
Proof.
  intros segs OW.
  assert (OW' : OneWay (sort_segs segs)) by (eapply oneway_perm; [symmetry; apply sort_perm|exact OW]).
  destruct (chains_oneway (length segs) (sort_segs segs)) as (cl & op & C & P & _); auto.
  { rewrite (Permutation_length (sort_perm segs)). auto. }
  exists cl, op. split; [exact C|]. rewrite <- P. symmetry. apply sort_perm.
Qed.
Print Assumptions c57_one_way.

(** C57: disjoint closed loops: all come back as closed loops of at least two
    points, no point twice, and no open chain. *)
Theorem c57_loops : forall segs, Loops segs ->
  exists cl, order_segments segs = Ok (cl, []) /\ Permutation segs (concat (map loop_steps cl)) /\
    NoDup (concat cl) /\ Forall (fun l => (2 <= length l)%nat) cl /\
    (forall x, In x (concat cl) <-> In x (map fst segs)).
Proof.
  intros segs (OW & B & NS).
  pose proof (sort_perm segs) as SP.
  assert (OW' : OneWay (sort_segs segs)) by (eapply oneway_perm; [symmetry; apply SP|exact OW]).
  destruct (chains_oneway (length segs) (sort_segs segs)) as (cl & op & C & P & K); auto.
  { rewrite (Permutation_length SP). auto. }
  destruct K as [-> K].
  { unfold Balanced. rewrite SP. exact B. }
  { intros a b I. apply NS. eapply Permutation_in; [exact SP|exact I]. }
  rewrite app_nil_r in P.
  assert (PS : Permutation segs (concat (map loop_steps cl))) by (rewrite <- P; symmetry; exact SP).
  assert (F : map fst (concat (map loop_steps cl)) = concat cl).
  { clear. induction cl as [|l cl IH]; [reflexivity|]. cbn [map concat]. rewrite map_app. apply f_equal2; [apply fst_loop|exact IH]. }
  assert (PF : Permutation (map fst segs) (concat cl)) by exact (eq_ind _ (fun l => Permutation (map fst segs) l) (Permutation_map fst PS) _ F).
  exists cl. split; [exact C|]. split; [exact PS|]. split; [eapply Permutation_NoDup; [exact PF|apply OW]|].
  split; [exact K|]. intros x. split; intros I; eapply Permutation_in; try exact I; auto. now symmetry.
Qed.
Print Assumptions c57_loops.

(** C57: how many loops there can be, and in which order: loops come sorted by the
    smallest segment left when they start, so the first point of the first loop or
    chain is the smallest starting point of all. *)
Theorem c57_first : forall segs cl op s, order_segments segs = Ok (cl, op) -> In s segs ->
  exists b, (In b cl \/ In b op) /\ exists p0 p1, In (p0, p1) segs /\ (In p0 b /\ In p1 b) /\
    forall q, In q segs -> seg_leb (p0, p1) q = true.
Proof.
  intros segs cl op s H I. unfold order_segments in H.
  assert (SL : forall l, match sort_segs l with [] => True | x :: r => Forall (fun q => seg_leb x q = true) (x :: r) end).
  { assert (I0 : True) by exact Logic.I. assert (R : forall x, seg_leb x x = true).
    { intros [a b]. unfold seg_leb. cbn. rewrite Z.eqb_refl, Z.leb_refl. cbn. now rewrite orb_true_r. }
    assert (T : forall x y z, seg_leb x y = true -> seg_leb y z = true -> seg_leb x z = true).
    { intros [a b] [c d] [e f]. unfold seg_leb. cbn. intros H1 H2.
      destruct (Z.ltb_spec a c), (Z.ltb_spec c e), (Z.eqb_spec a c), (Z.eqb_spec c e), (Z.leb_spec b d), (Z.leb_spec d f);
      cbn in *; try discriminate; try lia; destruct (Z.ltb_spec a e), (Z.eqb_spec a e), (Z.leb_spec b f); cbn; auto; lia. }
    assert (TO : forall x y, seg_leb x y = false -> seg_leb y x = true).
    { intros [a b] [c d]. unfold seg_leb. cbn. intros H1.
      destruct (Z.ltb_spec a c), (Z.eqb_spec a c), (Z.leb_spec b d); cbn in *; try discriminate;
      destruct (Z.ltb_spec c a), (Z.eqb_spec c a), (Z.leb_spec d b); cbn; auto; lia. }
    induction l as [|x l IH]; [exact I0|]. change (sort_segs (x :: l)) with (insert_seg x (sort_segs l)).
    destruct (sort_segs l) as [|y r] eqn:E; cbn [insert_seg].
    - constructor; auto.
    - inversion IH; subst. destruct (seg_leb x y) eqn:Exy.
      + constructor; auto. constructor; auto. eapply Forall_impl; [|exact H3]. cbn. eauto.
      + constructor; auto. apply Forall_forall. intros q Iq.
        assert (P := insert_perm x r). eapply Permutation_in in Iq; [|exact P].
        destruct Iq as [<-|Iq]; auto. rewrite Forall_forall in H3. auto. }
  specialize (SL segs). destruct (sort_segs segs) as [|[p0 p1] r] eqn:E.
  { exfalso. pose proof (sort_perm segs) as P. rewrite E in P. apply Permutation_nil in P. subst. destruct I. }
  destruct (length segs) as [|f] eqn:LE; [destruct segs; [destruct I|discriminate]|]. cbn [chains] in H.
  destruct (grow (S (length r)) [p0; p1] r) as [[[c b] rem]|] eqn:G; [|discriminate]. cbn [bind] in H.
  destruct (chains f rem) as [[cl' op']|] eqn:C; [|discriminate]. cbn [bind fst snd] in H.
  assert (IN : In p0 b /\ In p1 b).
  { clear - G. assert (K : forall fuel b0 segs c b r x, grow fuel b0 segs = Ok (c, b, r) -> (2 <= length b0)%nat -> In x b0 -> In x b).
    { induction fuel as [|f IH]; intros b0 segs c' b' r' x H L I; [discriminate|]. cbn [grow] in H.
      assert (N : b0 <> []) by (destruct b0; [destruct I|discriminate]).
      destruct (attach b0 segs) as [[[b1 r1]|]|] eqn:A; cbn [bind] in H; try discriminate.
      - apply attach_spec in A; auto. destruct A as (s & _ & L1 & N1 & D).
        assert (I1 : In x b1) by (destruct D as [[_ ->]|[[_ ->]|[_ ->]]]; try (apply in_or_app; auto); now right).
        destruct (Z.eqb_spec (first_pt b1) (last_pt b1)).
        + injection H as <- <- <-.
          destruct (@exists_last _ b1) as (l & y & ->); auto. rewrite removelast_last. rewrite last_snoc in e.
          apply in_app_or in I1. destruct I1 as [I1|[<-|[]]]; auto.
          destruct l as [|a l]; [cbn in L1; destruct b0; cbn in *; lia|]. cbn in e. subst. now left.
        + eapply IH; [exact H|lia|auto].
      - injection H as <- <- <-. auto. }
    split; eapply K; try exact G; cbn; auto. }
  exists b. split; [destruct c; injection H as <- <-; cbn; auto|].
  exists p0, p1. split; [|split; [exact IN|]].
  - eapply Permutation_in; [apply sort_perm|]. rewrite E. now left.
  - intros q Iq. rewrite Forall_forall in SL. apply SL. rewrite <- E.
    eapply Permutation_in; [symmetry; apply sort_perm|exact Iq].
Qed.
Print Assumptions c57_first.

Example c57_example :
  let segs := [(4, 5); (2, 1); (0, 2); (1, 0); (5, 3); (3, 4)] in
  Loops segs /\ order_segments segs = Ok ([[1; 0; 2]; [3; 4; 5]], []).
Proof.
  split; [|reflexivity]. split; [split; cbn; repeat constructor; cbn; intuition lia|]. split.
  - cbn. apply (NoDup_Permutation_bis); [repeat constructor; cbn; intuition lia|cbn; lia|].
    intros x. cbn. tauto.
  - intros a b I. cbn in I. repeat (destruct I as [[= <- <-]|I]; [lia|]). destruct I.
Qed.
Example c57_open_example : order_segments [(3, 4); (0, 1); (1, 2)] = Ok ([], [[0; 1; 2]; [3; 4]]).
Proof. reflexivity. Qed.
