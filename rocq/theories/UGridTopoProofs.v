(** From the loops' view of the sides to the specification's. *)
From Coq Require Import Sorted Permutation.
From Verif Require Import Common CommonProofs UGridModel UGridSpec UGridProofs.
Open Scope Z_scope.

Lemma norm_same a b c d : norm (a, b) = norm (c, d) <-> SameEnds a b c d.
Proof.
  unfold norm, SameEnds. cbn [fst snd]. rewrite !Z.gtb_ltb.
  destruct (Z.ltb_spec b a), (Z.ltb_spec d c); split; intros H1;
    try (injection H1 as -> ->); try lia;
    try (destruct H1 as [[-> ->]|[-> ->]]); try reflexivity; try lia;
    try (assert (c = d) by lia; subst; reflexivity).
Qed.

Lemma ent_nth_error r j a : nth_error r j = Some a -> ent r j = a.
Proof. intros H. unfold ent. apply nth_error_nth. exact H. Qed.
Lemma ent_in r j : (j < length r)%nat -> nth_error r j = Some (ent r j).
Proof. intros H. unfold ent. apply nth_error_nth'. exact H. Qed.

(** One row. *)
Lemma side_edge_ends row j : (j < length row)%nat ->
  exists a b, side_edge (length row) row j = (a, b) /\
    nth_error row j = Some a /\ nth_error row (S j mod length row)%nat = Some b.
Proof.
  intros Hj. unfold side_edge. destruct (Nat.ltb_spec j (length row - 1)) as [H|H].
  - exists (ent row j), (ent row (S j)). split; auto. split; [apply ent_in; lia|].
    rewrite Nat.mod_small by lia. apply ent_in. lia.
  - assert (j = length row - 1)%nat by lia. subst j.
    exists (ent row (length row - 1)), (ent row 0). split; auto. split; [apply ent_in; lia|].
    replace (S (length row - 1)) with (length row) by lia.
    rewrite Nat.mod_same by lia. apply ent_in. lia.
Qed.

Lemma in_sides_from nv faces : Rect nv faces -> forall i0 p e,
  In (p, e) (sides_from nv i0 faces) <->
  exists k row a b, fst p = (i0 + k)%nat /\ nth_error faces k = Some row /\
    nth_error row (snd p) = Some a /\ nth_error row (S (snd p) mod length row)%nat = Some b /\
    e = norm (a, b).
Proof.
  induction 1 as [|row faces Hrow HR IH]; intros i0 p e; cbn [sides_from].
  - split; [intros []|]. intros (k & row & _ & _ & _ & H & _). destruct k; discriminate.
  - rewrite in_app_iff. unfold sides_of at 1. rewrite in_map_iff. split.
    + intros [(j & E & Hj)|H].
      * apply in_seq in Hj. injection E as <- <-. cbn [fst snd].
        destruct (side_edge_ends row j) as (a & b & E & Ha & Hb); [lia|].
        rewrite Hrow in E. exists 0%nat, row, a, b. rewrite Nat.add_0_r, E. repeat split; auto.
      * apply IH in H. destruct H as (k & row' & a & b & H1 & H2 & H3).
        exists (S k), row', a, b. split; [lia|]. split; auto.
    + intros (k & row' & a & b & H1 & H2 & H3 & H4 & ->).
      destruct k as [|k]; cbn [nth_error] in H2.
      * injection H2 as <-. left. exists (snd p). pose proof (nth_error_Some_lt _ _ _ H3).
        split; [|apply in_seq; lia].
        destruct (side_edge_ends row (snd p)) as (a' & b' & E & Ha & Hb); auto.
        rewrite Hrow in E. rewrite E. destruct p as [i j]. cbn [fst snd] in *.
        rewrite H3 in Ha. injection Ha as <-. rewrite H4 in Hb. injection Hb as <-.
        f_equal. f_equal. lia.
      * right. apply IH. exists k, row', a, b. split; [lia|]. auto.
Qed.

Definition faces_ok (faces : list (list Z)) : Prop := Rect (num_vertices faces) faces.
Lemma rect_ok nv faces : Rect nv faces -> faces_ok faces.
Proof.
  intros H. unfold faces_ok. destruct faces as [|r f]; [constructor|].
  cbn [num_vertices]. inversion H; subst. assumption.
Qed.
Lemma in_loop_sides faces p e : faces_ok faces ->
  (In (p, e) (loop_sides faces) <-> exists a b, Side faces p a b /\ e = norm (a, b)).
Proof.
  intros HR. unfold loop_sides. rewrite (in_sides_from _ _ HR). split.
  - intros (k & row & a & b & H1 & H2 & H3 & H4 & ->). exists a, b. split; auto.
    exists row. cbn in H1. subst k. auto.
  - intros (a & b & (row & H1 & H2 & H3) & ->). exists (fst p), row, a, b. auto.
Qed.
Lemma side_fun faces p a b c d : Side faces p a b -> Side faces p c d -> a = c /\ b = d.
Proof. intros (r & H1 & H2 & H3) (r' & H4 & H5 & H6). rewrite H1 in H4. injection H4 as <-. split; congruence. Qed.
Lemma meets_refl faces p a b : Side faces p a b -> Meets faces p p.
Proof. intros H. exists a, b, a, b. repeat split; auto; left; auto. Qed.
Lemma meets_sym faces p q : Meets faces p q -> Meets faces q p.
Proof.
  intros (a & b & c & d & H1 & H2 & H3). exists c, d, a, b. repeat split; auto.
  destruct H3 as [[-> ->]|[-> ->]]; [left|right]; auto.
Qed.
Lemma meets_occ faces p q a b : faces_ok faces -> Side faces p a b ->
  (In q (occ (loop_sides faces) (norm (a, b))) <-> Meets faces p q).
Proof.
  intros HR Hs. rewrite occ_in, (in_loop_sides _ _ _ HR). split.
  - intros (c & d & H1 & H2). exists a, b, c, d. repeat split; auto. apply norm_same. auto.
  - intros (a' & b' & c & d & H1 & H2 & H3). exists c, d. split; auto.
    destruct (side_fun _ _ _ _ _ _ Hs H1) as [<- <-]. apply norm_same. auto.
Qed.

(** Order of the visits. *)
Lemma before_irrefl p : ~ before p p.
Proof. unfold before. lia. Qed.
Lemma before_trans p q r : before p q -> before q r -> before p r.
Proof. unfold before. lia. Qed.
Lemma before_total p q : p = q \/ before p q \/ before q p.
Proof.
  destruct p as [a b], q as [c d]. unfold before. cbn [fst snd].
  destruct (Nat.lt_trichotomy a c) as [|[->|]]; auto.
  destruct (Nat.lt_trichotomy b d) as [|[->|]]; auto.
Qed.
Lemma sorted_app {A} (R : A -> A -> Prop) l m :
  StronglySorted R l -> StronglySorted R m -> (forall x y, In x l -> In y m -> R x y) ->
  StronglySorted R (l ++ m).
Proof.
  induction 1 as [|x l Hl IH Hx]; cbn [app]; intros Hm H; auto.
  constructor.
  - apply IH; auto. intros; apply H; cbn; auto.
  - apply Forall_app. split; auto. apply Forall_forall. intros y Hy. apply H; cbn; auto.
Qed.
Lemma row_sorted (i n s : nat) : StronglySorted before (map (fun j => (i, j)) (seq s n)).
Proof.
  revert s. induction n as [|n IHn]; intros s; cbn [seq map]; constructor; auto.
  apply Forall_forall. intros q Hq. apply in_map_iff in Hq.
  destruct Hq as (j & <- & Hj). apply in_seq in Hj. right. cbn. lia.
Qed.
Lemma sides_sorted nv faces i0 :
  StronglySorted before (map fst (sides_from nv i0 faces)) /\
  forall p, In p (map fst (sides_from nv i0 faces)) ->
    (i0 <= fst p < i0 + length faces)%nat /\ (snd p < nv)%nat.
Proof.
  revert i0. induction faces as [|f faces IH]; intros i0; cbn [sides_from].
  - split; [constructor|]. intros p [].
  - destruct (IH (S i0)) as [H1 H2]. rewrite map_app.
    assert (E : map fst (sides_of nv i0 f) = map (fun j => (i0, j)) (seq 0 nv)).
    { unfold sides_of. rewrite map_map. reflexivity. }
    rewrite E. split.
    + apply sorted_app; auto.
      * apply row_sorted.
      * intros x y Hx Hy. apply in_map_iff in Hx. destruct Hx as (j & <- & Hj).
        apply H2 in Hy. left. cbn. lia.
    + intros p Hp. apply in_app_iff in Hp. destruct Hp as [Hp|Hp].
      * apply in_map_iff in Hp. destruct Hp as (j & <- & Hj). apply in_seq in Hj. cbn [fst snd length]. lia.
      * apply H2 in Hp. cbn [length]. lia.
Qed.
Lemma sorted_NoDup l : StronglySorted before l -> NoDup l.
Proof.
  induction 1 as [|x l Hl IH Hx]; constructor; auto. intros Hin.
  rewrite Forall_forall in Hx. apply (before_irrefl x). auto.
Qed.
Lemma occ_sorted P e : StronglySorted before (map fst P) -> StronglySorted before (occ P e).
Proof.
  unfold occ. induction P as [|[p x] P IH]; cbn [map filter fst snd]; intros H; [constructor|].
  inversion H as [|? ? H1 H2]; subst. destruct (edge_eqb x e); auto. cbn [map fst].
  constructor; auto. rewrite Forall_forall in *. intros q Hq. apply H2.
  apply in_map_iff in Hq. destruct Hq as ([a b] & <- & Hq). apply filter_In in Hq.
  apply in_map_iff. exists (a, b). tauto.
Qed.
Lemma sorted_unique l m : StronglySorted before l -> StronglySorted before m ->
  (forall x, In x l <-> In x m) -> l = m.
Proof.
  intros Hl. revert m. induction Hl as [|x l Hl IH Hx]; intros m Hm H.
  - destruct m as [|y m]; auto. exfalso. apply (proj2 (H y)). left. auto.
  - destruct Hm as [|y m Hm Hy]. { exfalso. apply (proj1 (H x)). left. auto. }
    rewrite Forall_forall in Hx, Hy.
    assert (x = y) as <-.
    { destruct (proj1 (H x) (or_introl eq_refl)) as [E|Hin]; [auto|].
      destruct (proj2 (H y) (or_introl eq_refl)) as [E|Hin']; [auto|].
      specialize (Hx _ Hin'). specialize (Hy _ Hin). exfalso.
      apply (before_irrefl x). eapply before_trans; eauto. }
    f_equal. apply IH; auto. intros z. specialize (H z). cbn in H. split; intros Hz.
    + destruct (proj1 H (or_intror Hz)) as [<-|]; auto. exfalso. apply (before_irrefl x). auto.
    + destruct (proj2 H (or_intror Hz)) as [<-|]; auto. exfalso. apply (before_irrefl x). auto.
Qed.

(** ** The face-face table *)
Lemma build_ff_inv faces :
  ff_inv (length faces) (num_vertices faces) (loop_sides faces)
    (fold_left ff_step (loop_sides faces)
       (repeat (repeat (-1) (num_vertices faces)) (length faces), [])).
Proof.
  destruct (sides_sorted (num_vertices faces) faces 0) as [H1 H2].
  apply ff_inv_run.
  - apply sorted_NoDup. exact H1.
  - intros q Hq. apply H2 in Hq. split; lia.
Qed.
Lemma build_ff_shape faces : tshape (length faces) (num_vertices faces) (build_face_face faces).
Proof. apply (build_ff_inv faces). Qed.
Lemma side_tin faces p a b : faces_ok faces -> Side faces p a b ->
  tin (length faces) (num_vertices faces) p.
Proof.
  intros HR (row & H1 & H2 & H3). split; [eapply nth_error_Some_lt; eauto|].
  apply nth_error_Some_lt in H2. unfold faces_ok, Rect in HR. rewrite Forall_forall in HR.
  rewrite <- (HR row); auto. eapply nth_error_In; eauto.
Qed.
Lemma tget_entry nf nv t p : tshape nf nv t -> tin nf nv p -> Entry t p (tget t p).
Proof.
  intros Hs [Hi Hj]. exists (nth (fst p) t []). split.
  - apply nth_error_nth'. rewrite (proj1 Hs). auto.
  - apply nth_error_nth'. rewrite (tshape_row _ _ _ _ Hs Hi). auto.
Qed.
Lemma entry_tget t p v : Entry t p v -> tget t p = v.
Proof.
  intros (row & H1 & H2). unfold tget. rewrite (nth_error_nth _ _ _ H1). apply nth_error_nth. auto.
Qed.

Lemma ff_pairing faces p a b l k : faces_ok faces -> Side faces p a b ->
  StronglySorted before l -> (forall q, In q l <-> Meets faces p q) ->
  nth_error l k = Some p ->
  tget (build_face_face faces) p = pval (partner l k).
Proof.
  intros HR Hs Hl Hin Hk.
  assert (E : occ (loop_sides faces) (norm (a, b)) = l).
  { apply sorted_unique; auto.
    - apply occ_sorted. apply sides_sorted.
    - intros x. rewrite Hin. apply meets_occ; auto. }
  destruct (build_ff_inv faces) as (_ & _ & H & _).
  specialize (H (norm (a, b)) k p). rewrite E in H. apply H. exact Hk.
Qed.

(** With at most two sides per edge the other side is the partner. *)
Lemma ff_manifold faces p a b : faces_ok faces -> Manifold faces -> Side faces p a b ->
  (exists q, q <> p /\ Meets faces p q /\ tget (build_face_face faces) p = Z.of_nat (fst q)) \/
  ((forall q, Meets faces p q -> q = p) /\ tget (build_face_face faces) p = -1).
Proof.
  intros HR HM Hs.
  pose (l := occ (loop_sides faces) (norm (a, b))).
  assert (Hl : StronglySorted before l) by (apply occ_sorted; apply sides_sorted).
  assert (Hin : forall q, In q l <-> Meets faces p q) by (intros q; apply meets_occ; auto).
  assert (Hp : In p l) by (apply Hin; eapply meets_refl; eauto).
  pose proof (sorted_NoDup _ Hl) as Hnd.
  destruct (In_nth_error _ _ Hp) as [k Hk].
  rewrite (ff_pairing faces p a b l k); auto.
  assert (Hlen : (length l <= 2)%nat).
  { destruct l as [|x [|y [|z l']]]; cbn [length]; try lia. exfalso.
    assert (forall u v, In u (x :: y :: z :: l') -> In v (x :: y :: z :: l') -> u <> p -> v <> p -> u = v) as HH.
    { intros u v Hu Hv Hup Hvp. apply Hin in Hu, Hv.
      destruct (HM p u v Hu Hv) as [E|[E|E]]; congruence. }
    assert (x <> y /\ x <> z /\ y <> z) as (N1 & N2 & N3).
    { inversion Hnd as [|? ? A1 A2]; subst. inversion A2 as [|? ? A3 A4]; subst.
      cbn in A1, A3. repeat split; intros ->; intuition auto. }
    assert (Hx : In x (x :: y :: z :: l')) by (cbn; auto).
    assert (Hy : In y (x :: y :: z :: l')) by (cbn; auto).
    assert (Hz : In z (x :: y :: z :: l')) by (cbn; auto).
    destruct (pos_eqb_spec x p) as [->|]; [apply N3; apply HH; auto|].
    destruct (pos_eqb_spec y p) as [->|]; [apply N2; apply HH; auto|].
    apply N1. apply HH; auto. }
  destruct l as [|x [|y [|z l']]]; cbn [length] in Hlen; try lia.
  - destruct Hp.
  - right. assert (x = p) as -> by (destruct Hp as [|[]]; auto).
    split. { intros q Hq. apply Hin in Hq. destruct Hq as [<-|[]]. auto. }
    destruct k as [|k]; [reflexivity|]. destruct k; discriminate.
  - left. inversion Hnd as [|? ? A1 A2]; subst. cbn in A1.
    destruct k as [|[|k]]; cbn [nth_error] in Hk.
    + injection Hk as ->. exists y. split; [intros ->; intuition auto|].
      split; [apply Hin; cbn; auto|reflexivity].
    + injection Hk as ->. exists x. split; [intros ->; intuition auto|].
      split; [apply Hin; cbn; auto|reflexivity].
    + destruct k; discriminate.
Qed.

Lemma ff_neighbour faces p : faces_ok faces -> Manifold faces ->
  (exists a b, Side faces p a b) -> forall g,
  (tget (build_face_face faces) p = Z.of_nat g <->
   exists s, (g, s) <> p /\ Meets faces p (g, s)).
Proof.
  intros HR HM (a & b & Hs) g.
  destruct (ff_manifold faces p a b HR HM Hs) as [(q & Hq1 & Hq2 & E)|(Hq & E)]; rewrite E; split.
  - intros Hg. apply Nat2Z.inj in Hg. subst g. exists (snd q). destruct q; auto.
  - intros (s & H1 & H2). destruct (HM p q (g, s) Hq2 H2) as [X|[X|X]]; try congruence.
    subst q. reflexivity.
  - lia.
  - intros (s & H1 & H2). apply Hq in H2. congruence.
Qed.
Lemma ff_none faces p : faces_ok faces -> Manifold faces ->
  (exists a b, Side faces p a b) ->
  (tget (build_face_face faces) p = -1 <-> forall q, Meets faces p q -> q = p).
Proof.
  intros HR HM (a & b & Hs).
  destruct (ff_manifold faces p a b HR HM Hs) as [(q & Hq1 & Hq2 & E)|(Hq & E)]; rewrite E; split; auto.
  - lia.
  - intros H. apply H in Hq2. congruence.
Qed.
Lemma ff_symmetric faces p q : faces_ok faces -> Manifold faces ->
  Meets faces p q -> q <> p ->
  tget (build_face_face faces) p = Z.of_nat (fst q) /\ tget (build_face_face faces) q = Z.of_nat (fst p).
Proof.
  intros HR HM Hm Hne. split.
  - apply ff_neighbour; auto. { destruct Hm as (a & b & c & d & H & _). eauto. }
    exists (snd q). destruct q; auto.
  - apply ff_neighbour; auto. { destruct Hm as (a & b & c & d & _ & H & _). eauto. }
    exists (snd p). destruct p; cbn. split; [congruence|]. apply meets_sym. auto.
Qed.

(** ** build_edges *)
Lemma add_edge_in s e x : In x (add_edge s e) <-> In x s \/ x = e.
Proof.
  unfold add_edge. destruct (existsb (edge_eqb e) s) eqn:E.
  - split; auto. intros [?| ->]; auto. apply existsb_exists in E. destruct E as (y & Hy & E).
    destruct (edge_eqb_spec e y); [subst; auto|discriminate].
  - rewrite in_app_iff. cbn. split; intros [|]; auto; intuition auto.
Qed.
Lemma add_edge_NoDup s e : NoDup s -> NoDup (add_edge s e).
Proof.
  unfold add_edge. intros H. destruct (existsb (edge_eqb e) s) eqn:E; auto.
  assert (Hn : ~ In e s).
  { intros Hin. rewrite <- not_true_iff_false in E. apply E. apply existsb_exists.
    exists e. split; auto. apply edge_eqb_refl. }
  apply (Permutation_NoDup (l := e :: s)).
  - apply Permutation_cons_append.
  - constructor; auto.
Qed.
Lemma fold_add_in l s x : In x (fold_left add_edge l s) <-> In x s \/ In x l.
Proof.
  revert s. induction l as [|e l IH]; intros s; cbn [fold_left]; [cbn; tauto|].
  rewrite IH, add_edge_in. cbn. intuition auto.
Qed.
Lemma fold_add_NoDup l s : NoDup s -> NoDup (fold_left add_edge l s).
Proof.
  revert s. induction l as [|e l IH]; intros s H; cbn [fold_left]; auto.
  apply IH. apply add_edge_NoDup. auto.
Qed.
Definition edge_loop (faces : list (list Z)) : list edge :=
  flat_map (fun face => map (fun j => norm (prev_edge face j)) (seq 0 (num_vertices faces))) faces.
Lemma fold_flat {A B S} (f : S -> B -> S) (g : A -> list B) (l : list A) s :
  fold_left f (flat_map g l) s = fold_left (fun s x => fold_left f (g x) s) l s.
Proof.
  revert s. induction l as [|x l IH]; intros s; cbn [flat_map fold_left]; auto.
  rewrite fold_left_app. apply IH.
Qed.
Lemma fold_map {A B S} (f : S -> B -> S) (g : A -> B) (l : list A) s :
  fold_left f (map g l) s = fold_left (fun s x => f s (g x)) l s.
Proof. revert s. induction l as [|x l IH]; intros s; cbn [map fold_left]; auto. Qed.
Lemma build_edges_loop faces : build_edges faces = fold_left add_edge (edge_loop faces) [].
Proof.
  unfold build_edges, edge_loop. rewrite fold_flat. generalize (@nil edge).
  generalize (num_vertices faces) as nv. intros nv. induction faces as [|f l IH]; intros s; cbn [fold_left]; auto.
  rewrite IH. f_equal. rewrite fold_map. reflexivity.
Qed.
Lemma prev_edge_side face j : (j < length face)%nat ->
  exists k a b, prev_edge face j = (a, b) /\ nth_error face k = Some a /\
    nth_error face (S k mod length face)%nat = Some b /\
    k = (match j with O => length face - 1 | S k => k end)%nat.
Proof.
  intros Hj. unfold prev_edge. destruct j as [|j].
  - exists (length face - 1)%nat, (ent face (length face - 1)), (ent face 0). split; auto.
    split; [apply ent_in; lia|]. replace (S (length face - 1)) with (length face) by lia.
    rewrite Nat.mod_same by lia. split; auto. apply ent_in; lia.
  - exists j, (ent face j), (ent face (S j)). split; auto. split; [apply ent_in; lia|].
    rewrite Nat.mod_small by lia. split; auto. apply ent_in; lia.
Qed.
Lemma edge_loop_in faces e : faces_ok faces ->
  (In e (edge_loop faces) <-> exists p a b, Side faces p a b /\ e = norm (a, b)).
Proof.
  intros HR. unfold edge_loop. rewrite in_flat_map.
  unfold faces_ok, Rect in HR. rewrite Forall_forall in HR. split.
  - intros (face & Hf & He). apply in_map_iff in He. destruct He as (j & <- & Hj). apply in_seq in Hj.
    rewrite <- (HR _ Hf) in Hj.
    destruct (prev_edge_side face j) as (k & a & b & E & Ha & Hb & _); [lia|].
    destruct (In_nth_error _ _ Hf) as [i Hi].
    exists (i, k), a, b. split; [|congruence]. exists face. auto.
  - intros (p & a & b & (face & Hi & Ha & Hb) & ->).
    pose proof (nth_error_In _ _ Hi) as Hf. pose proof (nth_error_Some_lt _ _ _ Ha) as Hk.
    exists face. split; auto. apply in_map_iff.
    exists (S (snd p) mod length face)%nat.
    assert (Hj : (S (snd p) mod length face < length face)%nat) by (apply Nat.mod_upper_bound; lia).
    split; [|apply in_seq; rewrite <- (HR _ Hf); lia].
    destruct (prev_edge_side face _ Hj) as (k & a' & b' & E & Ha' & Hb' & Ek). rewrite E.
    assert (k = snd p) as ->.
    { rewrite Ek. destruct (Nat.eq_dec (S (snd p)) (length face)) as [H|H].
      - rewrite H, Nat.mod_same by lia. lia.
      - rewrite Nat.mod_small by lia. reflexivity. }
    congruence.
Qed.
Lemma build_edges_in faces e : faces_ok faces ->
  (In e (build_edges faces) <-> exists p a b, Side faces p a b /\ e = norm (a, b)).
Proof.
  intros HR. rewrite build_edges_loop, fold_add_in, edge_loop_in; auto. cbn. tauto.
Qed.
Lemma build_edges_NoDup faces : NoDup (build_edges faces).
Proof. rewrite build_edges_loop. apply fold_add_NoDup. constructor. Qed.
Lemma norm_ends a b : norm (a, b) = (a, b) \/ norm (a, b) = (b, a).
Proof. unfold norm. cbn [fst snd]. destruct (a >? b); auto. Qed.
Lemma norm_le e : fst (norm e) <= snd (norm e).
Proof. unfold norm. destruct e as [a b]. cbn [fst snd]. rewrite Z.gtb_ltb. destruct (Z.ltb_spec b a); cbn; lia. Qed.
Lemma build_edges_sorted faces a b : faces_ok faces -> In (a, b) (build_edges faces) -> a <= b.
Proof.
  intros HR H. apply build_edges_in in H; auto. destruct H as (p & c & d & _ & E).
  pose proof (norm_le (c, d)). rewrite <- E in H. exact H.
Qed.

(** ** build_boundaries *)
Lemma combine_seq {A} (l : list A) d : combine (seq 0 (length l)) l = map (fun i => (i, nth i l d)) (seq 0 (length l)).
Proof.
  assert (G : forall s, combine (seq s (length l)) l = map (fun i => (i, nth (i - s) l d)) (seq s (length l))).
  { induction l as [|x l IH]; intros s; cbn [length seq combine map]; auto.
    rewrite Nat.sub_diag. cbn [nth]. f_equal. rewrite IH. apply map_ext_in.
    intros i Hi. apply in_seq in Hi. replace (i - s)%nat with (S (i - S s)) by lia. reflexivity. }
  rewrite G. apply map_ext. intros i. rewrite Nat.sub_0_r. reflexivity.
Qed.
Lemma flat_map_map {A B C} (g : A -> B) (f : B -> list C) l :
  flat_map f (map g l) = flat_map (fun x => f (g x)) l.
Proof. induction l as [|x l IH]; cbn; auto. rewrite IH. auto. Qed.
Lemma map_flat_map {A B C} (g : B -> C) (f : A -> list B) l :
  map g (flat_map f l) = flat_map (fun x => map g (f x)) l.
Proof. induction l as [|x l IH]; cbn; auto. rewrite map_app, IH. auto. Qed.
Lemma flat_map_ext_in {A B} (f g : A -> list B) l :
  (forall x, In x l -> f x = g x) -> flat_map f l = flat_map g l.
Proof. induction l as [|x l IH]; cbn; intros H; auto. rewrite H, IH; auto. Qed.

Definition lonely (nf nv : nat) (t : list (list Z)) : list pos :=
  flat_map (fun i => flat_map (fun j => if tget t (i, j) =? -1 then [(i, j)] else []) (seq 0 nv)) (seq 0 nf).
Lemma lonely_in nf nv t p : In p (lonely nf nv t) <-> tin nf nv p /\ tget t p = -1.
Proof.
  unfold lonely. rewrite in_flat_map. split.
  - intros (i & Hi & H). apply in_flat_map in H. destruct H as (j & Hj & H). apply in_seq in Hi, Hj.
    destruct (Z.eqb_spec (tget t (i, j)) (-1)); [|destruct H]. destruct H as [<-|[]].
    split; auto. split; cbn; lia.
  - intros ((Hi & Hj) & H). exists (fst p). split; [apply in_seq; lia|].
    apply in_flat_map. exists (snd p). split; [apply in_seq; lia|]. destruct p as [i j]. cbn [fst snd].
    rewrite H. left. reflexivity.
Qed.
Lemma flat_sorted {A} (g : A -> list pos) (l : list A) :
  (forall x, In x l -> StronglySorted before (g x)) ->
  ForallOrdPairs (fun x y => forall p q, In p (g x) -> In q (g y) -> before p q) l ->
  StronglySorted before (flat_map g l).
Proof.
  intros H1 H2. induction H2 as [|x l Hx Hl IH]; cbn [flat_map]; [constructor|].
  apply sorted_app.
  - apply H1; cbn; auto.
  - apply IH. intros y Hy. apply H1. cbn; auto.
  - intros p q Hp Hq. apply in_flat_map in Hq. destruct Hq as (y & Hy & Hq).
    rewrite Forall_forall in Hx. eapply Hx; eauto.
Qed.
Lemma seq_pairs (R : nat -> nat -> Prop) s n : (forall i j, (i < j)%nat -> R i j) ->
  ForallOrdPairs R (seq s n).
Proof.
  intros H. revert s. induction n as [|n IH]; intros s; cbn [seq]; constructor; auto.
  apply Forall_forall. intros j Hj. apply in_seq in Hj. apply H. lia.
Qed.
Lemma lonely_sorted nf nv t : StronglySorted before (lonely nf nv t).
Proof.
  unfold lonely. apply flat_sorted.
  - intros i _. apply flat_sorted.
    + intros j _. destruct (_ =? _); repeat constructor.
    + apply seq_pairs. intros j k Hjk p q Hp Hq.
      destruct (tget t (i, j) =? -1); [|destruct Hp]. destruct (tget t (i, k) =? -1); [|destruct Hq].
      destruct Hp as [<-|[]], Hq as [<-|[]]. right. cbn. lia.
  - apply seq_pairs. intros i k Hik p q Hp Hq.
    apply in_flat_map in Hp, Hq. destruct Hp as (j & _ & Hp), Hq as (l & _ & Hq).
    destruct (tget t (i, j) =? -1); [|destruct Hp]. destruct (tget t (k, l) =? -1); [|destruct Hq].
    destruct Hp as [<-|[]], Hq as [<-|[]]. left. cbn. lia.
Qed.
Lemma boundaries_lonely faces ff : tshape (length faces) (num_vertices faces) ff ->
  boundaries_from faces ff =
  map (fun p => bound_of (num_vertices faces) (nth (fst p) faces []) (snd p))
      (lonely (length faces) (num_vertices faces) ff).
Proof.
  intros Hs. unfold boundaries_from, lonely. rewrite (combine_seq ff []), flat_map_map, (proj1 Hs).
  rewrite map_flat_map. apply flat_map_ext_in. intros i Hi. apply in_seq in Hi. cbn [fst snd].
  unfold row_bounds. rewrite (combine_seq _ (-1)), flat_map_map.
  rewrite (tshape_row _ _ _ _ Hs) by lia. rewrite map_flat_map. apply flat_map_ext_in.
  intros j Hj. cbn [fst snd]. unfold tget. cbn [fst snd]. destruct (_ =? _); reflexivity.
Qed.
Lemma bound_of_side faces p : faces_ok faces -> tin (length faces) (num_vertices faces) p ->
  Side faces p (fst (bound_of (num_vertices faces) (nth (fst p) faces []) (snd p)))
               (snd (bound_of (num_vertices faces) (nth (fst p) faces []) (snd p))).
Proof.
  intros HR [Hi Hj]. unfold faces_ok, Rect in HR. rewrite Forall_forall in HR.
  assert (Hr : nth_error faces (fst p) = Some (nth (fst p) faces [])) by (apply nth_error_nth'; auto).
  set (row := nth (fst p) faces []) in *.
  assert (Hl : length row = num_vertices faces) by (apply HR; eapply nth_error_In; eauto).
  rewrite <- Hl in *. exists row. split; auto. unfold bound_of.
  destruct (Nat.eqb_spec (snd p) (length row - 1)) as [E|E]; cbn [fst snd].
  - rewrite E. split; [apply ent_in; lia|]. replace (S (length row - 1)) with (length row) by lia.
    rewrite Nat.mod_same by lia. apply ent_in; lia.
  - split; [apply ent_in; lia|]. rewrite Nat.mod_small by lia. apply ent_in. lia.
Qed.
Lemma Forall2_map_r {A B} (P : A -> B -> Prop) (g : A -> B) l :
  (forall x, In x l -> P x (g x)) -> Forall2 P l (map g l).
Proof. induction l as [|x l IH]; cbn; intros H; constructor; auto. Qed.

Definition IsSide (faces : list (list Z)) (p : pos) : Prop := exists a b, Side faces p a b.
Lemma tin_side faces p : faces_ok faces -> (tin (length faces) (num_vertices faces) p <-> IsSide faces p).
Proof.
  intros HR. split.
  - intros H. do 2 eexists. apply bound_of_side; auto.
  - intros (a & b & H). eapply side_tin; eauto.
Qed.
(** Whatever table is used, the boundaries are the sides it marks -1. *)
Lemma boundaries_of_table faces ff : faces_ok faces -> tshape (length faces) (num_vertices faces) ff ->
  exists ps, StronglySorted before ps /\
    (forall p, In p ps <-> IsSide faces p /\ tget ff p = -1) /\
    Forall2 (fun p e => Side faces p (fst e) (snd e)) ps (boundaries_from faces ff).
Proof.
  intros HR Hs. exists (lonely (length faces) (num_vertices faces) ff).
  split; [apply lonely_sorted|]. split.
  - intros p. rewrite lonely_in, tin_side; tauto.
  - rewrite boundaries_lonely by auto. apply Forall2_map_r. intros p Hp.
    apply bound_of_side; auto. apply lonely_in in Hp. tauto.
Qed.
Lemma boundaries_manifold faces : faces_ok faces -> Manifold faces ->
  exists ps, StronglySorted before ps /\
    (forall p, In p ps <-> IsSide faces p /\ forall q, Meets faces p q -> q = p) /\
    Forall2 (fun p e => Side faces p (fst e) (snd e)) ps (boundaries_from faces (build_face_face faces)).
Proof.
  intros HR HM. destruct (boundaries_of_table faces _ HR (build_ff_shape faces)) as (ps & H1 & H2 & H3).
  exists ps. split; auto. split; auto. intros p. rewrite H2. split.
  - intros [Hs E]. split; auto. apply ff_none; auto.
  - intros [Hs E]. split; auto. apply ff_none; auto.
Qed.

(** ** build_face_edge_connectivity *)
Definition Nearest (query : list edge -> edge -> Z) : Prop :=
  forall es e, es <> [] -> exists k x, query es e = Z.of_nat k /\ nth_error es k = Some x /\
    forall y, In y es -> dist2 x e <= dist2 y e.
Lemma nearest_from_spec es0 e : forall es i best bd,
  (exists x, nth_error es0 best = Some x /\ dist2 x e = bd) ->
  (forall k, nth_error es0 (i + k) = nth_error es k) ->
  (forall j y, (j < i)%nat -> nth_error es0 j = Some y -> bd <= dist2 y e) ->
  exists x, nth_error es0 (nearest_from i es e best bd) = Some x /\
    forall y, In y es0 -> dist2 x e <= dist2 y e.
Proof.
  induction es as [|z es IH]; intros i best bd (x & Hx & Hd) Hsuf Hpre; cbn [nearest_from].
  - exists x. split; auto. intros y Hy. rewrite Hd. apply In_nth_error in Hy. destruct Hy as [j Hj].
    destruct (Nat.lt_ge_cases j i) as [H|H]; [eauto|].
    specialize (Hsuf (j - i)%nat). replace (i + (j - i))%nat with j in Hsuf by lia.
    rewrite Hj in Hsuf. destruct (j - i)%nat; discriminate.
  - assert (Hz : nth_error es0 i = Some z).
    { specialize (Hsuf 0%nat). rewrite Nat.add_0_r in Hsuf. exact Hsuf. }
    assert (Hsuf' : forall k, nth_error es0 (S i + k) = nth_error es k).
    { intros k. specialize (Hsuf (S k)). rewrite Nat.add_succ_r in Hsuf. exact Hsuf. }
    destruct (Z.ltb_spec (dist2 z e) bd) as [Hlt|Hge].
    + apply IH; eauto. intros j y Hj Hy. destruct (Nat.eq_dec j i) as [->|].
      * rewrite Hz in Hy. injection Hy as ->. lia.
      * assert (bd <= dist2 y e) by (apply (Hpre j); auto; lia). lia.
    + apply IH; eauto. intros j y Hj Hy. destruct (Nat.eq_dec j i) as [->|].
      * rewrite Hz in Hy. injection Hy as ->. lia.
      * apply (Hpre j); auto; lia.
Qed.
Lemma nearest_is_nearest : Nearest nearest.
Proof.
  intros [|x es] e H; [congruence|]. cbn [nearest].
  destruct (nearest_from_spec (x :: es) e es 1 0 (dist2 x e)) as (y & H1 & H2).
  - exists x. auto.
  - reflexivity.
  - intros j y Hj Hy. assert (j = 0)%nat by lia. subst j. injection Hy as ->. lia.
  - eexists _, y. split; [reflexivity|]. auto.
Qed.
Lemma dist2_zero a b : dist2 a b <= 0 -> a = b.
Proof.
  unfold dist2. destruct a as [a1 a2], b as [b1 b2]. cbn [fst snd]. intros H.
  pose proof (Z.square_nonneg (a1 - b1)). pose proof (Z.square_nonneg (a2 - b2)).
  assert (E1 : (a1 - b1) * (a1 - b1) = 0) by lia. assert (E2 : (a2 - b2) * (a2 - b2) = 0) by lia.
  apply Z.eq_mul_0 in E1, E2. f_equal; lia.
Qed.
Lemma query_exact query es e : Nearest query -> In e es ->
  exists k, query es e = Z.of_nat k /\ nth_error es k = Some e.
Proof.
  intros HN Hin. destruct (HN es e) as (k & x & H1 & H2 & H3).
  { intros ->. destruct Hin. }
  exists k. split; auto. specialize (H3 _ Hin).
  assert (x = e) as ->; auto. apply dist2_zero.
  replace (dist2 e e) with 0 in H3; auto. unfold dist2. ring.
Qed.
Lemma roll1_nth {A} (l : list A) j : (j < length l)%nat ->
  nth_error (roll1 l) j = nth_error l (match j with O => length l - 1 | S k => k end)%nat.
Proof.
  intros Hj. unfold roll1. destruct (rev l) as [|x r] eqn:E.
  - apply (f_equal (@rev A)) in E. rewrite rev_involutive in E. subst l. cbn in Hj. lia.
  - assert (l = rev r ++ [x]) as ->.
    { rewrite <- (rev_involutive l), E. reflexivity. }
    rewrite app_length, rev_length in *. cbn [length] in *. destruct j as [|j]; cbn [nth_error].
    + rewrite nth_error_app2; rewrite rev_length; [|lia].
      replace (length r + 1 - 1 - length r)%nat with 0%nat by lia. reflexivity.
    + rewrite nth_error_app1; auto. rewrite rev_length. lia.
Qed.
Lemma roll1_length {A} (l : list A) : length (roll1 l) = length l.
Proof.
  unfold roll1. destruct (rev l) as [|x r] eqn:E.
  - apply (f_equal (@length A)) in E. rewrite rev_length in E. exact (eq_sym E).
  - apply (f_equal (@length A)) in E. rewrite rev_length in E. cbn in *. rewrite rev_length. lia.
Qed.
Lemma rollm1_nth {A} (l : list A) j : (j < length l)%nat ->
  nth_error (rollm1 l) j = nth_error l (S j mod length l)%nat.
Proof.
  intros Hj. destruct l as [|x l]; [cbn in Hj; lia|]. cbn [rollm1 length] in *.
  destruct (Nat.eq_dec j (length l)) as [->|Hne].
  - rewrite Nat.mod_same by lia. rewrite nth_error_app2 by lia. rewrite Nat.sub_diag. reflexivity.
  - rewrite Nat.mod_small by lia. rewrite nth_error_app1 by lia. reflexivity.
Qed.
Lemma combine_nth_error {A B} (l : list A) (m : list B) k a b :
  nth_error l k = Some a -> nth_error m k = Some b -> nth_error (combine l m) k = Some (a, b).
Proof.
  revert m k. induction l as [|x l IH]; intros [|y m] [|k] Ha Hb; cbn in *; try discriminate; auto.
  congruence.
Qed.
Lemma face_edge_entry query faces edges p a b :
  Nearest query -> Side faces p a b -> (exists c d, In (c, d) edges /\ SameEnds a b c d) ->
  exists k c d, Entry (build_face_edge query faces edges) p (Z.of_nat k) /\
    nth_error edges k = Some (c, d) /\ SameEnds a b c d.
Proof.
  intros HN (row & Hr & Ha & Hb) (c & d & Hin & Hsame).
  destruct (query_exact query (map norm edges) (norm (b, a)) HN) as (k & Hq & Hk).
  { replace (norm (b, a)) with (norm (c, d)); [apply in_map; auto|].
    apply norm_same. unfold SameEnds in *. destruct Hsame as [[-> ->]|[-> ->]]; auto. }
  rewrite nth_error_map in Hk. unfold edge in *. revert Hk.
  destruct (nth_error edges k) as [[c' d']|] eqn:Ek; [|discriminate]. intros [= Hk]. exists k, c', d'. split; [|split; auto].
  2: { apply norm_same in Hk. unfold SameEnds in *. destruct Hk as [[-> ->]|[-> ->]]; auto. }
  assert (Hj : (snd p < length row)%nat) by (eapply nth_error_Some_lt; eauto).
  unfold build_face_edge, edge in *. rewrite <- Hq. eexists. split.
  { rewrite nth_error_map, Hr. reflexivity. }
  rewrite rollm1_nth; rewrite map_length, combine_length, roll1_length, Nat.min_id; auto.
  rewrite nth_error_map.
  set (j' := (S (snd p) mod length row)%nat) in *.
  assert (Hj' : (j' < length row)%nat) by (apply Nat.mod_upper_bound; lia).
  rewrite (combine_nth_error row (roll1 row) j' b a); auto.
  rewrite roll1_nth by auto. rewrite <- Ha. f_equal. unfold j'.
  destruct (Nat.eq_dec (S (snd p)) (length row)) as [H|H].
  - rewrite H, Nat.mod_same by lia. lia.
  - rewrite Nat.mod_small by lia. reflexivity.
Qed.
Lemma rollm1_length {A} (l : list A) : length (rollm1 l) = length l.
Proof. destruct l; cbn; auto. rewrite app_length. cbn. lia. Qed.
Lemma face_edge_shape query faces edges :
  map (@length Z) (build_face_edge query faces edges) = map (@length Z) faces.
Proof.
  unfold build_face_edge, edge. rewrite map_map. apply map_ext. intros r.
  rewrite rollm1_length, map_length, combine_length, roll1_length. lia.
Qed.
Lemma edges_contain_sides faces : faces_ok faces ->
  forall p a b, Side faces p a b -> exists c d, In (c, d) (build_edges faces) /\ SameEnds a b c d.
Proof.
  intros HR p a b Hs.
  assert (Hin : In (norm (a, b)) (build_edges faces)) by (apply build_edges_in; eauto).
  destruct (norm (a, b)) as [c d] eqn:E. exists c, d. split; auto.
  destruct (norm_ends a b) as [E'|E']; rewrite E in E'; injection E' as -> ->; [left|right]; auto.
Qed.

(** ** State machine *)
Lemma set_faces_ok n f f' : faces_ok f -> set_faces n f = Ok f' -> faces_ok f'.
Proof.
  intros HR H. apply set_faces_shape in H. unfold faces_ok, Rect in *.
  rewrite <- Forall_map with (P := fun n => n = num_vertices f) in HR.
  assert (num_vertices f' = num_vertices f) as ->.
  { destruct f, f'; cbn in *; congruence. }
  rewrite <- Forall_map with (P := fun n => n = num_vertices f). rewrite H. exact HR.
Qed.

(** ** infer_location *)
Lemma infer_spec n nf nb init size :
  u_infer_location n nf nb (init ++ [size]) =
    if (size =? n)%nat then Some LNode
    else match nf with
         | Some k => if (size =? k)%nat then Some LFace
                     else match nb with Some m => if (size =? m)%nat then Some LBoundary else None | None => None end
         | None => match nb with Some m => if (size =? m)%nat then Some LBoundary else None | None => None end
         end.
Proof.
  unfold u_infer_location. rewrite rev_app_distr. cbn [rev app].
  destruct (size =? n)%nat; auto. destruct nf as [k|]; [destruct (size =? k)%nat|]; auto;
  destruct nb as [m|]; auto; destruct (size =? m)%nat; auto.
Qed.
