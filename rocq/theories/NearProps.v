(** C80: nearest points. *)
From Coq Require Import String QArith.
From Verif Require Import Common CommonProofs GridTypeModel GridTypeProofs MaskModel SGridModel SGridProofs LoadModel NearModel NearSpec NearProofs.
Open Scope string_scope.
Open Scope list_scope.
Open Scope nat_scope.

(** After the tree was made, a search gives a nearest point of the grid. *)
Theorem c80_nearest_partial : forall query g name a g' points, Searches query ->
  coords_of g name = Ok (Some a) -> 0 < a_r a -> 0 < a_c a -> build_kdtree g name = Ok g' ->
  exists ind, locate_nearest query g' name points = Ok ind /\ Forall2 (NearestAt a) points ind.
Proof.
  intros query g name a g' points Hq Ha Hr Hc Hb. unfold build_kdtree in Hb. rewrite Ha in Hb. cbn [bind] in Hb. injection Hb as <-.
  unfold locate_nearest. cbn [ng_trees]. rewrite dget_dset, String.eqb_refl, coords_dset, Ha. cbn [bind].
  apply each_ok. intros p _. destruct (Hq (a_ravel a) p) as (q & Hn & Hmin).
  { intros E. apply (f_equal (@length _)) in E. unfold a_ravel in E. rewrite ravel_length in E. cbn in E. nia. }
  apply ravel_nth_inv in Hn. destruct Hn as (H1 & H2 & H3 & ->).
  set (k := query (a_ravel a) p) in *.
  exists (Z.of_nat (k / a_c a), Z.of_nat (k mod a_c a)). split.
  - unfold unravel. replace (k <? a_r a * a_c a) with true; auto. symmetry. apply Nat.ltb_lt. nia.
  - exists (k / a_c a), (k mod a_c a). split; [reflexivity|]. split; [exact H1|]. split; [exact H2|].
    intros i' j' Hi Hj. apply Hmin. apply (nth_error_In _ (i' * a_c a + j')). unfold a_ravel. now apply ravel_nth.
Qed.
Print Assumptions c80_nearest_partial.

(** A search that goes through the points. *)
Fixpoint scan (p : Q * Q) (l : list (Q * Q)) (k best : nat) (d : Q) : nat :=
  match l with
  | [] => best
  | q :: r => if Qle_bool d (dist2 p q) then scan p r (S k) best d else scan p r (S k) k (dist2 p q)
  end.
Definition scan_query (tree : list (Q * Q)) (p : Q * Q) : nat :=
  match tree with [] => 0 | q :: r => scan p r 1 0 (dist2 p q) end.
Lemma scan_spec p full : forall l k best d qb, (forall i, nth_error l i = nth_error full (k + i)) ->
  nth_error full best = Some qb -> d = dist2 p qb -> (forall i q, i < k -> nth_error full i = Some q -> (d <= dist2 p q)%Q) ->
  exists q, nth_error full (scan p l k best d) = Some q /\ forall q', In q' full -> (dist2 p q <= dist2 p q')%Q.
Proof.
  induction l as [|q l IH]; intros k best d qb Hl Hb Hd Hm; cbn [scan].
  - exists qb. split; auto. intros q' Hq. apply In_nth_error in Hq. destruct Hq as [i Hi].
    destruct (Nat.lt_ge_cases i k); [rewrite <- Hd; eauto|]. specialize (Hl (i - k)). replace (k + (i - k)) with i in Hl by lia.
    rewrite Hi in Hl. now destruct (i - k).
  - assert (Hk : nth_error full k = Some q) by (specialize (Hl 0); cbn in Hl; now rewrite Nat.add_0_r in Hl).
    assert (Hl' : forall i, nth_error l i = nth_error full (S k + i)) by (intros i; specialize (Hl (S i)); cbn in Hl; now rewrite Nat.add_succ_r in Hl).
    destruct (Qle_bool d (dist2 p q)) eqn:E.
    + apply Qle_bool_iff in E. eapply IH; eauto. intros i q' Hi Hq. destruct (Nat.eq_dec i k) as [->|]; [congruence|]. apply (Hm i); auto. lia.
    + eapply IH; eauto. assert (Hlt : (dist2 p q < d)%Q) by (apply Qnot_le_lt; rewrite <- Qle_bool_iff; congruence).
      intros i q' Hi Hq. destruct (Nat.eq_dec i k) as [->|]; [rewrite Hk in Hq; injection Hq as ->; apply Qle_refl|].
      apply Qle_trans with d; [now apply Qlt_le_weak|]. apply (Hm i); auto. lia.
Qed.
Lemma scan_searches : Searches scan_query.
Proof.
  intros [|q r] p H; [contradiction|]. cbn [scan_query]. apply (scan_spec p (q :: r) r 1 0 (dist2 p q) q); auto.
  intros [|i] q' Hi Hq; [injection Hq as ->; apply Qle_refl|lia].
Qed.
Definition demo_nodes : arr (Q * Q) := mkArr 3 2 (fun i j => (inject_Z (Z.of_nat j), inject_Z (Z.of_nat i))).
Definition demo_near : ngrid := mkNgrid demo_nodes None None None [].
Definition demo_points : list (Q * Q) := [(9 # 10, 21 # 10); (1 # 10, 1 # 10)]%Q.
Example c80_nearest_demo : exists g' ind, build_kdtree demo_near "node" = Ok g' /\ locate_nearest scan_query g' "node" demo_points = Ok ind /\ ind = [(2, 1); (0, 0)]%Z.
Proof. eexists _, _. split; [reflexivity|]. split; vm_compute; reflexivity. Qed.

(** Without it every search fails, and no search makes it. *)
Theorem c80_not_lazy_refuted : forall query g name points, dget (ng_trees g) name = None ->
  locate_nearest query g name points = Err KeyError.
Proof. intros query g name points H. unfold locate_nearest. now rewrite H. Qed.
Print Assumptions c80_not_lazy_refuted.
Example c80_not_lazy_demo : locate_nearest scan_query demo_near "node" demo_points = Err KeyError.
Proof. now apply c80_not_lazy_refuted. Qed.
(** When the tree can be made. *)
Theorem c80_build : forall g name,
  (forall g', build_kdtree g name = Ok g' <-> exists a, coords_of g name = Ok (Some a) /\
     g' = mkNgrid (ng_node g) (ng_center g) (ng_edge1 g) (ng_edge2 g) (dset (ng_trees g) name (a_ravel a))) /\
  ((forall a, coords_of g name <> Ok (Some a)) -> build_kdtree g name = Err ValueError) /\
  (coords_of g "node" = Ok (Some (ng_node g)) /\ coords_of g "center" = Ok (ng_center g) /\
   coords_of g "edge1" = Ok (ng_edge1 g) /\ coords_of g "edge2" = Ok (ng_edge2 g)).
Proof.
  intros g name. split; [|split; [|repeat split]].
  - intros g'. unfold build_kdtree. destruct (coords_of g name) as [[a|]|e] eqn:E; cbn [bind].
    + split; [intros H; injection H as <-; eauto|intros (b & H & ->); injection H as ->; reflexivity].
    + split; [discriminate|intros (b & H & _); discriminate].
    + split; [discriminate|intros (b & H & _); discriminate].
  - intros H. unfold build_kdtree. destruct (coords_of g name) as [[a|]|e] eqn:E; cbn [bind]; auto; [exfalso; now apply (H a)|].
    unfold coords_of in E. repeat match type of E with (if ?b then _ else _) = _ => destruct b; [discriminate|] end. congruence.
Qed.
Print Assumptions c80_build.
(** The tree does not follow the grid: after the coordinates change, the old
    ones are searched. *)
Theorem c80_stale_refuted :
  exists g g' a ind, build_kdtree g "node" = Ok g' /\
    locate_nearest scan_query (mkNgrid a None None None (ng_trees g')) "node" [(0, 0)]%Q = Ok ind /\
    ~ Forall2 (NearestAt a) [(0, 0)]%Q ind.
Proof.
  exists demo_near. eexists _, (mkArr 3 2 (fun i j => (inject_Z (1 - Z.of_nat j), inject_Z (2 - Z.of_nat i)))%Q), _.
  split; [reflexivity|]. split; [vm_compute; reflexivity|]. intros H. inversion H as [|? ? ? ? (i & j & E & Hi & Hj & N) _]; subst.
  injection E as Ei Ej. assert (i = 0) by lia. assert (j = 0) by lia. subst i j. specialize (N 2 1). cbn [a_r a_c a_at] in N.
  specialize (N ltac:(lia) ltac:(lia)). vm_compute in N. now apply N.
Qed.
Print Assumptions c80_stale_refuted.

(** The slices hold every cell asked for, with its corners, and no smaller ones
    do. *)
Theorem c80_slice_partial : forall rows location e, rows <> [] -> Corners location e ->
  Forall (fun p => Fits (fst p) /\ Fits (snd p)) rows ->
  exists s, efficient_slice (map Some rows) location = Ok (Some s) /\
    (forall p k l, In p rows -> (0 <= k < fst e)%Z -> (0 <= l < snd e)%Z -> Within (fst s) (fst p + k) /\ Within (snd s) (snd p + l)) /\
    (forall s', (forall p k l, In p rows -> (0 <= k < fst e)%Z -> (0 <= l < snd e)%Z -> Within (fst s') (fst p + k) /\ Within (snd s') (snd p + l)) ->
       (fst (fst s') <= fst (fst s) /\ snd (fst s) <= snd (fst s') /\ fst (snd s') <= fst (snd s) /\ snd (snd s) <= snd (snd s'))%Z).
Proof.
  intros rows location e Hne He Hf.
  assert (He' : (1 <= fst e <= 2 /\ 1 <= snd e <= 2)%Z) by (destruct He as [[_ ->]|[[_ ->]|[[_ ->]|[_ ->]]]]; cbn; lia).
  apply extra_corners in He.
  assert (Fl : flat_map (fun o : option (Z * Z) => match o with Some p => [p] | None => [] end) (map Some rows) = rows).
  { clear. induction rows as [|p r IH]; cbn; auto. now rewrite IH. }
  assert (Xe : map (fun p : Z * Z => u32 (fst p)) rows = map fst rows).
  { clear - Hf. induction Hf as [|p r [H _] _ IH]; cbn; auto. rewrite IH. f_equal. apply u32_small. unfold Fits in *. lia. }
  assert (Ye : map (fun p : Z * Z => u32 (snd p)) rows = map snd rows).
  { clear - Hf. induction Hf as [|p r [_ H] _ IH]; cbn; auto. rewrite IH. f_equal. apply u32_small. unfold Fits in *. lia. }
  unfold efficient_slice. rewrite Fl, Xe, Ye, He. destruct (map Some rows) as [|o0 r0] eqn:Em; [destruct rows; [contradiction|discriminate]|]. clear Em. cbn [bind].
  assert (Nx : map fst rows <> []) by (destruct rows; [contradiction|discriminate]).
  assert (Ny : map snd rows <> []) by (destruct rows; [contradiction|discriminate]).
  destruct (least_spec _ Nx) as (x0 & -> & Ix0 & Lx0). destruct (greatest_spec _ Nx) as (x1 & -> & Ix1 & Gx1).
  destruct (least_spec _ Ny) as (y0 & -> & Iy0 & Ly0). destruct (greatest_spec _ Ny) as (y1 & -> & Iy1 & Gy1).
  rewrite Forall_forall in Hf. unfold Fits in Hf.
  apply in_map_iff in Ix0, Ix1, Iy0, Iy1. destruct Ix0 as (px0 & Ex0 & Hx0). destruct Ix1 as (px1 & Ex1 & Hx1).
  destruct Iy0 as (py0 & Ey0 & Hy0). destruct Iy1 as (py1 & Ey1 & Hy1).
  pose proof (Hf _ Hx1) as Fx1. pose proof (Hf _ Hy1) as Fy1. cbv beta in Fx1, Fy1. cbn [fst snd].
  rewrite (u32_small (x1 + 1)), (u32_small (y1 + 1)), !u32_small by lia.
  eexists. split; [reflexivity|]. cbn [fst snd]. unfold Within. cbn [fst snd]. split.
  - intros p k l Hp Hk Hl. assert (In (fst p) (map fst rows)) by now apply in_map. assert (In (snd p) (map snd rows)) by now apply in_map.
    specialize (Lx0 (fst p) ltac:(assumption)). specialize (Gx1 (fst p) ltac:(assumption)).
    specialize (Ly0 (snd p) ltac:(assumption)). specialize (Gy1 (snd p) ltac:(assumption)). lia.
  - intros s' Hs. pose proof (Hs px0 0 0 Hx0 ltac:(lia) ltac:(lia))%Z. pose proof (Hs px1 (fst e - 1) 0 Hx1 ltac:(lia) ltac:(lia))%Z.
    pose proof (Hs py0 0 0 Hy0 ltac:(lia) ltac:(lia))%Z. pose proof (Hs py1 0 (snd e - 1) Hy1 ltac:(lia) ltac:(lia))%Z. lia.
Qed.
Print Assumptions c80_slice_partial.
Example c80_slice_demo : efficient_slice (map Some [(4, 2); (3, 7)]%Z) "node" = Ok (Some ((3, 6), (2, 9)))%Z.
Proof. reflexivity. Qed.
(** Masked rows are left out. *)
Theorem c80_slice_masked : forall rows location, (exists p, In (Some p) rows) ->
  efficient_slice rows location = efficient_slice (filter (fun o => match o with Some _ => true | None => false end) rows) location.
Proof.
  intros rows location (p & Hp). unfold efficient_slice.
  assert (E : flat_map (fun o : option (Z * Z) => match o with Some p => [p] | None => [] end) (filter (fun o => match o with Some _ => true | None => false end) rows)
            = flat_map (fun o => match o with Some p => [p] | None => [] end) rows).
  { clear. induction rows as [|[q|] r IH]; cbn; auto. now rewrite IH. }
  rewrite E. destruct rows as [|o r]; [destruct Hp|].
  destruct (filter (fun o => match o with Some _ => true | None => false end) (o :: r)) eqn:F; auto.
  assert (I : In (Some p) (filter (fun o => match o with Some _ => true | None => false end) (o :: r))) by (apply filter_In; auto).
  rewrite F in I. destruct I.
Qed.
Print Assumptions c80_slice_masked.
Theorem c80_slice_errors : forall rows location,
  efficient_slice [] location = Err ValueError /\
  ((forall e, ~ Corners location e) -> efficient_slice rows location = Err ValueError).
Proof.
  intros rows location. split; [reflexivity|]. intros H. destruct rows as [|o r]; [reflexivity|]. unfold efficient_slice.
  destruct (extra location) as [[a b]|e] eqn:E.
  - exfalso. apply (H (a + 1, b + 1)%Z). apply extra_corners. rewrite E. cbn. do 2 f_equal; lia.
  - unfold extra in E. repeat match type of E with (if ?b then _ else _) = _ => destruct b; [discriminate|] end. injection E as <-. reflexivity.
Qed.
Print Assumptions c80_slice_errors.
(** An index of -1 that is not masked makes slices that hold nothing (the fault
    a comment in the code suspects). *)
Theorem c80_slice_negative_refuted :
  exists s, efficient_slice [Some (4, 2); Some (-1, -1)]%Z "center" = Ok (Some s) /\
    forall z, ~ Within (fst s) z /\ ~ Within (snd s) z.
Proof. eexists. split; [vm_compute; reflexivity|]. intros z. unfold Within. cbn. lia. Qed.
Print Assumptions c80_slice_negative_refuted.

(** The value at a nearest point. *)
Definition ValueAt (v : arr (option Q)) (ij : Z * Z) (x : option Q) : Prop :=
  exists i j, ij = (Z.of_nat i, Z.of_nat j) /\ i < a_r v /\ j < a_c v /\ x = a_at v i j.
Lemma forall2_map_r {A B C} (P : A -> C -> Prop) (f : B -> C) l : forall m, Forall2 (fun a b => P a (f b)) l m -> Forall2 P l (map f m).
Proof. induction l as [|a l IH]; intros m H; inversion H; subst; cbn; constructor; auto. Qed.
Lemma forall2_impl {A B} (P R : A -> B -> Prop) l m : Forall2 P l m -> (forall a b, In b m -> P a b -> R a b) -> Forall2 R l m.
Proof. induction 1; intros H'; constructor; [apply H'; auto; now left|]. apply IHForall2. intros. apply H'; auto. now right. Qed.
Definition layer (v : nvar) (lead : option nat) : option (arr (option Q)) :=
  match v, lead with V2 a, None => Some a | V3 l _, Some t => nth_error l t | _, _ => None end.
Theorem c80_value_partial : forall query g name a g' points v lead w l, Searches query ->
  coords_of g name = Ok (Some a) -> 0 < a_r a -> 0 < a_c a -> build_kdtree g name = Ok g' -> points <> [] ->
  (Z.of_nat (a_r a) <= 4294967294)%Z -> (Z.of_nat (a_c a) <= 4294967294)%Z ->
  infer g v = Some l -> layer v lead = Some w -> a_r w = a_r a -> a_c w = a_c a ->
  exists ind xs, nearest_var query g' true points v (Some name) lead = Ok xs /\
    Forall2 (NearestAt a) points ind /\ Forall2 (ValueAt w) ind xs.
Proof.
  intros query g name a g' points v lead w l Hq Ha Hr Hc Hb Hp Hzr Hzc Hi Hl Wr Wc.
  destruct (c80_nearest_partial query g name a g' points Hq Ha Hr Hc Hb) as (ind & Hind & F). exists ind.
  unfold nearest_var. rewrite Hind. cbn [bind].
  assert (In_range : forall p, In p ind -> exists i j, p = (Z.of_nat i, Z.of_nat j) /\ i < a_r a /\ j < a_c a).
  { clear - F. induction F as [|q p l m H _ IH]; intros x Hx; [destruct Hx|]. destruct Hx as [<-|Hx]; auto.
    destruct H as (i & j & E & A & B & _). eauto. }
  assert (Hn : ind <> []) by (inversion F; subst; [contradiction|discriminate]).
  assert (Hname : exists e, Corners name e).
  { unfold coords_of in Ha. unfold Corners.
    destruct (String.eqb_spec name "node") as [->|]; [exists (2, 2)%Z; cbn; auto 8|].
    destruct (String.eqb_spec name "center") as [->|]; [exists (1, 1)%Z; cbn; auto 8|].
    destruct (String.eqb_spec name "edge1") as [->|]; [exists (2, 1)%Z; cbn; auto 8|].
    destruct (String.eqb_spec name "edge2") as [->|]; [exists (1, 2)%Z; cbn; auto 8|discriminate]. }
  destruct Hname as (e & He).
  destruct (c80_slice_partial ind name e Hn He) as (s & Hs & Cover & Tight).
  { apply Forall_forall. intros p H. destruct (In_range p H) as (i & j & -> & A & B). unfold Fits. cbn [fst snd]. lia. }
  rewrite Hs. cbn [bind].
  assert (Ig : infer g' v = infer g v). { unfold build_kdtree in Hb. rewrite Ha in Hb. cbn [bind] in Hb. injection Hb as <-. reflexivity. }
  rewrite Ig, Hi.
  assert (Ew : match v, lead with
               | V2 a, None => Ok (sub2 a s) | V2 a, Some _ => Err IndexError | V3 l _, None => Err ValueError
               | V3 l _, Some t => match nth_error l t with Some a => Ok (sub2 a s) | None => Err IndexError end end = Ok (sub2 w s)).
  { destruct v as [a0|l0 sh], lead as [t|]; try discriminate; cbn [layer] in Hl; [injection Hl as ->; reflexivity|now rewrite Hl]. }
  rewrite Ew. cbn [bind]. unfold at_index.
  assert (He' : (1 <= fst e /\ 1 <= snd e)%Z) by (destruct He as [[_ ->]|[[_ ->]|[[_ ->]|[_ ->]]]]; cbn; lia).
  assert (Pos : (0 <= fst (fst s) /\ 0 <= fst (snd s))%Z).
  { specialize (Tight ((0, 2 * 4294967296), (0, 2 * 4294967296))%Z). cbn [fst snd] in Tight.
    assert (T : forall p k l, In p ind -> (0 <= k < fst e)%Z -> (0 <= l < snd e)%Z -> Within (0, 2 * 4294967296)%Z (fst p + k) /\ Within (0, 2 * 4294967296)%Z (snd p + l)).
    { intros p k m H Hk Hm. destruct (In_range p H) as (i & j & -> & A & B).
      assert (fst e <= 2 /\ snd e <= 2)%Z by (destruct He as [[_ ->]|[[_ ->]|[[_ ->]|[_ ->]]]]; cbn; lia).
      unfold Within. cbn [fst snd]. lia. }
    specialize (Tight T). lia. }
  assert (Inside : forall p, In p ind -> exists i j, p = (Z.of_nat i, Z.of_nat j) /\ i < a_r a /\ j < a_c a /\
     Z.to_nat (fst (fst s)) <= i < Z.to_nat (snd (fst s)) /\ Z.to_nat (fst (snd s)) <= j < Z.to_nat (snd (snd s))).
  { intros p H. destruct (In_range p H) as (i & j & -> & A & B). exists i, j. split; [reflexivity|]. split; [exact A|]. split; [exact B|].
    pose proof (Cover _ 0 0 H ltac:(lia) ltac:(lia))%Z as [C1 C2]. unfold Within in C1, C2. cbn [fst snd] in C1, C2. lia. }
  assert (Big : a_r (sub2 w s) * a_c (sub2 w s) =? 0 = false).
  { apply Nat.eqb_neq. destruct ind as [|p ind']; [contradiction|]. destruct (Inside p (or_introl eq_refl)) as (i & j & _ & A & B & C & D).
    unfold sub2. cbn [a_r a_c]. nia. }
  rewrite Big. eexists. split; [reflexivity|]. split; [exact F|]. rewrite map_map. apply forall2_map_r.
  assert (G : forall m, (forall p, In p m -> In p ind) -> Forall2 (fun a b => ValueAt w a (variable_at (sub2 w s) (fst b - fst (fst s), snd b - fst (snd s))%Z)) m m).
  { induction m as [|p m IH]; intros Hm; constructor; [|apply IH; intros; apply Hm; now right].
    destruct (Inside p (Hm p (or_introl eq_refl))) as (i & j & -> & A & B & C & D). exists i, j. split; [reflexivity|].
    split; [lia|]. split; [lia|]. unfold variable_at. cbn [fst snd sub2 a_at a_r a_c]. unfold clip.
    f_equal.
    - lia.
    - lia. }
  apply G. auto.
Qed.
Print Assumptions c80_value_partial.
Definition demo_var : arr (option Q) := mkArr 3 2 (fun i j => if (i =? 1) then None else Some (inject_Z (Z.of_nat (10 * i + j)))).
Example c80_value_demo : exists g', build_kdtree demo_near "node" = Ok g' /\
  nearest_var scan_query g' true demo_points (V2 demo_var) None None = Ok [Some 21; Some 0]%Q /\
  nearest_var scan_query g' true [(1, 1)]%Q (V3 [demo_var; demo_var] (3, 2)) (Some "node") (Some 1) = Ok [None].
Proof. eexists. split; [reflexivity|]. split; vm_compute; reflexivity. Qed.
(** A variable that fits the chosen points but not the inference rule is read at
    shifted places, and an array without a mask cannot be read. *)
Theorem c80_value_refuted :
  exists g g' v, build_kdtree g "edge1" = Ok g' /\
    (exists a, coords_of g "edge1" = Ok (Some a) /\ a_r a = a_r v /\ a_c a = a_c v) /\ infer g (V2 v) = None /\
    locate_nearest scan_query g' "edge1" [(1, 1)]%Q = Ok [(1, 1)]%Z /\
    nearest_var scan_query g' true [(1, 1)]%Q (V2 v) (Some "edge1") None = Ok [Some 0]%Q /\ a_at v 1 1 = Some 11%Q /\
    nearest_var scan_query g' false [(1, 1)]%Q (V2 v) (Some "edge1") None = Err AttributeError.
Proof.
  exists (mkNgrid demo_nodes None (Some (mkArr 2 4 (fun i j => (inject_Z (Z.of_nat j), inject_Z (Z.of_nat i))))) None []). eexists.
  exists (mkArr 2 4 (fun i j => Some (inject_Z (Z.of_nat (10 * i + j))))).
  split; [reflexivity|]. split; [eexists; repeat split|]. split; [reflexivity|]. split; [vm_compute; reflexivity|]. split; [vm_compute; reflexivity|].
  split; vm_compute; reflexivity.
Qed.
Print Assumptions c80_value_refuted.

(** Other failures: coordinates taken away after the tree was made, a variable
    that fits no location, and one without entries. *)
Theorem c80_errors : forall query g name points,
  (forall tree, dget (ng_trees g) name = Some tree -> coords_of g name = Ok None -> locate_nearest query g name points = Err AttributeError) /\
  (forall masked v lead, infer g v = None -> nearest_var query g masked points v None lead = Err KeyError) /\
  (forall masked v lead ind, infer g (V2 v) = None -> a_r v = 0 \/ a_c v = 0 ->
     locate_nearest query g name points = Ok ind -> ind <> [] -> (exists e, Corners name e) ->
     nearest_var query g masked points (V2 v) (Some name) lead = Err IndexError).
Proof.
  intros query g name points. split; [|split].
  - intros tree T C. unfold locate_nearest. now rewrite T, C.
  - intros masked v lead E. unfold nearest_var. now rewrite E.
  - intros masked v lead ind E Z L N (e & C). unfold nearest_var. rewrite L, E. cbn [bind].
    destruct ind as [|p r]; [contradiction|]. apply extra_corners in C.
    unfold efficient_slice. cbn [map flat_map app]. rewrite C. cbn [bind map least greatest].
    unfold at_index. replace (a_r v * a_c v =? 0) with true; [reflexivity|]. symmetry. apply Nat.eqb_eq. nia.
Qed.
Print Assumptions c80_errors.
Example c80_errors_demo : exists g', build_kdtree demo_near "node" = Ok g' /\
  nearest_var scan_query g' true [(0, 0)]%Q (V2 (mkArr 0 9 (fun _ _ => None))) (Some "node") None = Err IndexError.
Proof. eexists. split; [reflexivity|]. vm_compute. reflexivity. Qed.

(** Nodes of an unstructured mesh: as long as the nodes are not replaced, every
    search gives nearest ones, whatever was searched before. *)
Fixpoint searches (query : list (Q * Q) -> Q * Q -> nat) (s : nodes_state) (qs : list (list (Q * Q))) : list (list nat) * nodes_state :=
  match qs with
  | [] => ([], s)
  | q :: r => let '(a, s1) := locate_nodes query s q in let '(l, s2) := searches query s1 r in (a :: l, s2)
  end.
Theorem c80_nodes_partial : forall query nodes qs, Searches query -> nodes <> [] ->
  Forall2 (fun q ks => Forall2 (fun p k => exists n, nth_error nodes k = Some n /\ forall n', In n' nodes -> (dist2 p n <= dist2 p n')%Q) q ks)
    qs (fst (searches query (mkNodes nodes None) qs)).
Proof.
  intros query nodes qs Hq Hn.
  assert (G : forall s, ns_nodes s = nodes -> (ns_tree s = None \/ ns_tree s = Some nodes) ->
    Forall2 (fun q ks => Forall2 (fun p k => exists n, nth_error nodes k = Some n /\ forall n', In n' nodes -> (dist2 p n <= dist2 p n')%Q) q ks)
      qs (fst (searches query s qs))).
  { induction qs as [|q r IH]; intros s E T; [constructor|]. cbn [searches]. unfold locate_nodes.
    assert (Et : match ns_tree s with Some t => t | None => ns_nodes s end = nodes) by (destruct T as [-> | ->]; auto).
    rewrite Et. specialize (IH (mkNodes (ns_nodes s) (Some nodes)) E (or_intror eq_refl)).
    destruct (searches query (mkNodes (ns_nodes s) (Some nodes)) r) as [l s2]. cbn [fst] in IH |- *. constructor; [|exact IH].
    apply forall2_map_r. clear - Hq Hn. induction q; constructor; auto. }
  apply G; auto.
Qed.
Print Assumptions c80_nodes_partial.
Example c80_nodes_demo : fst (searches scan_query (mkNodes [(0, 0); (4, 4)]%Q None) [[(1, 1); (3, 3)]; [(4, 3)]]%Q) = [[0; 1]; [1]].
Proof. reflexivity. Qed.
Theorem c80_nodes_refuted : exists nodes nodes', length nodes = length nodes' /\
  let s := snd (locate_nodes scan_query (mkNodes nodes None) [(0, 0)]%Q) in
  fst (locate_nodes scan_query (set_nodes s nodes') [(0, 0)]%Q) = [0] /\ fst (locate_nodes scan_query (mkNodes nodes' None) [(0, 0)]%Q) = [1].
Proof. exists [(0, 0); (4, 4)]%Q, [(4, 4); (0, 0)]%Q. repeat split. Qed.
Print Assumptions c80_nodes_refuted.
