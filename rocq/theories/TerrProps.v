(** C97. *)
From Coq Require Import String Lqa.
From Verif Require Import Common CommonProofs TimeModel TimeSpec VariableModel DepthModel DepthSpec UGridGeomModel UGridGeomSpec UGridLocProofs
  WholeModel WholeSpec WholeProofs WholeProps TerrModel TerrSpec TerrProofs.
Open Scope list_scope.
Open Scope nat_scope.

Lemma nth_column n g k : k < n -> nth_error (column n g) k = Some (g k).
Proof. intros H. unfold column. apply map_nth_error. rewrite nth_error_nth' with (d := 0) by (rewrite seq_length; auto). now rewrite seq_nth. Qed.
Lemma pairs {A B C} (P : A -> B -> Prop) (R : A -> B -> C -> Prop) (T : A -> C -> Prop) l : (forall a b c, In a l -> P a b -> R a b c -> T a c) -> forall m n,
  Forall2 P l m -> Forall2 (fun x c => R (fst x) (snd x) c) (combine l m) n -> Forall2 T l n.
Proof.
  induction l as [|a l IH]; intros K m n F G; inversion F as [|? b ? m' Fb Fm]; subst; cbn [combine] in G; inversion G as [|? c ? n' Gc Gn]; subst; constructor.
  - exact (K a b c (or_introl eq_refl) Fb Gc).
  - apply (IH (fun a b c H => K a b c (or_intror H)) m' n'); auto.
Qed.
Lemma surface_places nodes faces te zeta ex q qz pts : SurfaceOf nodes faces te zeta ex q qz (map place pts) -> ZetaSamples nodes faces te q ex zeta qz pts.
Proof.
  unfold SurfaceOf, ZetaSamples. destruct (te_zeta te) as [[t d]|]; auto. intros [Z0 B]. split; auto. rewrite Forall_forall in *. intros s Hs. apply B. now apply in_map.
Qed.

(** Data on the levels.  [f t k] is the field on level [k]. *)
Theorem c97_levels_partial :
  forall tree hist nodes faces find te n h zeta sigma f data time sbc bbc q q' qz ex pts,
  (forall ps, tree nodes faces ps = map find ps) -> (forall ix ps, Forall asks (hist ix ps)) -> TriMesh nodes faces -> FindsFaces nodes faces find ->
  TerrainOf nodes faces te n h sigma -> SurfaceOf nodes faces te zeta ex q qz (map place pts) ->
  TimeOk (option_map t_data time) ex q q' -> Steady (option_map t_data time) f -> FieldSamples nodes faces n (option_map t_data time) f data ->
  let z s k := level_depth h zeta sigma qz k (place s) in
  (forall s j k, In s pts -> find (place s) <> (-1)%Z -> j < k < n -> (z s j < z s k)%Q) ->
  (forall s, In s pts -> bextrap bbc = true -> if Z.eq_dec (find (place s)) (-1) then (deep s < 0)%Q else (deep s < z s (n - 1)%nat)%Q) ->
  exists vs, terrain_at tree hist nodes faces te q ex data n time sbc bbc pts = Ok vs /\
    Forall2 (fun s c => (find (place s) <> (-1)%Z -> ColumnAnswer n (z s) (fun k => f q' k (place s)) (bextrap sbc) (deep s) c) /\
      (find (place s) = (-1)%Z -> OutsideAnswer (bextrap sbc) (deep s) c)) pts vs.
Proof.
  intros tree hist nodes faces find te n h zeta sigma f data time sbc bbc q q' qz ex pts HT HH M FF (Hh & Hs & HN & N2 & NL & HP & HTop) HZ T St SS z HD HB.
  assert (SF : Forall (Safe find h zeta sigma qz n bbc) pts).
  { apply Forall_forall. intros s Hi B. specialize (HB s Hi B). unfold depth_of, off. destruct (Z.eq_dec (find (place s)) (-1)) as [E|E]; [rewrite E; exact HB|].
    destruct (Z.eqb_spec (find (place s)) (-1)); [contradiction|exact HB]. }
  destruct (levels_at tree hist nodes faces find te q ex HT HH M FF h zeta sigma qz Hh Hs n HN N2 NL HTop HP f data time q' T St sbc bbc pts) as (rows & vs & Fr & E & V); auto.
  - now apply surface_places.
  - apply Forall_forall. intros s Hi Ho j k Hjk. unfold depth_of. rewrite Ho. apply HD; auto. unfold off in Ho. now apply Z.eqb_neq.
  - exists vs. split; [exact E|]. refine (pairs _ (fun s r c => Holds (row_masked r) (row_value (fun k => field find f q' k s) r) c) _ pts _ rows vs Fr V). intros s r c Hi R H. cbn beta in H. rewrite Forall_forall in SF. specialize (SF s Hi). unfold Safe in SF.
    unfold Row, depth_of in R. unfold depth_of in SF. unfold field in H. destruct (off find s) eqn:Ho; unfold off in Ho.
    + apply Z.eqb_eq in Ho. split; [intros X; contradiction|]. intros _. destruct R as [R1 R2]. split; intros L.
      * rewrite (R1 L) in H. destruct (bextrap sbc); exact H.
      * rewrite (R2 L) in H. destruct (bextrap bbc); [specialize (SF eq_refl); lra|exact H].
    + apply Z.eqb_neq in Ho. split; [intros _|intros X; contradiction]. fold (z s) in R, SF. cbv zeta in R. destruct R as (R1 & R2 & R3). split; [|split]; intros L.
      * rewrite (R1 L) in H. destruct (bextrap sbc); exact H.
      * rewrite (R2 L) in H. destruct (bextrap bbc); [specialize (SF eq_refl); change (z s (n - 1)) with (level_depth h zeta sigma qz (n - 1) (place s)) in L; lra|exact H].
      * destruct (R3 L) as (i & al & Er & Hi' & B & Ls & Ed). rewrite Er in H. cbn [fst snd row_masked row_value Holds] in H. destruct (Z.eqb_spec (Z.of_nat i) (-1)); [lia|]. rewrite Nat2Z.id in H.
        eexists. split; [|exact H]. exists i, (z s i), (z s (S i)), (f q' i (place s)), (f q' (S i) (place s)), al. rewrite !nth_column by lia. do 4 (split; [reflexivity|]). split; [exact B|]. split; [exact Ed|ring].
Qed.
Print Assumptions c97_levels_partial.
(** A field linear in depth down each column is answered by its value at the
    depth asked. *)
Theorem c97_linear_in_depth_partial :
  forall tree hist nodes faces find te n h zeta sigma f data time sbc bbc q q' qz ex pts (a b : point -> Q),
  (forall ps, tree nodes faces ps = map find ps) -> (forall ix ps, Forall asks (hist ix ps)) -> TriMesh nodes faces -> FindsFaces nodes faces find ->
  TerrainOf nodes faces te n h sigma -> SurfaceOf nodes faces te zeta ex q qz (map place pts) ->
  TimeOk (option_map t_data time) ex q q' -> Steady (option_map t_data time) f -> FieldSamples nodes faces n (option_map t_data time) f data ->
  (forall k p, f q' k p == a p + b p * level_depth h zeta sigma qz k p)%Q ->
  (forall s, In s pts -> find (place s) <> (-1)%Z /\ let z k := level_depth h zeta sigma qz k (place s) in
     (forall j k, j < k < n -> (z j < z k)%Q) /\ (z 0%nat <= deep s < z (n - 1)%nat)%Q) ->
  exists vs, terrain_at tree hist nodes faces te q ex data n time sbc bbc pts = Ok vs /\
    Forall2 (fun s c => Shows (a (place s) + b (place s) * deep s) c) pts vs.
Proof.
  intros tree hist nodes faces find te n h zeta sigma f data time sbc bbc q q' qz ex pts a b HT HH M FF HE HZ T St SS Lin Hp.
  destruct (c97_levels_partial tree hist nodes faces find te n h zeta sigma f data time sbc bbc q q' qz ex pts HT HH M FF HE HZ T St SS) as (vs & E & V).
  - intros s j k Hi _ Hjk. exact (proj1 (proj2 (Hp s Hi)) j k Hjk).
  - intros s Hi _. destruct (Hp s Hi) as (Hn & _ & B). destruct (Z.eq_dec _ _); [contradiction|]. apply B.
  - exists vs. split; [exact E|]. clear - V Hp Lin. cbv zeta in *. induction V as [|s c l m [K _] _ IH]; constructor.
    + destruct (Hp s (or_introl eq_refl)) as (Hn & _ & B). destruct (K Hn) as (_ & _ & K3). destruct (K3 B) as (x & (k & za & zb & u & v & w & H1 & H2 & H3 & H4 & Hw & Hd & Hx) & (v0 & -> & Hv)).
      assert (Lk : S k < n). { apply nth_error_Some_lt in H2. unfold column in H2. now rewrite map_length, seq_length in H2. }
      rewrite nth_column in H1, H2, H3, H4 by lia. injection H1 as <-. injection H2 as <-. injection H3 as <-. injection H4 as <-.
      eexists. split; [reflexivity|]. rewrite Hv, Hx, Hd, !Lin. ring.
    + apply IH. intros s' Hs. apply Hp. now right.
Qed.
Print Assumptions c97_linear_in_depth_partial.
(** Data on the layers between the levels: the layer that holds the point. *)
Theorem c97_layers_partial :
  forall tree hist nodes faces find te n h zeta sigma f data time sbc bbc q q' qz ex pts,
  (forall ps, tree nodes faces ps = map find ps) -> (forall ix ps, Forall asks (hist ix ps)) -> TriMesh nodes faces -> FindsFaces nodes faces find ->
  TerrainOf nodes faces te n h sigma -> length (te_siglay te) = n - 1 -> SurfaceOf nodes faces te zeta ex q qz (map place pts) ->
  TimeOk (option_map t_data time) ex q q' -> Steady (option_map t_data time) f -> FieldSamples nodes faces (n - 1) (option_map t_data time) f data ->
  let z s k := level_depth h zeta sigma qz k (place s) in
  (forall s j k, In s pts -> find (place s) <> (-1)%Z -> j < k < n -> (z s j < z s k)%Q) ->
  (forall s, In s pts -> bextrap bbc = true -> if Z.eq_dec (find (place s)) (-1) then (deep s < 0)%Q else (deep s < z s (n - 1)%nat)%Q) ->
  (forall s, In s pts -> bextrap sbc = true -> if Z.eq_dec (find (place s)) (-1) then (0 <= deep s)%Q else (z s 0%nat <= deep s)%Q) ->
  exists vs, terrain_at tree hist nodes faces te q ex data (n - 1) time sbc bbc pts = Ok vs /\
    Forall2 (fun s c => (find (place s) <> (-1)%Z -> LayerAnswer n (z s) (fun k => f q' k (place s)) (deep s) c) /\
      (find (place s) = (-1)%Z -> c = CMasked)) pts vs.
Proof.
  intros tree hist nodes faces find te n h zeta sigma f data time sbc bbc q q' qz ex pts HT HH M FF (Hh & Hs & HN & N2 & NL & HP & HTop) HY HZ T St SS z HD HB HU.
  assert (SF : Forall (Safe find h zeta sigma qz n bbc) pts).
  { apply Forall_forall. intros s Hi B. specialize (HB s Hi B). unfold depth_of, off. destruct (Z.eq_dec (find (place s)) (-1)) as [E|E]; [rewrite E; exact HB|].
    destruct (Z.eqb_spec (find (place s)) (-1)); [contradiction|exact HB]. }
  assert (SU : Forall (fun s => bextrap sbc = true -> (if off find s then 0 <= deep s else depth_of find h zeta sigma qz s 0%nat <= deep s)%Q) pts).
  { apply Forall_forall. intros s Hi B. specialize (HU s Hi B). unfold depth_of, off. destruct (Z.eq_dec (find (place s)) (-1)) as [E|E]; [rewrite E; exact HU|].
    destruct (Z.eqb_spec (find (place s)) (-1)); [contradiction|exact HU]. }
  destruct (layers_at tree hist nodes faces find te q ex HT HH M FF h zeta sigma qz Hh Hs n HN N2 NL HTop HP f data time q' T St sbc bbc pts) as (rows & vs & Fr & E & V); auto.
  - now apply surface_places.
  - apply Forall_forall. intros s Hi Ho j k Hjk. unfold depth_of. rewrite Ho. apply HD; auto. unfold off in Ho. now apply Z.eqb_neq.
  - exists vs. split; [exact E|]. refine (pairs _ (fun s r c => Holds (row_masked r) (layer_value (fun k => field find f q' k s) r) c) _ pts _ rows vs Fr V). intros s r c Hi R H. cbn beta in H. rewrite Forall_forall in SF, SU. specialize (SF s Hi). specialize (SU s Hi). unfold Safe in SF.
    pose proof (HD s) as HDs. unfold Row, depth_of in R. unfold depth_of in SF, SU. unfold field in H. destruct (off find s) eqn:Ho; unfold off in Ho.
    + apply Z.eqb_eq in Ho. split; [intros X; contradiction|]. intros _. destruct R as [R1 R2]. destruct (Qlt_le_dec (deep s) 0) as [L|L].
      * rewrite (R1 L) in H. destruct (bextrap sbc); [specialize (SU eq_refl); lra|exact H].
      * rewrite (R2 L) in H. destruct (bextrap bbc); [specialize (SF eq_refl); lra|exact H].
    + apply Z.eqb_neq in Ho. split; [intros _|intros X; contradiction]. fold (z s) in R. cbv zeta in R. destruct R as (R1 & R2 & R3). split.
      * intros [L|L].
        -- rewrite (R1 L) in H. destruct (bextrap sbc); [specialize (SU eq_refl); change (z s 0) with (level_depth h zeta sigma qz 0 (place s)) in L; lra|exact H].
        -- rewrite (R2 L) in H. destruct (bextrap bbc); [specialize (SF eq_refl); change (z s (n - 1)) with (level_depth h zeta sigma qz (n - 1) (place s)) in L; lra|exact H].
      * intros k Hk [B1 B2].
        assert (Up : forall i j, i <= j < n -> (z s i <= z s j)%Q). { intros i j Hij. destruct (Nat.eq_dec i j) as [->|]; [apply Qle_refl|]. apply Qlt_le_weak, HDs; auto; lia. }
        destruct R3 as (i & al & Er & Hi' & B & Ls & Ed). { split; [eapply Qle_trans; [apply (Up 0 k); lia|exact B1]|eapply Qlt_le_trans; [exact B2|apply Up; lia]]. }
        rewrite Er in H. unfold layer_value in H. cbn [fst snd row_masked Holds] in H. rewrite Nat2Z.id in H.
        assert (B0 : (z s i <= deep s)%Q).
        { assert (W : (z s i < z s (S i))%Q) by (apply HDs; auto; lia). change (deep s == z s i + al * (z s (S i) - z s i))%Q in Ed. revert B W Ed.
          generalize (z s i) (z s (S i)) (deep s). clear. intros x y d B W Ed. pose proof (Qmult_le_0_compat al (y - x) (proj1 B) ltac:(lra)). lra. }
        assert (i = k) as <-; [|exact H]. destruct (Nat.lt_trichotomy i k) as [X|[X|X]]; auto; exfalso.
        -- specialize (Up (S i) k). apply (Qlt_irrefl (deep s)). eapply Qlt_le_trans; [exact Ls|]. eapply Qle_trans; [apply Up; lia|exact B1].
        -- specialize (Up (S k) i). apply (Qlt_irrefl (deep s)). eapply Qlt_le_trans; [exact B2|]. eapply Qle_trans; [apply Up; lia|exact B0].
Qed.
Print Assumptions c97_layers_partial.

(** Sigma and depth are interpolated before they are multiplied.  Where both
    vary, a field that is the depth itself, exact at every node and level, is
    answered by another number. *)
Definition c97_h : list cell := map CVal [10; 20; 10; 20]%Q.
Definition c97_uneven : terrain := mkTerr [[0; 0; 0; 0]; [- (1 # 5); - (4 # 5); - (1 # 5); - (4 # 5)]; [-1; -1; -1; -1]]%Q [[]; []] c97_h None false.
Theorem c97_product_refuted :
  let data ix := map (fun i => CVal (- (nth i [10; 20; 10; 20] 0) * nth i (nth (nth 0 ix 0%nat) (te_siglev c97_uneven) []) 0)%Q) (seq 0 4) in
  exists v, terrain_at c94_tree (fun _ _ => []) c94_nodes c94_faces c97_uneven 0%Z false data 3 None BMask BMask [((1 # 2, 0), 15 # 2)]%Q = Ok [CVal v] /\ (v == 9)%Q.
Proof. intros data. eexists. split; [vm_compute; reflexivity|reflexivity]. Qed.
Print Assumptions c97_product_refuted.
(** Plain arrays with a free surface from the file have no mask to read: every
    question that gets as far as the profiles is an AttributeError. *)
Theorem c97_plain_refuted :
  forall tree hist nodes faces te zt q ex sbc bbc pts profs col surf bot,
  te_plain te = true -> te_zeta te = Some zt -> length (te_siglev te) <> 1 -> length (te_siglev te) <> length (te_siglay te) ->
  first_column te = Ok col -> argmax col = Ok surf -> argmin col = Ok bot -> depth_profiles tree hist nodes faces te q ex (te_siglev te) pts = Ok profs ->
  terrain_alphas tree hist nodes faces te q ex sbc bbc pts = Err AttributeError.
Proof.
  intros tree hist nodes faces te zt q ex sbc bbc pts profs col surf bot HP HZ N1 NL HC H1 H2 HD. unfold terrain_alphas. rewrite HC. cbn [bind]. rewrite H1. cbn [bind]. rewrite H2. cbn [bind].
  destruct (Nat.eqb_spec (length (te_siglev te)) 1); [contradiction|]. destruct (Nat.eqb_spec (length (te_siglev te)) (length (te_siglay te))); [contradiction|].
  rewrite HD. cbn [bind]. now rewrite HP, HZ.
Qed.
Print Assumptions c97_plain_refuted.

(** Uniform sigmas over a sloping bottom, a free surface that rises by 1 in 10,
    the field 3 + 2 z + y + t: over the mesh, below the bottom, off the mesh,
    above the surface. *)
Definition c97_zeta (t : Z) (p : point) : Q := (inject_Z t / 10)%Q.
Definition c97_bathy (p : point) : Q := (10 + 10 * fst p)%Q.
Definition c97_sigma (k : nat) (p : point) : Q := (- inject_Z (Z.of_nat k) / 2)%Q.
Definition c97_field (t : Z) (k : nat) (p : point) : Q := (3 + 2 * level_depth c97_bathy c97_zeta c97_sigma t k p + snd p + inject_Z t)%Q.
Definition c97_time : time_obj := mkTime [0; 10]%Z None None.
Definition c97_te (plain : bool) : terrain :=
  mkTerr (map (fun k => map (c97_sigma k) c94_nodes) [0; 1; 2]) [[]; []] (map (fun p => CVal (c97_bathy p)) c94_nodes)
    (Some (c97_time, fun ix => map (fun p => CVal (c97_zeta (nth (nth 0 ix 0) [0; 10]%Z 0%Z) p)) c94_nodes)) plain.
Definition c97_data (ix : list nat) : list cell :=
  match ix with [i; k] => map (fun p => CVal (c97_field (nth i [0; 10]%Z 0%Z) k p)) c94_nodes | _ => [] end.
Definition c97_pts : list spot := [((1 # 2, 1 # 4), 4); ((1 # 2, 1 # 4), 20); ((3, 0), 7); ((3 # 4, 3 # 4), -1)]%Q.
Lemma c97_sampled f : (exists k kx ky, forall p, (f p == k + kx * fst p + ky * snd p)%Q) -> Sampled c94_nodes c94_faces f (map (fun p => CVal (f p)) c94_nodes).
Proof.
  intros (k & kx & ky & H). split; [repeat constructor; (eexists; split; reflexivity)|]. intros a b c A B C _ _ _ _. exists k, kx, ky. auto.
Qed.
Lemma c97_terrain : TerrainOf c94_nodes c94_faces (c97_te false) 3 c97_bathy c97_sigma.
Proof.
  split; [|split; [|split; [reflexivity|split; [lia|split; [discriminate|split; [discriminate|]]]]]].
  - apply c97_sampled. exists 10%Q, 10%Q, 0%Q. intros p. unfold c97_bathy. ring.
  - intros k row H. assert (row = map (c97_sigma k) c94_nodes) as ->. { destruct k as [|[|[|k]]]; cbn in H; [| | |destruct k; discriminate]; now injection H as <-. }
    rewrite map_map. apply (c97_sampled (c97_sigma k)). exists (- inject_Z (Z.of_nat k) / 2)%Q, 0%Q, 0%Q. intros p. unfold c97_sigma. ring.
  - intros p _ j k Hjk. unfold c97_sigma. assert (inject_Z (Z.of_nat j) < inject_Z (Z.of_nat k))%Q by (rewrite <- Zlt_Qlt; lia).
    apply Qlt_shift_div_r; [reflexivity|]. setoid_replace (- inject_Z (Z.of_nat j) / 2 * 2)%Q with (- inject_Z (Z.of_nat j))%Q by field. lra.
Qed.
Lemma c97_inc : StrictlyIncreasing [0; 10]%Z.
Proof. intros i j a b Hij Ha Hb. destruct i as [|[|[|i]]], j as [|[|[|j]]]; cbn in Ha, Hb; try discriminate; try lia; injection Ha as <-; injection Hb as <-; lia. Qed.
Lemma c97_asked : TimeAsked [0; 10]%Z false 5 5.
Proof. left. split; [|reflexivity]. exists 0%Z, 10%Z. repeat split; auto; lia. Qed.
Lemma c97_surface pts : SurfaceOf c94_nodes c94_faces (c97_te false) c97_zeta false 5 5 pts.
Proof.
  unfold SurfaceOf. cbn [te_zeta c97_te]. split; [exact c97_inc|]. split; [discriminate|]. split; [exact c97_asked|]. split.
  - intros p k t0 t1 q0 _ _ _. unfold c97_zeta, Qdiv. ring.
  - intros i u Hu. apply nth_error_nth with (d := 0%Z) in Hu. cbn [c97_time t_data] in Hu.
    change (nth (nth 0 [i] 0) [0; 10]%Z 0%Z) with (nth i [0; 10]%Z 0%Z). rewrite Hu. apply (c97_sampled (c97_zeta u)).
    exists (inject_Z u / 10)%Q, 0%Q, 0%Q. intros p. unfold c97_zeta. ring.
Qed.
Lemma c97_fields : FieldSamples c94_nodes c94_faces 3 (Some [0; 10]%Z) c97_field c97_data.
Proof.
  intros k _ i t Ht. apply nth_error_nth with (d := 0%Z) in Ht. unfold c97_data. rewrite Ht. apply (c97_sampled (c97_field t k)).
  set (s := (inject_Z (Z.of_nat k) / 2)%Q). exists (3 + 2 * ((inject_Z t / 10 + 10) * s) + inject_Z t)%Q, (2 * (10 * s))%Q, 1%Q.
  intros p. unfold c97_field, level_depth, c97_bathy, c97_zeta, c97_sigma, s, Qdiv. ring.
Qed.
Lemma c97_steady : Steady (Some [0; 10]%Z) c97_field.
Proof. intros k p i t0 t1 q0 _ _ _. unfold c97_field, level_depth, c97_bathy, c97_zeta, c97_sigma, Qdiv. ring. Qed.
Lemma c97_deeper (a x y : Q) : (0 < a -> x < y -> - (a * (- x / 2)) < - (a * (- y / 2)))%Q.
Proof.
  intros Ha H. setoid_replace (- (a * (- x / 2)))%Q with (a * (x * (1 # 2)))%Q by field. setoid_replace (- (a * (- y / 2)))%Q with (a * (y * (1 # 2)))%Q by field.
  apply Qmult_lt_l; [exact Ha|]. lra.
Qed.
Example c97_example :
  exists vs, terrain_at c94_tree (fun _ _ => [OInterp VNode [] false true []]) c94_nodes c94_faces (c97_te false) 5%Z false c97_data 3 (Some c97_time) BExtrapolate BMask c97_pts = Ok vs /\
    Forall2 (fun s c => (c94_find (place s) <> (-1)%Z ->
        ColumnAnswer 3 (fun k => level_depth c97_bathy c97_zeta c97_sigma 5 k (place s)) (fun k => c97_field 5 k (place s)) true (deep s) c) /\
      (c94_find (place s) = (-1)%Z -> OutsideAnswer true (deep s) c)) c97_pts vs.
Proof.
  apply c97_levels_partial; try reflexivity.
  - intros. repeat constructor.
  - exact c94_mesh.
  - exact c94_finds.
  - exact c97_terrain.
  - apply c97_surface.
  - intros l H. injection H as <-. split; [exact c97_inc|split; [discriminate|exact c97_asked]].
  - exact c97_steady.
  - exact c97_fields.
  - cbv zeta. intros s j k Hs Hf Hjk. assert (inject_Z (Z.of_nat j) < inject_Z (Z.of_nat k))%Q by (rewrite <- Zlt_Qlt; lia).
    destruct Hs as [<-|[<-|[<-|[<-|[]]]]]; unfold level_depth, c97_bathy, c97_zeta, c97_sigma, place; cbn [fst snd]; change (inject_Z 5) with 5%Q; try (exfalso; apply Hf; reflexivity); apply c97_deeper; auto; reflexivity.
  - discriminate.
Qed.
Example c97_values :
  exists a b, terrain_at c94_tree (fun _ _ => []) c94_nodes c94_faces (c97_te false) 5%Z false c97_data 3 (Some c97_time) BExtrapolate BMask c97_pts = Ok [CVal a; CMasked; CMasked; CVal b] /\
    (a == 3 + 2 * 4 + (1 # 4) + 5)%Q /\ (b == 3 + (3 # 4) + 5)%Q.
Proof. do 2 eexists. split; [vm_compute; reflexivity|]. split; reflexivity. Qed.
Example c97_plain_example :
  terrain_at c94_tree (fun _ _ => []) c94_nodes c94_faces (c97_te true) 5%Z false c97_data 3 (Some c97_time) BExtrapolate BMask c97_pts = Err AttributeError.
Proof. vm_compute. reflexivity. Qed.
(** Layer data with the constant free surface: layers 100 and 200. *)
Example c97_layer_example :
  exists a b, terrain_at c94_tree (fun _ _ => []) c94_nodes c94_faces (mkTerr (te_siglev (c97_te true)) [[]; []] (te_h (c97_te true)) None true) 0%Z false
    (fun ix => map (fun _ => CVal (nth (nth 0 ix 0) [100; 200]%Q 0%Q)) c94_nodes) 2 None BMask BMask [((1 # 2, 0), 2); ((1 # 2, 0), 15 # 2); ((1 # 2, 0), 15)]%Q = Ok [CVal a; CVal b; CMasked] /\
    (a == 100)%Q /\ (b == 200)%Q.
Proof. do 2 eexists. split; [vm_compute; reflexivity|]. split; reflexivity. Qed.
