(** C84: carrying a variable over to another grid. *)
From Coq Require Import String.
From Verif Require Import Common CommonProofs RegridModel RegridSpec RegridProofs.
Open Scope string_scope.
Open Scope list_scope.
Open Scope nat_scope.

Lemma target_pts g loc p : Target g loc p -> dest_points g loc = Ok (p_pts p).
Proof. intros H. destruct H; reflexivity. Qed.
Lemma target_shape g loc p : Target g loc p -> xy_shape g loc = Ok (p_r p, p_c p).
Proof. intros H. destruct H; reflexivity. Qed.
Lemma target_nodes g loc p : Target g loc p -> node_shape g = (p_r p, p_c p).
Proof. intros H. destruct H; cbn; congruence. Qed.
Lemma target_full g loc p : Target g loc p -> Full p.
Proof. intros H. destruct H; auto. Qed.
Lemma full_some p : Full p -> p_pts p <> [].
Proof. intros [A B] E. rewrite E in A. cbn in A. lia. Qed.
Lemma point_in p j k : Full p -> j < p_r p -> k < p_c p -> j * p_c p + k < length (p_pts p).
Proof. intros [A _] Hj Hk. rewrite A. nia. Qed.

(** Without depth: at every instant and every point of the destination, the
    source's value there and then, at the surface. *)
Theorem c84_values : forall g loc p name locate ts at_ f,
  Target g loc p -> Answers locate -> (forall t, In t (instants ts) -> Reads at_ (Some t) (f t)) ->
  exists vals,
    regrid g loc (OVar name (SS locate) (Some ts) at_ ONone) =
      Ok (NVar (append "regridded " name) (Some ts) (Plain [length (instants ts); p_r p; p_c p] vals) NNone) /\
    length vals = length (instants ts) * (p_r p * p_c p) /\
    forall i j k, i < length (instants ts) -> j < p_r p -> k < p_c p ->
      nth (i * (p_r p * p_c p) + (j * p_c p + k)) vals 0%Q =
      fst (f (nth i (instants ts) 0%Z) (point p j k, 0%Q)).
Proof.
  intros g loc p name locate ts at_ f T A R. set (v := OVar name (SS locate) (Some ts) at_ ONone).
  pose proof (target_full _ _ _ T) as W.
  set (F := fun t : Z => map (fun q : pt2 => fst (f t (q, 0%Q))) (p_pts p)).
  assert (LF : forall t, In t (instants ts) -> length (F t) = p_r p * p_c p) by (intros; unfold F; rewrite map_length; apply W).
  assert (E : times v (p_r p, p_c p) (p_r p, p_c p) (surface (p_pts p)) (instants ts) = Ok (flat_map F (instants ts))).
  { apply times_flat with (P := fun pts => pts = surface (p_pts p)); auto. intros t pts Ht ->. exists (surface (p_pts p)). split; auto.
    unfold at_time. cbn [o_depth v]. rewrite (put_reads v (p_r p, p_c p) (p_pts p)) with (f := f t); cbn [fst snd];
      [|apply W|exact (R t Ht)|apply map_length].
    cbn [bind]. do 2 f_equal. unfold surface, F. rewrite map_map. apply map_ext. now intros []. }
  exists (flat_map F (instants ts)). repeat split.
  - unfold v. cbn [regrid]. fold v. rewrite (target_pts _ _ _ T). cbn [bind].
    rewrite overlap_answers by (auto using full_some). cbn [bind regrid_depth].
    rewrite (target_shape _ _ _ T). cbn [bind depth_len]. rewrite (target_nodes _ _ _ T), E. reflexivity.
  - now apply flat_length.
  - intros i j k Hi Hj Hk. assert (Hq : j * p_c p + k < length (p_pts p)) by (now apply point_in).
    rewrite flat_nth with (da := 0%Z) (m := p_r p * p_c p); auto; [|rewrite <- (proj1 W); auto].
    unfold F. rewrite (nth_indep _ 0%Q (fst (f (nth i (instants ts) 0%Z) ((0, 0)%Q, 0%Q)))) by now rewrite map_length.
    rewrite (map_nth (fun q : pt2 => fst (f (nth i (instants ts) 0%Z) (q, 0%Q)))). reflexivity.
Qed.
Print Assumptions c84_values.
Definition demo_nodes : points2 := mkP 2 2 [(0, 0); (1, 0); (0, 1); (1, 1)]%Q.
Definition demo_in (pts : list pt2) : list Z := flat_map (fun p => if Qle_bool 1 (fst p) then [(-1)%Z; (-1)%Z] else [0%Z; 0%Z]) pts.
Lemma demo_in_answers : Answers demo_in.
Proof. intros pts. unfold demo_in. rewrite flat_length with (m := 2); [apply Nat.mul_comm|]. intros p _. now destruct (Qle_bool 1 (fst p)). Qed.
Definition demo_f (t : Z) (p : pt3) : cell := ((fst (fst p) + 10 * snd (fst p) + 100 * snd p + 1000 * inject_Z t)%Q, Qle_bool 1 (fst (fst p))).
Definition demo_at (pts : list pt3) (t : option Z) : result (list cell) :=
  Ok (map (demo_f (match t with Some t => t | None => 0%Z end)) pts).
Definition demo_var : ovar := OVar "temp" (SS demo_in) (Some (3%Z, [4%Z])) demo_at ONone.
Lemma demo_full : Full demo_nodes. Proof. split; cbn; auto with arith. Qed.
Example c84_values_demo : exists w vals, regrid (DS demo_nodes None) "node" demo_var = Ok w /\ n_data w = Plain [2; 2; 2] vals /\
  nth 6 vals 0%Q = (0 + 10 * 1 + 100 * 0 + 1000 * 4)%Q.
Proof.
  destruct (c84_values (DS demo_nodes None) "node" demo_nodes "temp" demo_in (3%Z, [4%Z]) demo_at demo_f
    (T_node _ _ demo_full) demo_in_answers ltac:(intros t _ pts; reflexivity)) as (vals & E & _ & N).
  eexists _, vals. split; [exact E|]. split; [reflexivity|]. exact (N 1 1 0 ltac:(cbn; lia) ltac:(cbn; lia) ltac:(cbn; lia)).
Qed.

(** With a sigma depth: on every level, the source's value at that level's
    depth, read off the source's depth profile at the same place and time; the
    new depth object is made of the regridded bathymetry and free surface and
    has as many levels. *)
Theorem c84_levels : forall g loc p name locate ts at_ f bathy zeta nb nz more vt profile col level_at h,
  Target g loc p -> Answers locate -> (forall t, In t (instants ts) -> Reads at_ (Some t) (f t)) ->
  regrid g "node" bathy = Ok nb -> regrid g "node" zeta = Ok nz ->
  (forall t, In t (instants ts) -> profile t = Ok (col t)) -> ReadsLevel level_at h ->
  exists vals,
    regrid g loc (OVar name (SS locate) (Some ts) at_ (OSigma true bathy (Some zeta) more vt profile level_at)) =
      Ok (NVar (append "regridded " name) (Some ts) (Plain [length (instants ts); S more; p_r p; p_c p] vals)
            (NSigma nb nz (S more) 2)) /\
    length vals = length (instants ts) * (S more * (p_r p * p_c p)) /\
    forall i l j k, i < length (instants ts) -> l < S more -> j < p_r p -> k < p_c p ->
      let t := nth i (instants ts) 0%Z in
      nth (i * (S more * (p_r p * p_c p)) + (l * (p_r p * p_c p) + (j * p_c p + k))) vals 0%Q =
      fst (f t (point p j k, fst (h (col t l) (point p j k)))).
Proof.
  intros g loc p name locate ts at_ f bathy zeta nb nz more vt profile col level_at h T A R Eb Ez P G.
  set (v := OVar name (SS locate) (Some ts) at_ (OSigma true bathy (Some zeta) more vt profile level_at)).
  pose proof (target_full _ _ _ T) as W. pose proof (proj1 W) as Lp.
  set (H := fun (t : Z) (l : nat) => map (fun q : pt2 => fst (f t (q, fst (h (col t l) q)))) (p_pts p)).
  set (F := fun t : Z => flat_map (H t) (seq 0 (S more))).
  assert (LH : forall t l, length (H t l) = p_r p * p_c p) by (intros; unfold H; now rewrite map_length).
  assert (LF : forall t, length (F t) = S more * (p_r p * p_c p)).
  { intros t. unfold F. rewrite flat_length with (m := p_r p * p_c p) by auto. now rewrite seq_length. }
  assert (E : times v (p_r p, p_c p) (p_r p, p_c p) (surface (p_pts p)) (instants ts) = Ok (flat_map F (instants ts))).
  { apply times_flat with (P := fun pts => exists z, pts = at_z (p_pts p) z).
    - intros t pts Ht (z & ->). unfold at_time. cbn [o_depth v]. rewrite (P t Ht). cbn [bind].
      destruct (levels_reads v (p_r p, p_c p) (p_pts p) Lp h level_at G (f t) t (col t) (S more) (R t Ht) 0 z) as (z' & X).
      rewrite X. eexists. split; [reflexivity|]. now exists z'.
    - now exists (fun _ => 0%Q). }
  exists (flat_map F (instants ts)). repeat split.
  - unfold v. cbn [regrid]. fold v. rewrite (target_pts _ _ _ T). cbn [bind].
    rewrite overlap_answers by (auto using full_some). cbn [bind regrid_depth].
    rewrite Eb, Ez. cbn [bind].
    rewrite (target_shape _ _ _ T). cbn [bind depth_len]. rewrite (target_nodes _ _ _ T), E. reflexivity.
  - now apply flat_length.
  - intros i l j k Hi Hl Hj Hk t. assert (Hq : j * p_c p + k < p_r p * p_c p) by nia.
    rewrite flat_nth with (da := 0%Z) (m := S more * (p_r p * p_c p)); auto; [|nia].
    fold t. unfold F. rewrite flat_nth with (da := 0) (m := p_r p * p_c p); auto; [|now rewrite seq_length].
    rewrite seq_nth by auto. cbn [Nat.add].
    unfold H. rewrite (nth_indep _ 0%Q (fst (f t ((0, 0)%Q, fst (h (col t l) (0, 0)%Q))))) by (rewrite map_length; lia).
    rewrite (map_nth (fun q : pt2 => fst (f t (q, fst (h (col t l) q))))). reflexivity.
Qed.
Print Assumptions c84_levels.
Definition demo_bathy : ovar := OVar "h" (SS demo_in) None demo_at ONone.
Definition demo_zeta : ovar := OVar "zeta" (SS demo_in) (Some (3%Z, [4%Z])) demo_at ONone.
Definition demo_level_at (col : list cell) (pts : list pt3) : result (list cell) :=
  Ok (map (fun p => (fst (nth 0 col (0, false)%Q) + fst (fst p), false)%Q) pts).
Definition demo_deep : ovar := OVar "temp" (SS demo_in) (Some (3%Z, [4%Z])) demo_at
  (OSigma true demo_bathy (Some demo_zeta) 2 1 (fun _ => Ok (fun l => [(inject_Z (Z.of_nat l), false)])) demo_level_at).
Example c84_levels_demo : exists w vals, regrid (DS demo_nodes None) "node" demo_deep = Ok w /\ n_data w = Plain [2; 3; 2; 2] vals /\
  nth 22 vals 0%Q = (0 + 10 * 1 + 100 * (inject_Z 2 + 0) + 1000 * 4)%Q.
Proof.
  destruct (c84_levels (DS demo_nodes None) "node" demo_nodes "temp" demo_in (3%Z, [4%Z]) demo_at demo_f
    demo_bathy demo_zeta _ _ 2 1 (fun _ => Ok (fun l => [(inject_Z (Z.of_nat l), false)])) (fun _ l => [(inject_Z (Z.of_nat l), false)])
    demo_level_at (fun col p => (fst (nth 0 col (0, false)%Q) + fst p, false)%Q)
    (T_node _ _ demo_full) demo_in_answers ltac:(intros t _ pts; reflexivity) eq_refl eq_refl ltac:(intros; reflexivity) ltac:(intros c pts; reflexivity))
    as (vals & E & _ & N).
  eexists _, vals. split; [exact E|]. split; [reflexivity|]. exact (N 1 2 1 0 ltac:(cbn; lia) ltac:(cbn; lia) ltac:(cbn; lia) ltac:(cbn; lia)).
Qed.

(** Without time and depth: the source's values, with their masks. *)
Theorem c84_still : forall g loc p name locate at_ f,
  Target g loc p -> Answers locate -> Reads at_ None f ->
  exists cells,
    regrid g loc (OVar name (SS locate) None at_ ONone) =
      Ok (NVar (append "regridded " name) None (Masked [p_r p; p_c p] cells) NNone) /\
    length cells = p_r p * p_c p /\
    forall j k d, j < p_r p -> k < p_c p -> nth (j * p_c p + k) cells d = f (point p j k, 0%Q).
Proof.
  intros g loc p name locate at_ f T A R. pose proof (target_full _ _ _ T) as W.
  exists (map f (surface (p_pts p))). assert (L : length (map f (surface (p_pts p))) = p_r p * p_c p).
  { unfold surface. rewrite !map_length. apply W. }
  repeat split; auto.
  - cbn [regrid]. rewrite (target_pts _ _ _ T). cbn [bind]. rewrite overlap_answers by (auto using full_some). cbn [bind regrid_depth].
    rewrite (target_shape _ _ _ T). cbn [bind depth_len]. rewrite (target_nodes _ _ _ T), R. cbn [bind fst snd].
    unfold reshape. rewrite L, Nat.eqb_refl. reflexivity.
  - intros j k d Hj Hk. pose proof (point_in p j k W Hj Hk) as Hq. unfold surface. rewrite map_map.
    set (F := fun q : pt2 => f (fst q, snd q, 0%Q)). rewrite (nth_indep _ d (F (0, 0)%Q)) by now rewrite map_length.
    change (fun x : Q * Q => f (fst x, snd x, 0%Q)) with F. rewrite (map_nth F). unfold F, point.
    generalize (nth (j * p_c p + k) (p_pts p) (0, 0)%Q). now intros [a b].
Qed.
Print Assumptions c84_still.
Example c84_still_demo : exists w, regrid (DS demo_nodes None) "node" demo_bathy = Ok w /\ n_shape (n_data w) = [2; 2] /\
  n_masked (n_data w) = [false; true; false; true].
Proof. eexists. repeat split. Qed.

(** A depth without time is lost from the data, though not from the variable:
    only the surface is read. *)
Theorem c84_still_depth_refuted : forall g loc p name locate at_ f bathy zeta nb nz more vt profile level_at,
  Target g loc p -> Answers locate -> Reads at_ None f -> regrid g "node" bathy = Ok nb -> regrid g "node" zeta = Ok nz ->
  exists w, regrid g loc (OVar name (SS locate) None at_ (OSigma true bathy (Some zeta) more vt profile level_at)) = Ok w /\
    n_depth w = NSigma nb nz (S more) 2 /\ n_data w = Masked [p_r p; p_c p] (map f (surface (p_pts p))).
Proof.
  intros g loc p name locate at_ f bathy zeta nb nz more vt profile level_at T A R Eb Ez. pose proof (target_full _ _ _ T) as W.
  assert (L : length (map f (surface (p_pts p))) = p_r p * p_c p) by (unfold surface; rewrite !map_length; apply W).
  eexists. split.
  - cbn [regrid]. rewrite (target_pts _ _ _ T). cbn [bind]. rewrite overlap_answers by (auto using full_some). cbn [bind regrid_depth].
    rewrite Eb, Ez. cbn [bind]. rewrite (target_shape _ _ _ T). cbn [bind depth_len]. rewrite (target_nodes _ _ _ T), R. cbn [bind fst snd].
    unfold reshape. rewrite L, Nat.eqb_refl. reflexivity.
  - split; reflexivity.
Qed.
Print Assumptions c84_still_depth_refuted.
Example c84_still_depth_demo : exists w nb nz, regrid (DS demo_nodes None) "node"
  (OVar "temp" (SS demo_in) None demo_at (OSigma true demo_bathy (Some demo_bathy) 2 1 (fun _ => Err ValueError) demo_level_at)) = Ok w /\
  n_depth w = NSigma nb nz 3 2 /\ n_shape (n_data w) = [2; 2].
Proof. eexists _, _, _. repeat split. Qed.
(** What a regridding that succeeds was given. *)
Theorem c84_only : forall g loc v w, regrid g loc v = Ok w ->
  (exists n c, g = DS n c /\ (loc = "node" \/ loc = "center" /\ c <> None)) /\
  (exists locate, o_grid v = SS locate) /\
  (o_depth v = ONone /\ n_depth w = NNone \/
   exists b z more vt pr la nb nz, o_depth v = OSigma true b (Some z) more vt pr la /\
     regrid g "node" b = Ok nb /\ regrid g "node" z = Ok nz /\ n_depth w = NSigma nb nz (S more) 2) /\
  n_name w = append "regridded " (o_name v) /\ n_time w = o_time v.
Proof.
  intros g loc [name grid time at_ depth] w H. cbn [regrid o_grid o_depth o_name o_time] in *.
  apply bind_ok in H as (pts & E1 & H). apply bind_ok in H as (u & E2 & H). apply bind_ok in H as (nd & E3 & H).
  apply bind_ok in H as (sh & E4 & H). apply bind_ok in H as (dl & E5 & H). apply bind_ok in H as (data & E6 & H).
  injection H as <-. cbn [n_depth n_name n_time]. repeat split; auto.
  - destruct g as [n c|a b c|a]; try discriminate. exists n, c. split; auto. cbn [xy_shape] in E4.
    destruct (String.eqb_spec loc "node"); auto. destruct (String.eqb_spec loc "center"); [|discriminate]. right. split; auto. destruct c; congruence.
  - destruct grid; try discriminate. eauto.
  - destruct depth as [| | |roms b z more vt pr la]; cbn [regrid_depth] in E3; try discriminate.
    + left. injection E3 as <-. auto.
    + injection E3 as <-. discriminate.
    + right. apply bind_ok in E3 as (nb & Eb & E3). apply bind_ok in E3 as (nz & Ez & E3). destruct z as [z|]; [|discriminate].
      destruct roms; [|discriminate]. injection E3 as <-. exists b, z, more, vt, pr, la, nb, nz. auto.
Qed.
Print Assumptions c84_only.

(** Nothing is ever masked once there is a time: the values written where the
    source has none are whatever numbers lie below its mask. *)
Theorem c84_masks_lost_refuted :
  (forall g loc v w, regrid g loc v = Ok w -> o_time v <> None -> Forall (fun m => m = false) (n_masked (n_data w))) /\
  exists w, regrid (DS demo_nodes None) "node" demo_var = Ok w /\
    (forall t, In t [3%Z; 4%Z] -> snd (demo_f t (point demo_nodes 0 1, 0%Q)) = true) /\ n_masked (n_data w) = repeat false 8.
Proof.
  split.
  - intros g loc [name grid time at_ depth] w H N. cbn [regrid o_time] in *.
    apply bind_ok in H as (pts & _ & H). apply bind_ok in H as (u & _ & H). apply bind_ok in H as (nd & _ & H).
    apply bind_ok in H as (sh & _ & H). apply bind_ok in H as (dl & _ & H). apply bind_ok in H as (data & E6 & H).
    injection H as <-. cbn [n_data]. destruct time as [ts|]; [|congruence]. apply bind_ok in E6 as (vals & _ & E6). injection E6 as <-.
    cbn [n_masked]. apply Forall_forall. intros m Hm. apply in_map_iff in Hm as (x & <- & _). reflexivity.
  - eexists. split; [reflexivity|]. split; [|reflexivity]. intros t [<-|[<-|[]]]; reflexivity.
Qed.
Print Assumptions c84_masks_lost_refuted.

(** A destination without any point in the source grid is not noticed, whatever
    the points. *)
Theorem c84_no_overlap_refuted :
  (forall locate pts, Answers locate -> pts <> [] -> Outside locate pts -> overlap (SS locate) pts = Ok tt) /\
  exists locate w, Answers locate /\ Outside locate (p_pts demo_nodes) /\
    regrid (DS demo_nodes None) "node" (OVar "temp" (SS locate) (Some (3%Z, [])) demo_at ONone) = Ok w.
Proof.
  split; [intros; now apply overlap_answers|].
  exists (fun pts => flat_map (fun _ => [(-1)%Z; (-1)%Z]) pts). eexists. split; [|split].
  - intros pts. rewrite flat_length with (m := 2); auto. apply Nat.mul_comm.
  - cbn. repeat constructor.
  - reflexivity.
Qed.
Print Assumptions c84_no_overlap_refuted.

(** Values read at the centers end up as node values: the location of the
    result is inferred from its shape. *)
Theorem c84_center_as_node_refuted : forall g loc v w n c, regrid g loc v = Ok w -> g = DS n c -> o_time v = None \/ (exists p, Target g loc p) ->
  n_location g w = Some "node".
Proof.
  intros g loc [name grid time at_ depth] w n c H Eg Ho. cbn [regrid o_time] in *. subst g.
  apply bind_ok in H as (pts & _ & H). apply bind_ok in H as (u & _ & H). apply bind_ok in H as (nd & _ & H).
  apply bind_ok in H as (sh & Es & H). apply bind_ok in H as (dl & _ & H). apply bind_ok in H as (data & E6 & H).
  assert (S : exists pre, n_shape data = pre ++ [p_r n; p_c n]).
  { destruct time as [ts|].
    - destruct Ho as [|(p & T)]; [discriminate|]. rewrite (target_shape _ _ _ T) in Es. injection Es as <-.
      pose proof (target_nodes _ _ _ T) as X. cbn in X. injection X as X1 X2.
      apply bind_ok in E6 as (vals & _ & E6). injection E6 as <-. cbn [n_shape fst snd]. rewrite X1, X2.
      exists ([length (instants ts)] ++ match dl with Some k => [k] | None => [] end). now rewrite <- app_assoc.
    - apply bind_ok in E6 as (l & _ & E6). apply bind_ok in E6 as (m & _ & E6). injection E6 as <-. now exists []. }
  injection H as <-. cbn [n_data n_location]. destruct S as (pre & ->). rewrite rev_app_distr. cbn [rev app n_location].
  rewrite !Z.sub_diag. reflexivity.
Qed.
Print Assumptions c84_center_as_node_refuted.
Example c84_center_demo : exists w, regrid (DS demo_nodes (Some (mkP 2 2 [(5, 5); (6, 5); (5, 6); (6, 6)]%Q))) "center" demo_var = Ok w /\
  n_values (n_data w) = map (fun tp => fst (demo_f (fst tp) (snd tp, 0%Q))) (list_prod [3%Z; 4%Z] [(5, 5); (6, 5); (5, 6); (6, 6)]%Q) /\
  n_location (DS demo_nodes (Some (mkP 2 2 [(5, 5); (6, 5); (5, 6); (6, 6)]%Q))) w = Some "node".
Proof. eexists. repeat split. Qed.

(** Centers arranged otherwise than the nodes are rejected, whatever the source
    has there (with a time, or if they are not as many). *)
Theorem c84_centers_refuted : forall n c name locate time at_ f, Full c -> Answers locate -> (forall t, Reads at_ t (f t)) ->
  (p_r c, p_c c) <> (p_r n, p_c n) -> time <> None \/ p_r c * p_c c <> p_r n * p_c n ->
  regrid (DS n (Some c)) "center" (OVar name (SS locate) time at_ ONone) = Err ValueError.
Proof.
  intros n c name locate time at_ f W A R D Ht. assert (L : length (surface (p_pts c)) = p_r c * p_c c).
  { unfold surface. rewrite map_length. apply W. }
  cbn [regrid]. change (dest_points (DS n (Some c)) "center") with (@Ok (list pt2) (p_pts c)). cbn [bind].
  rewrite overlap_answers by (auto using full_some). cbn [bind regrid_depth].
  change (xy_shape (DS n (Some c)) "center") with (Ok (p_r c, p_c c)). cbn [bind depth_len node_shape].
  destruct time as [ts|].
  - unfold instants. cbn [times]. unfold at_time. cbn [o_depth]. unfold put. cbn [o_at]. rewrite R. cbn [bind fst snd].
    unfold reshape. rewrite map_length, L. destruct (Nat.eqb_spec (p_r c * p_c c) (p_r n * p_c n)); [|reflexivity]. cbn [bind].
    unfold assign. cbn [fst snd]. destruct (Nat.eqb_spec (p_r c) (p_r n)) as [e1|]; [|reflexivity].
    destruct (Nat.eqb_spec (p_c c) (p_c n)) as [e2|]; [|reflexivity]. congruence.
  - destruct Ht as [|Hn]; [congruence|]. rewrite R. cbn [bind fst snd]. unfold reshape. rewrite map_length, L.
    destruct (Nat.eqb_spec (p_r c * p_c c) (p_r n * p_c n)); [congruence|]. reflexivity.
Qed.
Print Assumptions c84_centers_refuted.
Example c84_centers_demo : regrid (DS demo_nodes (Some (mkP 1 1 [(5, 5)]%Q))) "center" demo_var = Err ValueError.
Proof. apply (c84_centers_refuted demo_nodes (mkP 1 1 [(5, 5)]%Q) "temp" demo_in _ demo_at (fun t => demo_f (match t with Some t => t | None => 0%Z end)));
  [split; cbn; auto|exact demo_in_answers|intros t pts; reflexivity|discriminate|left; discriminate]. Qed.

(** The other refusals: edges and unknown places; unstructured and rectangular
    sources; unstructured and rectangular destinations; faces so called; level
    depths; depths of another kind or without Cs_w; no free surface. *)
Theorem c84_refused :
  (forall g loc v, ~ In loc ["node"; "face"; "center"] -> regrid g loc v = Err AttributeError) /\
  (forall g loc v pts, dest_points g loc = Ok pts -> o_grid v = SU -> regrid g loc v = Err ValueError) /\
  (forall g loc v pts, dest_points g loc = Ok pts -> o_grid v = SR -> regrid g loc v = Err TypeError) /\
  (forall n c v locate, Full c -> o_grid v = SS locate -> Answers locate -> o_depth v = ONone -> regrid (DS n (Some c)) "face" v = Err ValueError) /\
  (forall nodes faces b v locate, nodes <> [] -> o_grid v = SS locate -> Answers locate -> o_depth v = ONone ->
     regrid (DU nodes faces b) "node" v = Err AttributeError /\ regrid (DR nodes) "node" v = Err AttributeError) /\
  (forall g loc p v locate, Target g loc p -> o_grid v = SS locate -> Answers locate -> o_depth v = OLevels -> regrid g loc v = Err TypeError) /\
  (forall g loc p v locate, Target g loc p -> o_grid v = SS locate -> Answers locate -> o_depth v = OOther -> regrid g loc v = Err NotImplementedError) /\
  (forall g loc p v locate b nb z nz m vt pr la, Target g loc p -> o_grid v = SS locate -> Answers locate -> o_depth v = OSigma false b (Some z) m vt pr la ->
     regrid g "node" b = Ok nb -> regrid g "node" z = Ok nz -> regrid g loc v = Err AttributeError) /\
  (forall g loc p v locate roms b nb m vt pr la, Target g loc p -> o_grid v = SS locate -> Answers locate -> o_depth v = OSigma roms b None m vt pr la ->
     regrid g "node" b = Ok nb -> regrid g loc v = Err AttributeError) /\
  (forall nodes faces loc v, loc = "face" \/ loc = "center" ->
     regrid (DU nodes faces true) loc v = Err AttributeError /\ regrid (DR nodes) loc v = Err AttributeError) /\
  (forall nodes faces v locate, faces <> [] -> o_grid v = SS locate -> Answers locate -> o_depth v = ONone -> regrid (DU nodes faces false) "face" v = Err AttributeError) /\
  (forall n v locate, o_grid v = SS locate -> Answers locate -> o_depth v = ONone -> regrid (DS n None) "center" v = Err AttributeError).
Proof.
  repeat apply conj.
  - intros g loc [name grid time at_ depth] N. cbn [regrid]. unfold dest_points. destruct (String.eqb_spec loc "node"); [subst; exfalso; apply N; cbn; auto|].
    destruct (String.eqb_spec loc "face"); [subst; exfalso; apply N; cbn; auto|].
    destruct (String.eqb_spec loc "center"); [subst; exfalso; apply N; cbn; auto|]. reflexivity.
  - intros g loc [name grid time at_ depth] pts E G. cbn [o_grid] in G. subst. cbn [regrid]. now rewrite E.
  - intros g loc [name grid time at_ depth] pts E G. cbn [o_grid] in G. subst. cbn [regrid]. now rewrite E.
  - intros n c [name grid time at_ depth] locate W G A D. cbn [o_grid o_depth] in *. subst. cbn [regrid]. change (dest_points (DS n (Some c)) "face") with (@Ok (list pt2) (p_pts c)). cbn [bind].
    rewrite overlap_answers by (auto using full_some). reflexivity.
  - intros nodes faces b [name grid time at_ depth] locate N G A D. cbn [o_grid o_depth] in *. subst.
    split; cbn [regrid]; [change (dest_points (DU nodes faces b) "node") with (Ok nodes)|change (dest_points (DR nodes) "node") with (Ok nodes)]; cbn [bind];
      rewrite overlap_answers by auto; reflexivity.
  - intros g loc p [name grid time at_ depth] locate T G A D. cbn [o_grid o_depth] in *. subst. cbn [regrid]. rewrite (target_pts _ _ _ T). cbn [bind].
    rewrite overlap_answers by eauto using full_some, target_full. cbn [bind regrid_depth]. rewrite (target_shape _ _ _ T). reflexivity.
  - intros g loc p [name grid time at_ depth] locate T G A D. cbn [o_grid o_depth] in *. subst. cbn [regrid]. rewrite (target_pts _ _ _ T). cbn [bind].
    rewrite overlap_answers by eauto using full_some, target_full. reflexivity.
  - intros g loc p [name grid time at_ depth] locate b nb z nz m vt pr la T G A D Eb Ez. cbn [o_grid o_depth] in *. subst. cbn [regrid]. rewrite (target_pts _ _ _ T). cbn [bind].
    rewrite overlap_answers by eauto using full_some, target_full. cbn [bind regrid_depth]. rewrite Eb, Ez. reflexivity.
  - intros g loc p [name grid time at_ depth] locate roms b nb m vt pr la T G A D Eb. cbn [o_grid o_depth] in *. subst. cbn [regrid]. rewrite (target_pts _ _ _ T). cbn [bind].
    rewrite overlap_answers by eauto using full_some, target_full. cbn [bind regrid_depth]. rewrite Eb. reflexivity.
  - intros nodes faces loc [name grid time at_ depth] [-> | ->]; split; reflexivity.
  - intros nodes faces [name grid time at_ depth] locate N G A D. cbn [o_grid o_depth] in *. subst. cbn [regrid].
    change (dest_points (DU nodes faces false) "face") with (Ok faces). cbn [bind]. rewrite overlap_answers by auto. reflexivity.
  - intros n [name grid time at_ depth] locate G A D. cbn [o_grid o_depth] in *. subst. cbn [regrid].
    change (dest_points (DS n None) "center") with (Ok [(0, 0)%Q]). cbn [bind]. rewrite overlap_answers by (auto; discriminate). reflexivity.
Qed.
Print Assumptions c84_refused.
Example c84_refused_demo : regrid (DS demo_nodes None) "edge1" demo_var = Err AttributeError /\
  regrid (DS demo_nodes None) "node" (OVar "temp" SU None demo_at ONone) = Err ValueError.
Proof. split; [apply (proj1 c84_refused); cbn; intuition discriminate|]. now apply (proj1 (proj2 c84_refused)) with (pts := p_pts demo_nodes). Qed.

(** The old stretching is lost: whatever the transform of the source's depth,
    the new one uses the second. *)
Theorem c84_transform_refuted : forall g loc v w roms b z m vt pr la, regrid g loc v = Ok w -> o_depth v = OSigma roms b z m vt pr la -> vt <> 2 ->
  exists nb nz vt', n_depth w = NSigma nb nz (S m) vt' /\ vt' <> vt.
Proof.
  intros g loc v w roms b z m vt pr la H D N. destruct (c84_only _ _ _ _ H) as (_ & _ & [(X & _)|(b' & z' & m' & vt' & pr' & la' & nb & nz & X & _ & _ & Y)] & _); [congruence|].
  rewrite D in X. injection X as -> -> -> -> -> -> ->. exists nb, nz, 2. split; auto.
Qed.
Print Assumptions c84_transform_refuted.
Example c84_transform_demo : exists w nb nz, regrid (DS demo_nodes None) "node" demo_deep = Ok w /\ n_depth w = NSigma nb nz 3 2.
Proof. eexists _, _, _. split; [vm_compute; reflexivity|reflexivity]. Qed.

(** A variable is never returned unchanged, nor a vector variable (two numbers
    per point) accepted. *)
Theorem c84_same_refuted :
  (forall g loc v w, regrid g loc v = Ok w -> n_name w <> o_name v) /\
  (forall g loc p name locate time at_, Target g loc p -> Answers locate ->
     (forall pts t, exists l, at_ pts t = Ok l /\ length l = 2 * length pts) ->
     regrid g loc (OVar name (SS locate) time at_ ONone) = Err ValueError).
Proof.
  split.
  - intros g loc v w H E. destruct (c84_only _ _ _ _ H) as (_ & _ & _ & X & _). rewrite X in E.
    apply (f_equal String.length) in E. assert (Y : forall a b, String.length (append a b) = String.length a + String.length b).
    { induction a; intros; cbn; auto. } rewrite Y in E. cbn in E. lia.
  - intros g loc p name locate time at_ T A V. pose proof (target_full _ _ _ T) as W.
    assert (X : forall t, exists l, at_ (surface (p_pts p)) t = Ok l /\ reshape (p_r p) (p_c p) l = Err ValueError).
    { intros t. destruct (V (surface (p_pts p)) t) as (l & E & L). exists l. split; auto. unfold reshape. destruct (Nat.eqb_spec (length l) (p_r p * p_c p)) as [e|]; auto.
      assert (Ls : length (surface (p_pts p)) = p_r p * p_c p) by (unfold surface; rewrite map_length; apply W).
      rewrite Ls in L. destruct W as [_ W2]. lia. }
    cbn [regrid]. rewrite (target_pts _ _ _ T). cbn [bind]. rewrite overlap_answers by (auto using full_some). cbn [bind regrid_depth].
    rewrite (target_shape _ _ _ T). cbn [bind depth_len]. rewrite (target_nodes _ _ _ T). destruct time as [ts|].
    + unfold instants. cbn [times]. unfold at_time. cbn [o_depth]. unfold put. cbn [o_at fst snd]. destruct (X (Some (fst ts))) as (l & E & F).
      rewrite E. cbn [bind]. rewrite F. reflexivity.
    + cbn [fst snd]. destruct (X None) as (l & E & F). rewrite E. cbn [bind]. rewrite F. reflexivity.
Qed.
Print Assumptions c84_same_refuted.
Example c84_same_demo : exists w, regrid (DS demo_nodes None) "node" demo_var = Ok w /\ n_name w = "regridded temp".
Proof. eexists. split; reflexivity. Qed.
