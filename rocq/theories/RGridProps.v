(** Properties C32-C34 and C65: the rectangular grid. *)
From Coq Require Import String Lqa.
From Verif Require Import Common CommonProofs VariableModel DepthModel DepthSpec DepthProofs
  UGridGeomModel RGridModel RGridSpec RGridProofs.
Open Scope Q_scope.

(** C32 *)
Theorem c32_cell_or_minus_one :
  forall g pts, Monotone (rg_lon g) -> Monotone (rg_lat g) ->
  (2 <= length (rg_lon g))%nat -> (2 <= length (rg_lat g))%nat ->
  exists l, rg_locate g pts = Ok l /\ length l = length pts /\
  forall k p, nth_error pts k = Some p -> exists i j, nth_error l k = Some (i, j) /\
    match p with
    | (Some x, Some y) =>
        (exists a b, i = Z.of_nat a /\ j = Z.of_nat b /\ InCell (rg_lon g) x a /\ InCell (rg_lat g) y b) \/
        (i = (-1)%Z /\ j = (-1)%Z /\ ~ (OnAxis (rg_lon g) x /\ OnAxis (rg_lat g) y))
    | _ => i = (-1)%Z /\ j = (-1)%Z
    end.
Proof.
  intros g pts H1 H2 N1 N2. unfold rg_locate. rewrite !axis_index_nan by auto. cbn [bind].
  destruct (mapM_rows (locate_one g) (fun p ij => match p with
    | (Some x, Some y) =>
        (exists a b, fst ij = Z.of_nat a /\ snd ij = Z.of_nat b /\ InCell (rg_lon g) x a /\ InCell (rg_lat g) y b) \/
        (fst ij = (-1)%Z /\ snd ij = (-1)%Z /\ ~ (OnAxis (rg_lon g) x /\ OnAxis (rg_lat g) y))
    | _ => fst ij = (-1)%Z /\ snd ij = (-1)%Z end)) with (l := pts) as (l & E & L & K).
  - intros [[x|] [y|]].
    + destruct (locate_spec g x y H1 H2 N1 N2) as (i & j & E & H). exists (i, j). auto.
    + rewrite locate_nan by auto. eexists. split; auto.
    + rewrite locate_nan by auto. eexists. split; auto.
    + rewrite locate_nan by auto. eexists. split; auto.
  - exists l. split; auto. split; auto. intros k p Hp. destruct (K k p Hp) as ([i j] & Hij & H). exists i, j. split; auto.
Qed.
Print Assumptions c32_cell_or_minus_one.
Theorem c32_the_cell_is_unique :
  forall axis p i j, InCell axis p i -> InCell axis p j -> i = j.
Proof. exact incell_unique. Qed.
Print Assumptions c32_the_cell_is_unique.
Theorem c32_unsorted_axis_rejected :
  forall g pts, (nondecreasingb (rg_lon g) = false /\ nonincreasingb (rg_lon g) = false) \/
    (Monotone (rg_lon g) /\ nondecreasingb (rg_lat g) = false /\ nonincreasingb (rg_lat g) = false) ->
  rg_locate g pts = Err ValueError.
Proof.
  intros g pts [[H1 H2]|(HM & H1 & H2)]; unfold rg_locate.
  - rewrite axis_index_bad by auto. reflexivity.
  - rewrite axis_index_nan by auto. cbn [bind]. rewrite axis_index_bad by auto. reflexivity.
Qed.
Print Assumptions c32_unsorted_axis_rejected.
Example c32_example :
  let g := rg_new [0; 1; 2] [10; 20; 40] None in
  Monotone (rg_lon g) /\ Monotone (rg_lat g) /\
  rg_locate g [(Some (1 # 2), Some 20); (Some 1, Some 39); (Some 2, Some 15); (Some (-1), Some 15); (None, Some 15)]
  = Ok [(0, 1); (1, 1); (-1, -1); (-1, -1); (-1, -1)]%Z.
Proof.
  cbv zeta. split; [left; apply strict_asc; reflexivity|]. split; [left; apply strict_asc; reflexivity|].
  vm_compute. reflexivity.
Qed.
Example c32_example_descending :
  rg_locate (rg_new [0; 1; 2] [40; 20; 10] None) [(Some 0, Some 20); (Some 0, Some 40); (Some 0, Some 10)]
  = Ok [(0, 0); (-1, -1); (0, 1)]%Z.
Proof. vm_compute. reflexivity. Qed.

(** C33.  [pre]: the leading dimensions. *)
Theorem c33_declared_order :
  forall g pre names n1 n2, let la := fst (rg_dims g) in let lo := snd (rg_dims g) in
  la <> lo -> (n1 = length (rg_lat g) \/ n1 = length (rg_lon g)) -> (n2 = length (rg_lat g) \/ n2 = length (rg_lon g)) ->
  lonlat_to_yx g (Some (names ++ [la; lo])) (pre ++ [n1; n2]) = Ok false /\
  lonlat_to_yx g (Some (names ++ [lo; la])) (pre ++ [n1; n2]) = Ok true.
Proof.
  intros g pre names n1 n2 la lo Hne H1 H2. unfold lonlat_to_yx. rewrite !last2_two. cbn [forallb existsb].
  assert (Ea : memb la (rg_dims g) = true) by (unfold memb; fold la; rewrite String.eqb_refl; reflexivity).
  assert (Eo : memb lo (rg_dims g) = true) by (unfold memb; fold lo; rewrite String.eqb_refl; apply orb_true_r).
  rewrite Ea, Eo. cbn [andb negb].
  assert (E1 : (n1 =? length (rg_lat g))%nat || ((n1 =? length (rg_lon g))%nat || false) = true).
  { destruct H1 as [-> | ->]; rewrite Nat.eqb_refl; auto. apply orb_true_r. }
  assert (E2 : (n2 =? length (rg_lat g))%nat || ((n2 =? length (rg_lon g))%nat || false) = true).
  { destruct H2 as [-> | ->]; rewrite Nat.eqb_refl; auto. apply orb_true_r. }
  rewrite E1, E2. cbn. fold lo. rewrite String.eqb_refl.
  destruct (String.eqb_spec la lo); [congruence|auto].
Qed.
Print Assumptions c33_declared_order.
Theorem c33_order_by_length :
  forall g pre, length (rg_lat g) <> length (rg_lon g) ->
  lonlat_to_yx g None (pre ++ [length (rg_lat g); length (rg_lon g)]) = Ok false /\
  lonlat_to_yx g None (pre ++ [length (rg_lon g); length (rg_lat g)]) = Ok true.
Proof.
  intros g pre Hne. unfold lonlat_to_yx. rewrite !last2_two. cbn [forallb existsb]. rewrite !Nat.eqb_refl, !orb_true_r.
  apply Nat.eqb_neq in Hne. pose proof Hne as Hne'. rewrite Nat.eqb_sym in Hne'.
  rewrite !py2_0, !py2_1. cbn [bind andb negb]. rewrite Hne, Hne', Nat.eqb_refl. auto.
Qed.
Print Assumptions c33_order_by_length.
(** Accepted without names: exactly the two shapes above. *)
Theorem c33_unnamed_accepted_iff :
  forall g shape sw, lonlat_to_yx g None shape = Ok sw <->
  length (rg_lat g) <> length (rg_lon g) /\ exists pre,
    shape = pre ++ (if sw then [length (rg_lon g); length (rg_lat g)] else [length (rg_lat g); length (rg_lon g)]).
Proof.
  intros g shape sw. split.
  - unfold lonlat_to_yx. destruct (last2 shape) as [|a [|b r]] eqn:E.
    + cbn. discriminate.
    + rewrite py1_0, py1_1. destruct (negb _); cbn; discriminate.
    + destruct (last2_some _ _ _ _ E) as [-> [pre ->]]. rewrite py2_0, py2_1. cbn [forallb existsb bind].
      destruct (Nat.eqb_spec a b) as [->|Hab]; [destruct (negb _); discriminate|].
      destruct (Nat.eqb_spec a (length (rg_lat g))) as [Ha|Ha];
      destruct (Nat.eqb_spec b (length (rg_lat g))) as [Hb|Hb];
      destruct (Nat.eqb_spec b (length (rg_lon g))) as [Hb'|Hb'];
      destruct (Nat.eqb_spec a (length (rg_lon g))) as [Ha'|Ha']; cbn [orb andb negb]; try discriminate; try congruence;
      intros H; injection H as <-; (split; [congruence|exists pre; congruence]).
  - intros [Hne [pre ->]]. destruct (c33_order_by_length g pre Hne) as [H1 H2]. destruct sw; auto.
Qed.
Print Assumptions c33_unnamed_accepted_iff.
Theorem c33_square_unnamed_rejected :
  forall g pre n, lonlat_to_yx g None (pre ++ [n; n]) = Err ValueError.
Proof.
  intros g pre n. unfold lonlat_to_yx. rewrite last2_two. rewrite py2_0, py2_1. destruct (negb _); auto. cbn [bind]. rewrite Nat.eqb_refl. reflexivity.
Qed.
Print Assumptions c33_square_unnamed_rejected.
Theorem c33_foreign_name_rejected :
  forall g names a b shape, (a <> fst (rg_dims g) /\ a <> snd (rg_dims g)) \/ (b <> fst (rg_dims g) /\ b <> snd (rg_dims g)) ->
  lonlat_to_yx g (Some (names ++ [a; b])) shape = Err ValueError.
Proof.
  intros g names a b shape H. unfold lonlat_to_yx. rewrite last2_two. cbn [forallb].
  assert (N : forall s, s <> fst (rg_dims g) /\ s <> snd (rg_dims g) -> memb s (rg_dims g) = false).
  { intros s [H1 H2]. unfold memb. apply String.eqb_neq in H1, H2. rewrite H1, H2. auto. }
  destruct H as [H|H]; rewrite (N _ H); cbn; auto. rewrite andb_false_r. auto.
Qed.
Print Assumptions c33_foreign_name_rejected.
Theorem c33_foreign_length_rejected :
  forall g dims pre n1 n2, ~ In n1 [length (rg_lat g); length (rg_lon g)] \/ ~ In n2 [length (rg_lat g); length (rg_lon g)] ->
  lonlat_to_yx g dims (pre ++ [n1; n2]) = Err ValueError.
Proof.
  intros g dims pre n1 n2 H. unfold lonlat_to_yx. rewrite last2_two.
  assert (E : forallb (fun d => existsb (Nat.eqb d) [length (rg_lat g); length (rg_lon g)]) [n1; n2] = false).
  { apply not_true_is_false. intros E. rewrite forallb_forall in E.
    assert (forall n, In n [n1; n2] -> In n [length (rg_lat g); length (rg_lon g)]).
    { intros n Hn. apply E in Hn. apply existsb_exists in Hn. destruct Hn as (m & Hm & Em). apply Nat.eqb_eq in Em. subst. auto. }
    destruct H as [H|H]; apply H; apply H0; cbn; auto. }
  rewrite E. cbn [negb]. destruct dims as [ds|]; auto. destruct (negb _); auto.
Qed.
Print Assumptions c33_foreign_length_rejected.
(** With names, both lengths are only checked to be some axis length, so data
    on a (lat, lat) footprint passes here; the interpolator then rejects it. *)
Theorem c33_named_lengths_refuted :
  exists g shape, lonlat_to_yx g (Some ["lat"; "lon"]%string) shape = Ok false /\
    shape <> [length (rg_lat g); length (rg_lon g)].
Proof. exists (rg_new [0; 1; 2] [0; 1] None), [2; 2]%nat. split; [reflexivity|discriminate]. Qed.
Print Assumptions c33_named_lengths_refuted.
Theorem c33_wrong_footprint_never_interpolated :
  forall g dims shape sl vals pts r, rg_interpolate g dims shape sl vals pts = Ok r ->
  exists sw, lonlat_to_yx g dims shape = Ok sw /\
    length vals = length (fst (yx_axes g sw)) /\ Forall (fun row => length row = length (snd (yx_axes g sw))) vals.
Proof.
  intros g dims shape sl vals pts r H. unfold rg_interpolate in H. apply bind_ok in H. destruct H as (sw & E & H).
  exists sw. split; auto. destruct (yx_axes g sw) as [y x]. apply bind_ok in H. destruct H as (u & H & _).
  unfold rgi_make in H. destruct (negb (rgi_ok y && rgi_ok x)); [discriminate|].
  destruct (negb _) eqn:N in H; [discriminate|]. apply negb_false_iff in N. apply andb_prop in N. destruct N as [N1 N2].
  apply Nat.eqb_eq in N1. rewrite forallb_forall in N2. cbn [fst snd]. split.
  - rewrite <- N1. destruct sl; auto. symmetry. apply map_length.
  - apply Forall_forall. intros row Hr. destruct sl.
    + specialize (N2 (map fill0 row) (in_map _ _ _ Hr)). apply Nat.eqb_eq in N2. rewrite map_length in N2. auto.
    + apply Nat.eqb_eq. auto.
Qed.
Print Assumptions c33_wrong_footprint_never_interpolated.
Example c33_example :
  let g := rg_new [0; 1; 2] [0; 1] (Some ("latitude", "longitude")%string) in
  lonlat_to_yx g (Some ["time"; "longitude"; "latitude"]%string) [7; 3; 2]%nat = Ok true /\
  lonlat_to_yx g None [2; 3]%nat = Ok false /\ lonlat_to_yx g (Some ["lat"; "lon"]%string) [2; 3]%nat = Err ValueError.
Proof. repeat split. Qed.

(** C34 *)
Theorem c34_centers :
  forall g, length (rg_centers g) = (length (rg_lat g) - 1)%nat /\
  Forall (fun r => length r = (length (rg_lon g) - 1)%nat) (rg_centers g) /\
  forall i j x x' y y', nth_error (rg_lon g) i = Some x -> nth_error (rg_lon g) (S i) = Some x' ->
    nth_error (rg_lat g) j = Some y -> nth_error (rg_lat g) (S j) = Some y' ->
  exists r, nth_error (rg_centers g) j = Some r /\ nth_error r i = Some ((x + x') / 2, (y + y') / 2).
Proof.
  intros g. unfold rg_centers, center_lon, center_lat.
  destruct (midpoints_spec (rg_lon g)) as [L1 K1]. destruct (midpoints_spec (rg_lat g)) as [L2 K2].
  destruct (meshgrid_spec (midpoints (rg_lon g)) (midpoints (rg_lat g))) as (M1 & M2 & M3).
  rewrite L1, L2 in *. split; [exact M1|]. split; [exact M2|].
  intros i j x x' y y' H1 H2 H3 H4. apply M3; eauto.
Qed.
Print Assumptions c34_centers.
Theorem c34_nodes :
  forall g, length (rg_nodes g) = length (rg_lat g) /\ Forall (fun r => length r = length (rg_lon g)) (rg_nodes g) /\
  forall i j x y, nth_error (rg_lon g) i = Some x -> nth_error (rg_lat g) j = Some y ->
  exists r, nth_error (rg_nodes g) j = Some r /\ nth_error r i = Some (x, y).
Proof. intros g. exact (meshgrid_spec (rg_lon g) (rg_lat g)). Qed.
Print Assumptions c34_nodes.
Theorem c34_infer_location_partial :
  forall g pre n1 n2, let ny := length (rg_lat g) in let nx := length (rg_lon g) in
  let r := rg_infer g None (pre ++ [n1; n2]) in
  (r = Ok (Some "node"%string) <-> n1 = ny /\ n2 = nx) /\
  (r = Ok (Some "center"%string) <-> (n1 = S ny /\ n2 = S nx) \/ (S n1 = ny /\ S n2 = nx)) /\
  (r = Err AttributeError <-> (n1 = S ny /\ n2 = nx) \/ (n1 = ny /\ n2 = S nx)) /\
  (r = Ok (Some "node"%string) \/ r = Ok (Some "center"%string) \/ r = Err AttributeError \/ r = Ok None).
Proof.
  intros g pre n1 n2 ny nx. cbv zeta. unfold rg_infer. rewrite last2_two. cbn [map bind]. cbv zeta. cbn [fst snd].
  fold ny nx.
  repeat match goal with |- context [(?a =? ?b)%Z] => destruct (Z.eqb_spec a b) end; cbn [andb orb];
    repeat split; intros; try discriminate; try (left; reflexivity); try (right; left; reflexivity);
    try (right; right; left; reflexivity); try (right; right; right; reflexivity); try lia; try reflexivity.
Qed.
Print Assumptions c34_infer_location_partial.
Theorem c34_own_location : forall g l shape, rg_infer g (Some l) shape = Ok l.
Proof. reflexivity. Qed.
Print Assumptions c34_own_location.
(** Edge data is never recognised: the grid has no edge coordinates. *)
Theorem c34_edges_refuted :
  exists g, rg_infer g None [S (length (rg_lat g)); length (rg_lon g)] = Err AttributeError.
Proof. exists (rg_new [0; 1] [0; 1; 2] None). reflexivity. Qed.
Print Assumptions c34_edges_refuted.
(** A single dimension is compared with both axes: on a square grid a plain
    vector counts as node (or center) data. *)
Theorem c34_vector_refuted :
  exists g n, rg_infer g None [n] = Ok (Some "node"%string).
Proof. exists (rg_new [0; 1] [0; 1] None), 2%nat. reflexivity. Qed.
Print Assumptions c34_vector_refuted.
Theorem c34_scalar_rejected : forall g, rg_infer g None [] = Err ValueError.
Proof. reflexivity. Qed.
Print Assumptions c34_scalar_rejected.
Example c34_example :
  let g := rg_new [0; 2; 4] [0; 10] None in
  rg_infer g None [5; 2; 3]%nat = Ok (Some "node"%string) /\ rg_infer g None [1; 2]%nat = Ok (Some "center"%string) /\
  rg_infer g None [3; 4]%nat = Ok (Some "center"%string) /\
  exists a b c d, rg_centers g = [[(a, b); (c, d)]] /\ a == 1 /\ b == 5 /\ c == 3 /\ d == 5.
Proof. cbv zeta. repeat split. do 4 eexists. split; [reflexivity|]. repeat split; reflexivity. Qed.

(** C65.  [y], [x]: the axes of the data's last two dimensions. *)
Theorem c65_interpolation_partial :
  forall g dims shape sl vals sw pts, let y := fst (yx_axes g sw) in let x := snd (yx_axes g sw) in
  lonlat_to_yx g dims shape = Ok sw -> Monotone (rg_lon g) -> Monotone (rg_lat g) ->
  (2 <= length (rg_lon g))%nat -> (2 <= length (rg_lat g))%nat -> Table vals (length y) (length x) ->
  exists r, rg_interpolate g dims shape sl vals pts = Ok r /\ length r = length pts /\
  forall k lon lat, nth_error pts k = Some (lon, lat) -> exists q, nth_error r k = Some (CVal q) /\
    ((Spans (rg_lon g) lon /\ Spans (rg_lat g) lat /\
        BilinearAt y x vals (if sw then lon else lat) (if sw then lat else lon) q) \/
     (~ (Spans (rg_lon g) lon /\ Spans (rg_lat g) lat) /\ q == 0)).
Proof.
  intros g dims shape sl vals sw pts y x Ho M1 M2 N1 N2 HT. unfold rg_interpolate. rewrite Ho. cbn [bind]. cbv zeta.
  assert (Ev : (if sl then map (map fill0) vals else vals) = vals).
  { destruct sl; auto. destruct HT as [_ F]. clear -F. induction F as [|r l [_ Hr] _ IH]; auto. cbn [map]. rewrite IH. f_equal.
    clear -Hr. induction Hr as [|c r [q ->] _ IH]; auto. cbn [map fill0]. rewrite IH. auto. }
  rewrite Ev. destruct sw; cbn [yx_axes fst snd] in *; subst y x; cbv iota beta.
  - rewrite rgi_make_ok by auto. cbn [bind]. eexists. split; [reflexivity|]. split; [apply map_length|].
    intros k lon lat Hp. destruct (rgi_eval_spec (rg_lon g) (rg_lat g) vals lon lat M1 M2 N1 N2 HT) as (q & E & H).
    exists q. split; [|tauto]. rewrite <- E.
    apply (map_nth_error (fun p => rgi_eval (rg_lon g) (rg_lat g) vals p)). auto.
  - rewrite rgi_make_ok by auto. cbn [bind]. eexists. split; [reflexivity|]. split; [apply map_length|].
    intros k lon lat Hp. destruct (rgi_eval_spec (rg_lat g) (rg_lon g) vals lat lon M2 M1 N2 N1 HT) as (q & E & H).
    exists q. split; [|tauto]. rewrite <- E.
    apply (map_nth_error (fun p => rgi_eval (rg_lat g) (rg_lon g) vals (snd p, fst p))) in Hp. exact Hp.
Qed.
Print Assumptions c65_interpolation_partial.
Theorem c65_bilinear_values :
  forall y x vals py px q, BilinearAt y x vals py px q ->
  (forall A B C D, (forall i j a b v, nth_error y i = Some a -> nth_error x j = Some b -> At vals i j v ->
     v == A * a + B * b + C * (a * b) + D) -> q == A * py + B * px + C * (py * px) + D) /\
  (forall lo hi, (forall i j v, At vals i j v -> lo <= v <= hi) -> lo <= q <= hi) /\
  (forall k l w, Monotone y -> Monotone x -> nth_error y k = Some py -> nth_error x l = Some px -> At vals k l w -> q == w).
Proof.
  intros y x vals py px q H. split; [|split]; intros.
  - eapply bilinear_exact; eauto.
  - eapply bilinear_bounds; eauto.
  - eapply bilinear_at_node; [| | | | |exact H]; eauto.
Qed.
Print Assumptions c65_bilinear_values.
(** A masked node enters as the value 0: the result is neither masked nor
    between the valid values. *)
Theorem c65_masked_refuted :
  exists g vals q, rg_interpolate g None [2; 3]%nat true vals [(1 # 2, 0)] = Ok [CVal q] /\
    vals = [[CVal 10; CMasked; CVal 10]; [CVal 10; CVal 10; CVal 10]] /\ q == 5.
Proof.
  exists (rg_new [0; 1; 2] [0; 1] None). do 2 eexists.
  split; [|split; [reflexivity|]]; [vm_compute; reflexivity|reflexivity].
Qed.
Print Assumptions c65_masked_refuted.
(** Data on the cell centers, which infer_location recognises, is rejected. *)
Theorem c65_center_data_refuted :
  exists g shape, rg_infer g None shape = Ok (Some "center"%string) /\
    forall dims sl vals pts, dims = None \/ dims = Some ["lat"; "lon"]%string ->
    rg_interpolate g dims shape sl vals pts = Err ValueError.
Proof.
  exists (rg_new [0; 1; 2] [0; 1; 2; 3; 4] None), [4; 2]%nat. split; [reflexivity|].
  intros dims sl vals pts [-> | ->]; reflexivity.
Qed.
Print Assumptions c65_center_data_refuted.
Example c65_example :
  let g := rg_new [0; 1; 2] [10; 0] None in
  let f := [[CVal 10; CVal 11; CVal 12]; [CVal 0; CVal 1; CVal 2]] in
  Table f 2 3 /\ exists a b, rg_interpolate g None [2; 3]%nat true f [(3 # 2, 4); (5, 5)] = Ok [CVal a; CVal b] /\
  a == 11 # 2 /\ b == 0.
Proof.
  cbv zeta. split.
  - split; auto. repeat constructor; eauto.
  - do 2 eexists. split; [vm_compute; reflexivity|]. split; reflexivity.
Qed.
Example c65_example_transposed :
  exists a, rg_interpolate (rg_new [0; 1; 2] [10; 0] None) (Some ["lon"; "lat"]%string) [3; 2]%nat true
    [[CVal 10; CVal 0]; [CVal 11; CVal 1]; [CVal 12; CVal 2]] [(3 # 2, 4)] = Ok [CVal a] /\ a == 11 # 2.
Proof. eexists. split; [vm_compute; reflexivity|]. reflexivity. Qed.
