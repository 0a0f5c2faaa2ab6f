(** Proofs about point location and interpolation on triangles. *)
From Coq Require Import Qabs Lqa Permutation.
From Verif Require Import Common CommonProofs VariableModel VariableSpec VariableProofs
  DepthModel DepthProofs UGridModel UGridGeomModel UGridGeomSpec.
Open Scope Q_scope.

(** ** Barycentric coordinates *)
Lemma comb_coeffs a b c p u v w : Combination a b c p u v w ->
  u * Cross a b c == Cross p b c /\ v * Cross a b c == Cross a p c /\ w * Cross a b c == Cross a b p.
Proof.
  intros (H & Hx & Hy). destruct a as [a1 a2], b as [b1 b2], c as [c1 c2], p as [p1 p2].
  unfold Cross. cbn [fst snd] in *. assert (E : u == 1 - v - w) by lra.
  rewrite Hx, Hy, E. repeat split; ring.
Qed.
Lemma comb_unique a b c p u v w u' v' w' : ~ Cross a b c == 0 ->
  Combination a b c p u v w -> Combination a b c p u' v' w' -> u == u' /\ v == v' /\ w == w'.
Proof.
  intros Hne H H'. destruct (comb_coeffs _ _ _ _ _ _ _ H) as (A1 & A2 & A3).
  destruct (comb_coeffs _ _ _ _ _ _ _ H') as (B1 & B2 & B3).
  repeat split; apply (Qmult_inj_r _ _ _ Hne); congruence || (rewrite ?A1, ?A2, ?A3, ?B1, ?B2, ?B3; reflexivity).
Qed.
Lemma comb_exists a b c p : ~ Cross a b c == 0 ->
  Combination a b c p (Cross p b c / Cross a b c) (Cross a p c / Cross a b c) (Cross a b p / Cross a b c).
Proof.
  intros Hne. destruct a as [a1 a2], b as [b1 b2], c as [c1 c2], p as [p1 p2].
  unfold Combination, Cross in *. cbn [fst snd] in *. repeat split; field; exact Hne.
Qed.

Lemma qdiv_val x y : ~ y == 0 -> qdiv x y = CVal (x / y).
Proof. intros H. unfold qdiv. destruct (Qeq_bool y 0) eqn:E; auto. apply Qeq_bool_iff in E. contradiction. Qed.
Lemma alphas_weights n1 n2 n3 p : ~ Cross n1 n2 n3 == 0 ->
  exists w1 w2 w3, alphas_of n1 n2 n3 p = [CVal w1; CVal w2; CVal w3] /\
    Combination n1 n2 n3 p w1 w2 w3.
Proof.
  intros Hne. destruct n1 as [a1 a2], n2 as [b1 b2], n3 as [c1 c2], p as [p1 p2].
  unfold alphas_of.
  assert (Hd : ~ (c2 - a2) * (b1 - a1) - (c1 - a1) * (b2 - a2) == 0).
  { intros E. apply Hne. unfold Cross. cbn [fst snd]. rewrite <- E. ring. }
  rewrite !qdiv_val by exact Hd. do 3 eexists. split; [reflexivity|].
  unfold Combination. cbn [fst snd]. repeat split; field; exact Hd.
Qed.
Lemma alphas_degenerate n1 n2 n3 p : Cross n1 n2 n3 == 0 -> alphas_of n1 n2 n3 p = [CNaN; CNaN; CNaN].
Proof.
  intros H. destruct n1 as [a1 a2], n2 as [b1 b2], n3 as [c1 c2], p as [p1 p2].
  unfold alphas_of, qdiv.
  assert (E : Qeq_bool ((c2 - a2) * (b1 - a1) - (c1 - a1) * (b2 - a2)) 0 = true).
  { apply Qeq_bool_iff. rewrite <- H. unfold Cross. cbn [fst snd]. ring. }
  rewrite E. reflexivity.
Qed.

Lemma weights_inside a b c p u v w : ~ Cross a b c == 0 -> Combination a b c p u v w ->
  ((0 <= u /\ 0 <= v /\ 0 <= w) <-> InTriangle a b c p).
Proof.
  intros Hne H. split.
  - intros (? & ? & ?). exists u, v, w. auto.
  - intros (u' & v' & w' & H' & ? & ? & ?).
    destruct (comb_unique _ _ _ _ _ _ _ _ _ _ Hne H H') as (-> & -> & ->). auto.
Qed.
Lemma comb_linear a b c p u v w (A B C : Q) : Combination a b c p u v w ->
  u * (A * fst a + B * snd a + C) + v * (A * fst b + B * snd b + C) + w * (A * fst c + B * snd c + C)
  == A * fst p + B * snd p + C.
Proof.
  intros (H & Hx & Hy). rewrite Hx, Hy. assert (E : u == 1 - v - w) by lra. rewrite E. ring.
Qed.
Lemma comb_at_corner a b c u v w : ~ Cross a b c == 0 ->
  (Combination a b c a u v w -> u == 1 /\ v == 0 /\ w == 0) /\
  (Combination a b c b u v w -> u == 0 /\ v == 1 /\ w == 0) /\
  (Combination a b c c u v w -> u == 0 /\ v == 0 /\ w == 1).
Proof.
  intros Hne. split; [|split]; intros H.
  - apply (comb_unique a b c a _ _ _ 1 0 0 Hne H). repeat split; ring.
  - apply (comb_unique a b c b _ _ _ 0 1 0 Hne H). repeat split; ring.
  - apply (comb_unique a b c c _ _ _ 0 0 1 Hne H). repeat split; ring.
Qed.
Lemma convex_bounds u v w x y z lo hi :
  u + v + w == 1 -> 0 <= u -> 0 <= v -> 0 <= w ->
  lo <= x <= hi -> lo <= y <= hi -> lo <= z <= hi ->
  lo <= u * x + v * y + w * z <= hi.
Proof.
  intros H Hu Hv Hw [] [] []. split.
  - setoid_replace lo with (u * lo + v * lo + w * lo) by (setoid_replace u with (1 - v - w) by lra; ring).
    assert (u * lo <= u * x) by (rewrite !(Qmult_comm u); apply Qmult_le_compat_r; auto).
    assert (v * lo <= v * y) by (rewrite !(Qmult_comm v); apply Qmult_le_compat_r; auto).
    assert (w * lo <= w * z) by (rewrite !(Qmult_comm w); apply Qmult_le_compat_r; auto). lra.
  - setoid_replace hi with (u * hi + v * hi + w * hi) by (setoid_replace u with (1 - v - w) by lra; ring).
    assert (u * x <= u * hi) by (rewrite !(Qmult_comm u); apply Qmult_le_compat_r; auto).
    assert (v * y <= v * hi) by (rewrite !(Qmult_comm v); apply Qmult_le_compat_r; auto).
    assert (w * z <= w * hi) by (rewrite !(Qmult_comm w); apply Qmult_le_compat_r; auto). lra.
Qed.

(** ** point_in_tri *)
Lemma area_cross a b c : signed_area a b c == Cross a b c / 2.
Proof. destruct a, b, c. unfold signed_area, Cross. cbn [fst snd]. field. Qed.
Lemma Qabs_mult_pos k x : 0 <= k -> Qabs (x * k) == Qabs x * k.
Proof. intros H. rewrite Qabs_Qmult, (Qabs_pos k); auto. reflexivity. Qed.
Lemma Qabs_eq x y : x == y -> Qabs x == Qabs y.
Proof. intros ->. reflexivity. Qed.

(** The three sub-areas in terms of the coefficients. *)
Lemma sub_areas a b c p u v w : 0 <= Cross a b c -> Combination a b c p u v w ->
  Qabs (signed_area a b p) + Qabs (signed_area b c p) + Qabs (signed_area a c p)
  == (Qabs u + Qabs v + Qabs w) * (Cross a b c / 2).
Proof.
  intros Hp H. destruct (comb_coeffs _ _ _ _ _ _ _ H) as (A1 & A2 & A3).
  set (A := Cross a b c) in *. assert (0 <= A / 2).
  { apply Qle_shift_div_l; [reflexivity|]. lra. }
  assert (E1 : Qabs (signed_area a b p) == Qabs w * (A / 2)).
  { rewrite <- Qabs_mult_pos by auto. apply Qabs_eq. rewrite area_cross, <- A3. field. }
  assert (E2 : Qabs (signed_area b c p) == Qabs u * (A / 2)).
  { rewrite <- Qabs_mult_pos by auto. apply Qabs_eq. rewrite area_cross.
    assert (Cross b c p == Cross p b c) as -> by (destruct b, c, p; unfold Cross; cbn [fst snd]; ring).
    rewrite <- A1. field. }
  assert (E3 : Qabs (signed_area a c p) == Qabs v * (A / 2)).
  { rewrite <- Qabs_mult_pos by auto. rewrite <- (Qabs_opp (v * (A / 2))). apply Qabs_eq.
    rewrite area_cross.
    assert (Cross a c p == - Cross a p c) as -> by (destruct a, c, p; unfold Cross; cbn [fst snd]; ring).
    rewrite <- A2. field. }
  rewrite E1, E2, E3. ring.
Qed.
Lemma Qabs_sum3 u v w : u + v + w == 1 -> 1 <= Qabs u + Qabs v + Qabs w.
Proof.
  intros H. pose proof (Qle_Qabs u). pose proof (Qle_Qabs v). pose proof (Qle_Qabs w). lra.
Qed.
Lemma point_in_tri_ccw a b c p : 0 < Cross a b c ->
  (point_in_tri a b c p = true <-> NearTriangle epsilon a b c p).
Proof.
  intros Hpos. assert (Hne : ~ Cross a b c == 0) by (intros E; lra).
  pose proof (comb_exists a b c p Hne) as HC.
  set (u := Cross p b c / Cross a b c) in *. set (v := Cross a p c / Cross a b c) in *.
  set (w := Cross a b p / Cross a b c) in *.
  assert (Hle : 0 <= Cross a b c) by lra.
  pose proof (sub_areas a b c p u v w Hle HC) as HS.
  assert (HA : Qeq_bool (signed_area a b c) 0 = false).
  { apply not_true_iff_false. intros E. apply Qeq_bool_iff in E. rewrite area_cross in E. apply Hne.
       assert (Cross a b c == (Cross a b c / 2) * 2) as -> by field. rewrite E. ring. }
  unfold point_in_tri. rewrite HA.
  assert (E : Qabs (Qabs (signed_area a b p) + Qabs (signed_area b c p) + Qabs (signed_area a c p)
                    - signed_area a b c) / signed_area a b c == Qabs u + Qabs v + Qabs w - 1).
  { rewrite HS, area_cross.
    assert (H1 : 0 <= (Qabs u + Qabs v + Qabs w) * (Cross a b c / 2) - Cross a b c / 2).
    { setoid_replace ((Qabs u + Qabs v + Qabs w) * (Cross a b c / 2) - Cross a b c / 2)
        with ((Qabs u + Qabs v + Qabs w - 1) * (Cross a b c / 2)) by ring.
      apply Qmult_le_0_compat.
      - pose proof (Qabs_sum3 u v w (proj1 HC)). lra.
      - apply Qle_shift_div_l; [reflexivity|]. lra. }
    rewrite (Qabs_pos _ H1). field. exact Hne. }
  rewrite Qle_bool_iff, E. split.
  - intros H. exists u, v, w. split; auto. lra.
  - intros (u' & v' & w' & HC' & H).
    destruct (comb_unique _ _ _ _ _ _ _ _ _ _ Hne HC HC') as (-> & -> & ->). lra.
Qed.
Lemma point_in_tri_cw a b c p : Cross a b c < 0 -> point_in_tri a b c p = true.
Proof.
  intros Hneg. unfold point_in_tri.
  assert (HA : signed_area a b c < 0).
  { rewrite area_cross. apply Qlt_shift_div_r; [reflexivity|]. lra. }
  destruct (Qeq_bool (signed_area a b c) 0) eqn:E.
  { apply Qeq_bool_iff in E. lra. }
  apply Qle_bool_iff. set (A := signed_area a b c) in *.
  match goal with |- Qabs ?y / _ <= _ => set (x := y) end. pose proof (Qabs_nonneg x).
  assert (Qabs x / A <= 0).
  { setoid_replace (Qabs x / A) with (- (Qabs x / (- A))) by (field; intros E'; lra).
    assert (0 <= Qabs x / - A) by (apply Qle_shift_div_l; lra). lra. }
  unfold epsilon. lra.
Qed.
Lemma point_in_tri_flat a b c p : Cross a b c == 0 -> point_in_tri a b c p = false.
Proof.
  intros H. unfold point_in_tri. destruct (Qeq_bool (signed_area a b c) 0) eqn:E; auto.
  rewrite <- not_true_iff_false in E. exfalso. apply E. apply Qeq_bool_iff.
  rewrite area_cross, H. reflexivity.
Qed.
Lemma inside_near a b c p e : 0 <= e -> InTriangle a b c p -> NearTriangle e a b c p.
Proof.
  intros He (u & v & w & HC & Hu & Hv & Hw). exists u, v, w. split; auto.
  rewrite !Qabs_pos by auto. destruct HC as [E _]. lra.
Qed.
(** With no tolerance "near" is "in". *)
Lemma near_zero_inside a b c p : NearTriangle 0 a b c p <-> InTriangle a b c p.
Proof.
  split; [|apply inside_near; lra].
  intros (u & v & w & HC & H). exists u, v, w. split; auto. destruct HC as [E _].
  assert (G : forall x, 0 <= Qabs x - x) by (intros x; pose proof (Qle_Qabs x); lra).
  pose proof (G u). pose proof (G v). pose proof (G w).
  assert (N : forall x, Qabs x == x -> 0 <= x) by (intros x <-; apply Qabs_nonneg).
  repeat split; apply N; lra.
Qed.

(** ** The simple search *)
Definition contains (nodes : list pt) (p : pt) (face : list Z) : Prop :=
  exists a b c rest, face_points nodes face = Ok (a :: b :: c :: rest) /\ point_in_tri a b c p = true.
Lemma in_face_true nodes face p b : in_face nodes face p = Ok b -> (b = true <-> contains nodes p face).
Proof.
  unfold in_face, contains. intros H. apply bind_ok in H. destruct H as (f & Hf & H).
  destruct f as [|x [|y [|z f]]]; try discriminate. injection H as <-. split.
  - intros E. exists x, y, z, f. auto.
  - intros (a & b' & c & rest & E & E'). congruence.
Qed.
Lemma find_face_spec nodes p : forall faces i cur r,
  find_face nodes i faces p cur = Ok r ->
  (exists k x, r = Z.of_nat (i + k) /\ nth_error faces k = Some x /\ contains nodes p x /\
     forall j y, (j < k)%nat -> nth_error faces j = Some y -> ~ contains nodes p y) \/
  (r = (match faces with [] => cur | _ => -1 end)%Z /\ forall x, In x faces -> ~ contains nodes p x).
Proof.
  induction faces as [|f faces IH]; intros i cur r H; cbn [find_face] in H.
  - injection H as <-. right. split; auto.
  - apply bind_ok in H. destruct H as (b & Hb & H).
    pose proof (in_face_true _ _ _ _ Hb) as Hc. destruct b.
    + injection H as <-. left. exists 0%nat, f. rewrite Nat.add_0_r.
      repeat split; auto. { apply Hc; auto. } intros j y Hj. lia.
    + destruct (IH _ _ _ H) as [(k & x & E & Hk & Hx & Hpre)|(E & Hn)].
      * left. exists (S k), x. split; [rewrite E; f_equal; lia|]. repeat split; auto.
        intros [|j] y Hj Hy; [|apply (Hpre j); auto; lia].
        injection Hy as <-. intros C. apply Hc in C. discriminate.
      * right. split; [destruct faces; auto|].
        intros x [<-|Hx]; auto. intros C. apply Hc in C. discriminate.
Qed.
Lemma locate_simple_spec nodes faces pts l : faces <> [] ->
  locate_simple nodes faces pts = Ok l ->
  Forall2 (fun p i => FirstIndex (contains nodes p) faces i) pts l.
Proof.
  intros Hne. unfold locate_simple. revert l. induction pts as [|p pts IH]; intros l H; cbn [mapM] in H.
  - injection H as <-. constructor.
  - apply bind_ok in H. destruct H as (i & Hi & H). apply bind_ok in H. destruct H as (l' & Hl & H).
    injection H as <-. constructor; auto.
    apply find_face_spec in Hi. destruct Hi as [(k & x & E & Hk & Hx & Hpre)|(E & Hn)].
    + left. exists k, x. cbn in E. auto.
    + right. split; auto. destruct faces; [congruence|auto].
Qed.
Definition valid_face (nodes : list pt) (face : list Z) : Prop :=
  (3 <= length face)%nat /\
  forall x, In x face -> (- Z.of_nat (length nodes) <= x < Z.of_nat (length nodes))%Z.
Lemma py_get_total {A} (l : list A) i :
  (- Z.of_nat (length l) <= i < Z.of_nat (length l))%Z -> exists x, py_get l i = Ok x.
Proof.
  intros H. unfold py_get, py_index. destruct (Z.leb_spec 0 i).
  - destruct (Z.ltb_spec i (Z.of_nat (length l))); [|lia].
    destruct (nth_error_lt_Some l (Z.to_nat i)) as [x Hx]; [lia|]. rewrite Hx. eauto.
  - destruct (Z.leb_spec 0 (i + Z.of_nat (length l))); [|lia].
    destruct (nth_error_lt_Some l (Z.to_nat (i + Z.of_nat (length l)))) as [x Hx]; [lia|].
    rewrite Hx. eauto.
Qed.
Lemma face_points_total nodes face :
  (forall x, In x face -> (- Z.of_nat (length nodes) <= x < Z.of_nat (length nodes))%Z) ->
  exists f, face_points nodes face = Ok f /\ length f = length face /\
    forall k i, nth_error face k = Some i -> exists q, nth_error f k = Some q /\ py_get nodes i = Ok q.
Proof.
  intros H. unfold face_points.
  destruct (mapM_rows_in (py_get nodes) (fun i q => py_get nodes i = Ok q) face) as (f & E & L & K).
  - intros i Hi. destruct (py_get_total nodes i (H i Hi)) as [q Hq]. eauto.
  - exists f. auto.
Qed.
Lemma in_face_total nodes face p : valid_face nodes face -> exists b, in_face nodes face p = Ok b.
Proof.
  intros [Hl Hv]. destruct (face_points_total nodes face Hv) as (f & E & L & _).
  unfold in_face. rewrite E. cbn [bind]. destruct f as [|x [|y [|z f]]]; cbn [length] in L; try lia. eauto.
Qed.
Lemma find_face_total nodes p faces i cur :
  Forall (valid_face nodes) faces -> exists r, find_face nodes i faces p cur = Ok r.
Proof.
  intros H. revert i cur. induction H as [|f faces Hf H IH]; intros i cur; cbn [find_face]; eauto.
  destruct (in_face_total nodes f p Hf) as [b ->]. cbn [bind]. destruct b; eauto.
Qed.
Lemma locate_simple_total nodes faces pts : Forall (valid_face nodes) faces ->
  exists l, locate_simple nodes faces pts = Ok l.
Proof.
  intros H. unfold locate_simple.
  destruct (mapM_rows (fun p => find_face nodes 0 faces p 0) (fun _ _ => True)
              (fun p => match find_face_total nodes p faces 0 0 H with ex_intro _ r E => ex_intro _ r (conj E I) end) pts)
    as (l & E & _). eauto.
Qed.

(** ** Interpolated values *)
Definition numericc (c : cell) : Prop := exists q, c = CVal q.
Lemma mul_zero c : numericc c -> exists q, cell_mul c (CVal 0) = CVal q /\ q == 0.
Proof. intros [q ->]. cbn [cell_mul]. eexists. split; [reflexivity|]. ring. Qed.

Lemma face_value_inside data i k v : i = Z.of_nat k -> nth_error data k = Some v -> face_value data i = Ok v.
Proof.
  intros -> H. unfold face_value. rewrite (py_get_nat _ _ _ H). cbn [bind].
  destruct (Z.eqb_spec (Z.of_nat k) (-1)); [lia|reflexivity].
Qed.
Lemma face_value_outside data v : nth_error data (length data - 1) = Some v ->
  face_value data (-1) = Ok (cell_mul v (CVal 0)).
Proof. intros H. unfold face_value. rewrite (py_get_m1 _ _ H). reflexivity. Qed.

Lemma sum3 x y z : cell_sum [CVal x; CVal y; CVal z] = CVal (x + y + z).
Proof. reflexivity. Qed.

(** The value at a point located in triangle [i]. *)
Lemma node_value_inside nodes faces data p i k n1 n2 n3 P1 P2 P3 v1 v2 v3 :
  i = Z.of_nat k -> nth_error faces k = Some [n1; n2; n3] ->
  py_get nodes n1 = Ok P1 -> py_get nodes n2 = Ok P2 -> py_get nodes n3 = Ok P3 ->
  py_get data n1 = Ok (CVal v1) -> py_get data n2 = Ok (CVal v2) -> py_get data n3 = Ok (CVal v3) ->
  ~ Cross P1 P2 P3 == 0 ->
  exists al u v w r, alpha_row nodes faces p i = Ok al /\ al = [CVal u; CVal v; CVal w] /\
    Combination P1 P2 P3 p u v w /\
    node_value faces data al i = Ok (CVal r) /\ r == u * v1 + v * v2 + w * v3.
Proof.
  intros -> Hf H1 H2 H3 D1 D2 D3 Hne.
  destruct (alphas_weights P1 P2 P3 p Hne) as (u & v & w & E & HC).
  exists [CVal u; CVal v; CVal w], u, v, w. eexists. split.
  { unfold alpha_row. rewrite (py_get_nat _ _ _ Hf). cbn [bind]. unfold face_points. cbn [mapM].
    rewrite H1, H2, H3. cbn [bind]. destruct (Z.eqb_spec (Z.of_nat k) (-1)); [lia|]. rewrite E. reflexivity. }
  split; auto. split; auto. split.
  { unfold node_value. rewrite (py_get_nat _ _ _ Hf). cbn [bind mapM]. rewrite D1, D2, D3. cbn [bind].
    destruct (Z.eqb_spec (Z.of_nat k) (-1)); [lia|]. reflexivity. }
  ring.
Qed.
(** Outside: the last triangle is looked up and everything multiplied by 0. *)
Lemma node_value_outside nodes faces data p n1 n2 n3 P1 P2 P3 v1 v2 v3 :
  nth_error faces (length faces - 1) = Some [n1; n2; n3] ->
  py_get nodes n1 = Ok P1 -> py_get nodes n2 = Ok P2 -> py_get nodes n3 = Ok P3 ->
  py_get data n1 = Ok (CVal v1) -> py_get data n2 = Ok (CVal v2) -> py_get data n3 = Ok (CVal v3) ->
  ~ Cross P1 P2 P3 == 0 ->
  exists al r, alpha_row nodes faces p (-1) = Ok al /\
    node_value faces data al (-1) = Ok (CVal r) /\ r == 0.
Proof.
  intros Hf H1 H2 H3 D1 D2 D3 Hne.
  destruct (alphas_weights P1 P2 P3 p Hne) as (u & v & w & E & HC).
  eexists. eexists. split.
  { unfold alpha_row. rewrite (py_get_m1 _ _ Hf). cbn [bind]. unfold face_points. cbn [mapM].
    rewrite H1, H2, H3. cbn [bind]. rewrite E. reflexivity. }
  split.
  { unfold node_value. rewrite (py_get_m1 _ _ Hf). cbn [bind mapM]. rewrite D1, D2, D3. cbn [bind].
    reflexivity. }
  ring.
Qed.

(** ** Means *)
Lemma qsum_total l : qsum l == total l.
Proof.
  unfold qsum, total. assert (G : forall a, fold_left Qplus l a == a + fold_right Qplus 0 l).
  { induction l as [|x l IH]; intros a; cbn [fold_left fold_right]; [ring|]. rewrite IH. ring. }
  rewrite G. ring.
Qed.
Lemma len_ne0 {A} (l : list A) : l <> [] -> ~ inject_Z (Z.of_nat (length l)) == 0.
Proof. intros H E. destruct l; [congruence|]. cbn [length] in E. unfold Qeq in E. cbn in E. lia. Qed.
Lemma len_pos {A} (l : list A) : l <> [] -> 0 < inject_Z (Z.of_nat (length l)).
Proof. intros H. destruct l; [congruence|]. cbn [length]. unfold Qlt. cbn. lia. Qed.
Lemma mean_pt_mean l : l <> [] -> IsMean (map fst l) (fst (mean_pt l)) /\ IsMean (map snd l) (snd (mean_pt l)).
Proof.
  intros H. unfold IsMean, mean_pt. cbn [fst snd]. rewrite !map_length, !qsum_total.
  split; field; apply len_ne0; auto.
Qed.
Lemma total_bounds l lo hi : (forall x, In x l -> lo <= x <= hi) ->
  inject_Z (Z.of_nat (length l)) * lo <= total l <= inject_Z (Z.of_nat (length l)) * hi.
Proof.
  induction l as [|x l IH]; intros H; cbn [total fold_right].
  - change (inject_Z (Z.of_nat (length (@nil Q)))) with 0. lra.
  - cbn [length]. rewrite Nat2Z.inj_succ, <- Z.add_1_r, inject_Z_plus.
    fold (total l). destruct IH as [A B]. { intros y Hy. apply H. right. auto. }
    destruct (H x (or_introl eq_refl)).
    setoid_replace ((inject_Z (Z.of_nat (length l)) + inject_Z 1) * lo)
      with (inject_Z (Z.of_nat (length l)) * lo + lo) by (change (inject_Z 1) with 1; ring).
    setoid_replace ((inject_Z (Z.of_nat (length l)) + inject_Z 1) * hi)
      with (inject_Z (Z.of_nat (length l)) * hi + hi) by (change (inject_Z 1) with 1; ring). lra.
Qed.
Lemma mean_bounds l m lo hi : l <> [] -> IsMean l m -> (forall x, In x l -> lo <= x <= hi) -> lo <= m <= hi.
Proof.
  intros Hne Hm H. unfold IsMean in Hm. apply total_bounds in H. rewrite <- Hm in H. pose proof (len_pos l Hne).
  split; [apply Qmult_lt_0_le_reg_r with (z := inject_Z (Z.of_nat (length l)))|
          apply Qmult_lt_0_le_reg_r with (z := inject_Z (Z.of_nat (length l)))]; auto; rewrite !(Qmult_comm _ (inject_Z _)); tauto.
Qed.
Lemma mean_unique l m m' : l <> [] -> IsMean l m -> IsMean l m' -> m == m'.
Proof.
  intros Hne H H'. unfold IsMean in *. apply (Qmult_inj_l _ _ _ (len_ne0 l Hne)). rewrite H, H'. reflexivity.
Qed.
Lemma total_perm l l' : Permutation l l' -> total l == total l'.
Proof.
  unfold total. induction 1 as [|x l l' _ IH|x y l|l l' l'' _ IH1 _ IH2]; cbn [fold_right].
  - reflexivity.
  - rewrite IH. reflexivity.
  - ring.
  - rewrite IH1. exact IH2.
Qed.
Lemma mean_perm l l' m : Permutation l l' -> IsMean l m -> IsMean l' m.
Proof.
  intros P H. unfold IsMean in *. rewrite <- (Permutation_length P), H. apply total_perm. exact P.
Qed.
Lemma mean_shift l m d : IsMean l m -> IsMean (map (fun x => x + d) l) (m + d).
Proof.
  unfold IsMean. rewrite map_length.
  assert (G : total (map (fun x => x + d) l) == total l + inject_Z (Z.of_nat (length l)) * d).
  { induction l as [|x l IH]; cbn [map total fold_right length]; [change (inject_Z (Z.of_nat 0)) with 0; ring|].
    fold (total (map (fun x => x + d) l)). fold (total l). rewrite IH, Nat2Z.inj_succ, <- Z.add_1_r, inject_Z_plus.
    change (inject_Z 1) with 1. ring. }
  intros H. rewrite G, <- H. ring.
Qed.
Lemma derived_coords_rows nodes rows cs : derived_coords nodes (Some rows) = Ok cs ->
  length cs = length rows /\
  forall k r, nth_error rows k = Some r -> exists f c,
    face_points nodes r = Ok f /\ nth_error cs k = Some c /\ c = mean_pt f.
Proof.
  intros H. cbn [derived_coords] in H. apply mapM_ok in H. destruct H as [L K]. split; auto.
  intros k r Hr. destruct (K _ _ Hr) as (c & Hc & E). apply bind_ok in E. destruct E as (f & Hf & E).
  injection E as <-. eauto.
Qed.
