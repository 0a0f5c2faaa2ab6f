(** Proofs about verdat files. *)
From Coq Require Import String Ascii NArith Nnat Permutation Sorted Qabs Qround Lqa.
From Verif Require Import Common CommonProofs MaskModel GridTypeModel ChainModel ChainSpec ChainProofs VerdatModel VerdatText VerdatSpec.
Open Scope string_scope.
Open Scope list_scope.
Open Scope Z_scope.

Lemma pow10_pos : forall d, (0 < inject_Z (10 ^ Z.of_nat d))%Q.
Proof. intros. change 0%Q with (inject_Z 0). rewrite <- Zlt_Qlt. apply Z.pow_pos_nonneg; lia. Qed.

Lemma read_back_printed : forall d q r, (r == read_back d q)%Q -> Printed d q r.
Proof.
  intros d q r E. exists (rne (q * inject_Z (10 ^ Z.of_nat d))). split; [exact E|].
  pose proof (pow10_pos d) as P. set (p := inject_Z (10 ^ Z.of_nat d)) in *.
  pose proof (rne_close (q * p)) as C. rewrite E. unfold read_back. fold p.
  set (z := inject_Z (rne (q * p))) in *.
  setoid_replace (q - z / p)%Q with ((q * p - z) * / p)%Q by (field; lra).
  rewrite Qabs_Qmult. rewrite (Qabs_pos (/ p)) by (apply Qlt_le_weak, Qinv_lt_0_compat; exact P).
  unfold Qdiv. apply Qmult_le_compat_r; [exact C|]. apply Qlt_le_weak, Qinv_lt_0_compat. exact P.
Qed.

(** Reading the points of a saved file. *)
Definition row := ((Q * Q) * Q)%type.
Definition row_read (r r' : row) : Prop :=
  (fst (fst r') == read_back 6 (fst (fst r)) /\ snd (fst r') == read_back 6 (snd (fst r)) /\ snd r' == read_back 3 (snd r))%Q.
Lemma qeqb_false : forall a b, ~ (a == b)%Q -> Qeq_bool a b = false.
Proof. intros a b H. destruct (Qeq_bool a b) eqn:E; auto. apply Qeq_bool_iff in E. contradiction. Qed.
Lemma zero_line_read : forall r, read_points (point_line 0 (0, 0)%Q 0%Q :: r) = Ok ([], r).
Proof.
  intros r. cbn [read_points]. destruct (point_line_read 0 (0, 0)%Q 0%Q) as (vi & vx & vy & vz & -> & E1 & E2 & E3 & E4).
  cbn [fst snd] in *.
  assert (Z6 : (read_back 6 0 == 0)%Q) by reflexivity. assert (Z3 : (read_back 3 0 == 0)%Q) by reflexivity.
  rewrite Z6 in E2, E3. rewrite Z3 in E4. change (inject_Z (Z.of_nat 0)) with 0%Q in E1.
  apply Qeq_bool_iff in E1, E2, E3, E4. now rewrite E1, E2, E3, E4.
Qed.
Lemma points_read : forall rows i tail, (0 < i)%nat -> exists rows',
  read_points (map (fun r => point_line (fst r) (fst (snd r)) (snd (snd r))) (number_from i rows)
               ++ point_line 0 (0, 0)%Q 0%Q :: tail) = Ok (rows', tail) /\ Forall2 row_read rows rows'.
Proof.
  induction rows as [|[p d] rows IH]; intros i tail Hi.
  - exists []. split; [apply zero_line_read|constructor].
  - cbn [number_from map app fst snd]. cbn [read_points].
    destruct (point_line_read i p d) as (vi & vx & vy & vz & -> & E1 & E2 & E3 & E4).
    rewrite (qeqb_false vi 0).
    2:{ rewrite E1. change 0%Q with (inject_Z 0). rewrite inject_Z_injective. lia. }
    cbn [andb]. destruct (IH (S i) tail) as (rows' & -> & F); [lia|]. cbn [bind fst snd].
    exists ((vx, vy, vz) :: rows'). split; [reflexivity|]. constructor; auto. repeat split; auto.
Qed.

(** Loops of consecutive numbers. *)
Fixpoint canon (s : Z) (bounds : list (list Z)) : list (list Z) :=
  match bounds with [] => [] | b :: r => zrange s (s + Z.of_nat (length b)) :: canon (s + Z.of_nat (length b)) r end.
Lemma zrange_length : forall a n, length (zrange a (a + Z.of_nat n)) = n.
Proof. intros. unfold zrange. rewrite map_length, seq_length. lia. Qed.
Lemma zrange_S : forall a n, zrange a (a + Z.of_nat (S n)) = a :: zrange (a + 1) (a + 1 + Z.of_nat n).
Proof.
  intros. unfold zrange. replace (Z.to_nat (a + Z.of_nat (S n) - a)) with (S n) by lia.
  replace (Z.to_nat (a + 1 + Z.of_nat n - (a + 1))) with n by lia. cbn [seq map].
  f_equal; [lia|]. rewrite <- seq_shift, map_map. apply map_ext. intros. lia.
Qed.
Lemma zrange_snoc : forall a n, zrange a (a + Z.of_nat (S n)) = zrange a (a + Z.of_nat n) ++ [a + Z.of_nat n].
Proof.
  intros. unfold zrange. replace (Z.to_nat (a + Z.of_nat (S n) - a)) with (S n) by lia.
  replace (Z.to_nat (a + Z.of_nat n - a)) with n by lia. rewrite seq_S, map_app. reflexivity.
Qed.
Lemma steps_range : forall n a p, steps (zrange a (a + Z.of_nat (S n)) ++ [p]) =
  map (fun j => (j, j + 1)) (zrange a (a + Z.of_nat n)) ++ [(a + Z.of_nat n, p)].
Proof.
  induction n as [|n IH]; intros a p.
  - unfold zrange. replace (Z.to_nat (a + Z.of_nat 1 - a)) with 1%nat by lia.
    replace (Z.to_nat (a + Z.of_nat 0 - a)) with 0%nat by lia. cbn. replace (a + 0) with a by lia. reflexivity.
  - rewrite zrange_S. rewrite zrange_S at 1.
    specialize (IH (a + 1) p). rewrite zrange_S in IH.
    change ((a :: a + 1 :: zrange (a + 1 + 1) (a + 1 + 1 + Z.of_nat n)) ++ [p]) with
      (a :: (a + 1 :: zrange (a + 1 + 1) (a + 1 + 1 + Z.of_nat n)) ++ [p]).
    cbn [steps app] in IH |- *. rewrite IH. rewrite zrange_S. cbn [map app].
    replace (a + Z.of_nat (S n)) with (a + 1 + Z.of_nat n) by lia. reflexivity.
Qed.

Lemma bounds_read : forall bounds s i, Forall (fun l => (2 <= length l)%nat) bounds ->
  read_bounds (length bounds) (Z.of_nat s) i (map (fun n => dec (N.of_nat n)) (running s bounds)) =
  Ok (concat (map loop_steps (canon (Z.of_nat s) bounds))).
Proof.
  induction bounds as [|b bounds IH]; intros s i F; [reflexivity|].
  inversion F as [|? ? L F']; subst. cbn [length running map read_bounds canon concat].
  rewrite dec_int. rewrite nat_N_Z.
  destruct (length b) as [|[|n]] eqn:E; try lia.
  replace (Z.of_nat (s + S (S n)) - 1) with (Z.of_nat s + Z.of_nat (S n)) by lia.
  rewrite zrange_snoc, rev_app_distr. cbn [rev app].
  rewrite IH by auto. cbn [bind]. f_equal.
  replace (Z.of_nat (s + S (S n))) with (Z.of_nat s + Z.of_nat (S (S n))) by lia.
  assert (LS : loop_steps (zrange (Z.of_nat s) (Z.of_nat s + Z.of_nat (S (S n)))) =
    map (fun j => (j, j + 1)) (zrange (Z.of_nat s) (Z.of_nat s + Z.of_nat (S n))) ++ [(Z.of_nat s + Z.of_nat (S n), Z.of_nat s)]).
  { rewrite <- steps_range. rewrite zrange_S at 1. unfold loop_steps. now rewrite <- zrange_S. }
  rewrite LS, zrange_snoc, <- app_assoc. cbn [app].
  replace (Z.of_nat s + Z.of_nat n + 1) with (Z.of_nat s + Z.of_nat (S n)) by lia. reflexivity.
Qed.

(** Relabelling the loops. *)
Lemma steps_map : forall f l, map (fun s : seg => (f (fst s), f (snd s))) (steps l) = steps (map f l).
Proof. intros f. induction l as [|a [|b l] IH]; auto. cbn [steps map fst snd] in *. now rewrite IH. Qed.
Lemma loop_map : forall f l, map (fun s : seg => (f (fst s), f (snd s))) (loop_steps l) = loop_steps (map f l).
Proof. intros f [|a l]; auto. unfold loop_steps. rewrite steps_map. cbn [map]. now rewrite map_app. Qed.
Lemma relabel_canon : forall f bounds s,
  (forall k, (k < length (concat bounds))%nat -> f (Z.of_nat (s + k)) = nth k (concat bounds) 0) ->
  map (fun x : seg => (f (fst x), f (snd x))) (concat (map loop_steps (canon (Z.of_nat s) bounds))) =
  concat (map loop_steps bounds).
Proof.
  intros f. induction bounds as [|b bounds IH]; intros s Hf; [reflexivity|].
  cbn [canon map concat]. rewrite map_app. apply f_equal2.
  - rewrite loop_map. f_equal. cbn [concat] in Hf.
    apply nth_ext with (d := f 0) (d' := 0). { rewrite map_length, zrange_length. reflexivity. }
    intros k Hk. rewrite map_length, zrange_length in Hk.
    rewrite map_nth with (d := 0). unfold zrange. rewrite nth_indep with (d' := Z.of_nat s + Z.of_nat 0%nat).
    2:{ rewrite map_length, seq_length. lia. }
    rewrite (map_nth (fun k => Z.of_nat s + Z.of_nat k) _ 0%nat), seq_nth by lia. replace (Z.of_nat s + Z.of_nat (0 + k)) with (Z.of_nat (s + k)) by lia.
    rewrite Hf by (rewrite app_length; lia). now apply app_nth1.
  - replace (Z.of_nat s + Z.of_nat (length b)) with (Z.of_nat (s + length b)) by lia.
    apply IH. intros k Hk. rewrite <- Nat.add_assoc, Hf by (cbn [concat]; rewrite app_length; lia).
    cbn [concat]. rewrite app_nth2 by lia. f_equal. lia.
Qed.

Lemma nodup_app_intro : forall (l m : list Z), NoDup l -> NoDup m -> (forall x, In x l -> ~ In x m) -> NoDup (l ++ m).
Proof.
  induction l as [|a l IH]; cbn; intros m H1 H2 D; auto. inversion H1; subst. constructor.
  - rewrite in_app_iff. intros [I|I]; auto. apply (D a); auto.
  - apply IH; auto.
Qed.
(** The write order is a permutation of the points. *)
Lemma order_perm : forall n bounds, NoDup (concat bounds) -> (forall x, In x (concat bounds) -> 0 <= x < Z.of_nat n) ->
  Permutation (write_order n bounds) (map Z.of_nat (seq 0 n)).
Proof.
  intros n bounds ND R. unfold write_order. set (c := concat bounds) in *.
  assert (NDs : NoDup (map Z.of_nat (seq 0 n))) by (apply FinFun.Injective_map_NoDup; [intros a b; lia|apply seq_NoDup]).
  assert (M : forall x, existsb (Z.eqb x) c = true <-> In x c).
  { intros x. rewrite existsb_exists. split; [intros (y & I & E); apply Z.eqb_eq in E; now subst|].
    intros I. exists x. split; auto. apply Z.eqb_refl. }
  apply NoDup_Permutation.
  - assert (NF : NoDup (filter (fun j => negb (existsb (Z.eqb j) c)) (map Z.of_nat (seq 0 n)))) by (now apply NoDup_filter).
    assert (D : forall x, In x c -> ~ In x (filter (fun j => negb (existsb (Z.eqb j) c)) (map Z.of_nat (seq 0 n)))).
    { intros x I C. apply filter_In in C. destruct C as [_ C]. apply M in I. rewrite I in C. discriminate. }
    now apply nodup_app_intro.
  - exact NDs.
  - intros x. rewrite in_app_iff, filter_In. split.
    + intros [I|[I _]]; auto. apply R in I. apply in_map_iff. exists (Z.to_nat x). split; [lia|]. apply in_seq. lia.
    + intros I. destruct (existsb (Z.eqb x) c) eqn:E; [left; now apply M|right; auto].
Qed.

(** Fetching the rows. *)
Lemma rows_ok : forall (nodes : list (Q * Q)) (dd : list Q) l, length dd = length nodes -> (forall x, In x l -> 0 <= x < Z.of_nat (length nodes)) ->
  exists rows, mapM_res (fun p => do xy <- py_get nodes p; do z <- py_get dd p; Ok (xy, z)) l = Ok rows /\
    Forall2 (fun p r => nth_error nodes (Z.to_nat p) = Some (fst r) /\ nth_error dd (Z.to_nat p) = Some (snd r)) l rows.
Proof.
  intros nodes dd l HL. induction l as [|p l IH]; intros R; [exists []; split; auto|].
  destruct IH as (rows & E & F); [intros x I; apply R; now right|]. cbn [mapM_res].
  pose proof (R p (or_introl eq_refl)) as Hp.
  assert (G : forall A (v : list A), length v = length nodes -> exists a, py_get v p = Ok a /\ nth_error v (Z.to_nat p) = Some a).
  { intros A v Hv. unfold py_get, py_index. rewrite (proj2 (Z.leb_le 0 p)) by lia.
    rewrite (proj2 (Z.ltb_lt p (Z.of_nat (length v)))) by lia.
    destruct (nth_error v (Z.to_nat p)) eqn:N; [eauto|]. apply nth_error_None in N. lia. }
  destruct (G _ nodes eq_refl) as (xy & -> & N1). destruct (G _ dd HL) as (z & -> & N2). cbn [bind]. rewrite E. cbn [bind].
  exists ((xy, z) :: rows). split; auto.
Qed.

(** Units. *)
Lemma units_cases : forall d u, depth_units d = Ok u -> u = "" \/ u = "FEET" \/ u = "METERS".
Proof.
  intros [|[s|] l] u H; cbn in H; try discriminate; [injection H as <-; auto|]. unfold units_map in H.
  destruct (isin _ _); [injection H as <-; auto|]. destruct (isin _ _); [injection H as <-; auto|discriminate].
Qed.
Lemma header_read : forall u, u = "" \/ u = "FEET" \/ u = "METERS" ->
  lower (header_units (strip ("DOGS " ++ u)%string)) = lower u.
Proof. intros u [->|[->| ->]]; reflexivity. Qed.

Lemma filter_sorted : forall f n a, StronglySorted lt (filter f (seq a n)).
Proof.
  intros f. induction n as [|n IH]; intros a; cbn; [constructor|]. destruct (f a); [|auto]. constructor; auto.
  apply Forall_forall. intros x I. apply filter_In in I. destruct I as [I _]. apply in_seq in I. lia.
Qed.
Lemma filter_map_Z : forall g l, filter g (map Z.of_nat l) = map Z.of_nat (filter (fun k => g (Z.of_nat k)) l).
Proof. intros g. induction l; cbn; auto. destruct (g (Z.of_nat a)); cbn; congruence. Qed.

(** ** Saving again. *)
Lemma sort_sorted : forall l : list seg, StronglySorted Z.lt (map fst l) -> sort_segs l = l.
Proof.
  induction l as [|x l IH]; intros H; auto. cbn [map] in H. inversion H; subst.
  change (sort_segs (x :: l)) with (insert_seg x (sort_segs l)). rewrite IH by auto.
  destruct l as [|y l]; auto. cbn. inversion H3; subst. unfold seg_leb.
  destruct (Z.ltb_spec (fst x) (fst y)); [reflexivity|lia].
Qed.
Lemma grow_loop : forall l fuel b rest, (length l < fuel)%nat -> b <> [] -> (forall x, In x l -> x <> first_pt b) ->
  grow fuel b (steps (last_pt b :: l ++ [first_pt b]) ++ rest) = Ok (true, b ++ l, rest).
Proof.
  induction l as [|x l IH]; intros fuel b rest F N NF; (destruct fuel as [|fuel]; [lia|]).
  - cbn [steps app grow attach]. rewrite Z.eqb_refl. cbn [bind].
    rewrite first_snoc, last_snoc, Z.eqb_refl by auto. rewrite removelast_last, app_nil_r. reflexivity.
  - cbn [app]. change (steps (last_pt b :: x :: l ++ [first_pt b])) with ((last_pt b, x) :: steps (x :: l ++ [first_pt b])).
    cbn [app grow attach]. rewrite Z.eqb_refl. cbn [bind].
    rewrite first_snoc, last_snoc by auto.
    destruct (Z.eqb_spec (first_pt b) x); [exfalso; apply (NF x); cbn; auto|].
    cbn in F. specialize (IH fuel (b ++ [x]) rest). rewrite first_snoc, last_snoc, <- app_assoc in IH by auto.
    apply IH; [lia|destruct b; discriminate|]. intros y I. apply NF. now right.
Qed.
Lemma chains_loops : forall ls fuel, Forall (fun l => (2 <= length l)%nat) ls -> Forall (fun l => NoDup l) ls ->
  (length (concat (map loop_steps ls)) <= fuel)%nat -> chains fuel (concat (map loop_steps ls)) = Ok (ls, []).
Proof.
  induction ls as [|l ls IH]; intros fuel F N L.
  - destruct fuel; reflexivity.
  - inversion F as [|? ? F1 F2]; subst. inversion N as [|? ? N1 N2]; subst. cbn [map concat] in *.
    destruct l as [|a [|b l]]; cbn in F1; try lia.
    change (loop_steps (a :: b :: l)) with ((a, b) :: steps (b :: l ++ [a])) in *.
    cbn [app length] in L |- *. destruct fuel as [|fuel]; [lia|]. cbn [chains].
    pose proof (grow_loop l (S (length (steps (b :: l ++ [a]) ++ concat (map loop_steps ls)))) [a; b] (concat (map loop_steps ls))) as G.
    cbn [first_pt last_pt hd last app] in G. rewrite app_length, steps_length in G. cbn [length] in G. rewrite app_length in G. cbn [length] in G.
    rewrite app_length, steps_length. cbn [length]. rewrite app_length. cbn [length].
    rewrite G; [|lia|discriminate|].
    2:{ intros x I ->. inversion N1; subst. apply H1. now right. }
    cbn [bind]. rewrite IH; auto. rewrite app_length in L. lia.
Qed.
Lemma zrange_sorted : forall n a, StronglySorted Z.lt (zrange a (a + Z.of_nat n)).
Proof.
  induction n as [|n IH]; intros a.
  - unfold zrange. replace (Z.to_nat (a + Z.of_nat 0 - a)) with 0%nat by lia. constructor.
  - rewrite zrange_S. constructor; auto. apply Forall_forall. intros x I. unfold zrange in I.
    apply in_map_iff in I. destruct I as (k & <- & _). lia.
Qed.
Lemma seq_plus : forall n a, seq a n = map (plus a) (seq 0 n).
Proof.
  induction n as [|n IH]; intros a; auto. cbn [seq map]. f_equal; [lia|].
  rewrite (IH (S a)), (IH 1%nat), map_map. apply map_ext. intros. lia.
Qed.
Lemma canon_concat : forall bounds s, concat (canon s bounds) = zrange s (s + Z.of_nat (length (concat bounds))).
Proof.
  induction bounds as [|b bounds IH]; intros s; cbn [canon concat].
  - unfold zrange. replace (Z.to_nat (s + Z.of_nat (length (@nil Z)) - s)) with 0%nat by (cbn; lia). reflexivity.
  - rewrite IH. unfold zrange. rewrite app_length.
    replace (Z.to_nat (s + Z.of_nat (length b + length (concat bounds)) - s)) with (length b + length (concat bounds))%nat by lia.
    replace (Z.to_nat (s + Z.of_nat (length b) - s)) with (length b) by lia.
    replace (Z.to_nat (s + Z.of_nat (length b) + Z.of_nat (length (concat bounds)) - (s + Z.of_nat (length b)))) with (length (concat bounds)) by lia.
    rewrite seq_app, map_app. f_equal. cbn [plus].
    rewrite (seq_plus _ (length b)), map_map. apply map_ext. intros. lia.
Qed.
Lemma sorted_nodup : forall l, StronglySorted Z.lt l -> NoDup l.
Proof.
  induction 1 as [|a l S IH F]; constructor; auto. intros I. rewrite Forall_forall in F. apply F in I. lia.
Qed.
Lemma order_canon : forall bounds, Forall (fun l => (2 <= length l)%nat) bounds ->
  order_segments (concat (map loop_steps (canon 0 bounds))) = Ok (canon 0 bounds, []).
Proof.
  intros bounds F. unfold order_segments.
  assert (FS : map fst (concat (map loop_steps (canon 0 bounds))) = concat (canon 0 bounds)).
  { generalize (canon 0 bounds) as ls. induction ls as [|l ls IH]; [reflexivity|]. cbn [map concat]. rewrite map_app.
    apply f_equal2; [apply fst_loop|exact IH]. }
  rewrite sort_sorted.
  2:{ pose proof (zrange_sorted (length (concat bounds)) 0) as Z0. rewrite <- canon_concat in Z0.
      refine (eq_ind _ (fun l => StronglySorted Z.lt l) Z0 _ _). symmetry. exact FS. }
  apply chains_loops; auto.
  - clear FS. generalize 0. induction F; intros s; cbn [canon]; constructor; auto. now rewrite zrange_length.
  - clear FS. generalize 0. induction bounds as [|b bounds IH]; intros s; cbn [canon]; constructor; auto.
    + apply sorted_nodup, zrange_sorted.
    + apply IH. now inversion F.
Qed.
Lemma running_canon : forall bounds s i, running i (canon s bounds) = running i bounds.
Proof. induction bounds; intros; cbn [canon running]; auto. rewrite zrange_length. f_equal. apply IHbounds. Qed.
Lemma canon_length : forall bounds s, length (canon s bounds) = length bounds.
Proof. induction bounds; intros; cbn; auto. Qed.

Lemma write_canon : forall n bounds, (length (concat bounds) <= n)%nat ->
  write_order n (canon 0 bounds) = map Z.of_nat (seq 0 n).
Proof.
  intros n bounds L. unfold write_order. rewrite canon_concat.
  set (m := length (concat bounds)) in *. unfold zrange. replace (Z.to_nat (0 + Z.of_nat m - 0)) with m by lia.
  rewrite (map_ext (fun k => 0 + Z.of_nat k) Z.of_nat) by (intros; lia).
  rewrite filter_map_Z, <- map_app. f_equal.
  replace n with (m + (n - m))%nat by lia. rewrite seq_app. f_equal.
  rewrite filter_app.
  assert (E : forall k, existsb (Z.eqb (Z.of_nat k)) (map Z.of_nat (seq 0 m)) = (k <? m)%nat).
  { intros k. destruct (Nat.ltb_spec k m).
    - apply existsb_exists. exists (Z.of_nat k). split; [apply in_map, in_seq; lia|apply Z.eqb_refl].
    - apply not_true_is_false. intros C. apply existsb_exists in C. destruct C as (y & I & Q).
      apply Z.eqb_eq in Q. apply in_map_iff in I. destruct I as (j & <- & I). apply in_seq in I. lia. }
  assert (A : forall l, (forall x, In x l -> (x < m)%nat) -> filter (fun k => negb (existsb (Z.eqb (Z.of_nat k)) (map Z.of_nat (seq 0 m)))) l = []).
  { induction l as [|x l IH]; intros H; auto. cbn [filter]. rewrite E. destruct (Nat.ltb_spec x m); [|specialize (H x); cbn in H; lia].
    cbn. apply IH. intros y I. apply H. now right. }
  assert (B : forall l, (forall x, In x l -> (m <= x)%nat) -> filter (fun k => negb (existsb (Z.eqb (Z.of_nat k)) (map Z.of_nat (seq 0 m)))) l = l).
  { induction l as [|x l IH]; intros H; auto. cbn [filter]. rewrite E. destruct (Nat.ltb_spec x m); [specialize (H x); cbn in H; lia|].
    cbn. f_equal. apply IH. intros y I. apply H. now right. }
  rewrite A, B; auto; intros x I; apply in_seq in I; lia.
Qed.

(** Numbers printed again. *)
Definition keeps_sign (d : nat) (q : Q) : Prop := (q < 0)%Q -> rne (q * inject_Z (10 ^ Z.of_nat d)) < 0.
Lemma print_again : forall w d q r, (r == read_back d q)%Q -> keeps_sign d q -> fmt_fixed w d r = fmt_fixed w d q.
Proof.
  intros w d q r E K. unfold fmt_fixed.
  pose proof (pow10_pos d) as P. set (p := inject_Z (10 ^ Z.of_nat d)) in *.
  assert (R : rne (r * p) = rne (q * p)).
  { rewrite <- (rne_Z (rne (q * p))). apply rne_compat. rewrite E. unfold read_back. fold p. field. lra. }
  rewrite R. f_equal. f_equal. unfold keeps_sign in K. fold p in K.
  assert (RP : (r * p == inject_Z (rne (q * p)))%Q) by (rewrite E; unfold read_back; fold p; field; lra).
  destruct (Qlt_le_dec q 0) as [Hq|Hq], (Qlt_le_dec r 0) as [Hr|Hr]; auto.
  - exfalso. specialize (K Hq). assert (inject_Z (rne (q * p)) < 0)%Q by (change 0%Q with (inject_Z 0); now rewrite <- Zlt_Qlt).
    assert (0 <= r * p)%Q by (apply Qmult_le_0_compat; lra). lra.
  - exfalso. assert (0 <= rne (q * p)) by (apply rne_pos, Qmult_le_0_compat; lra).
    assert (0 <= inject_Z (rne (q * p)))%Q by (change 0%Q with (inject_Z 0); now rewrite <- Zle_Qle).
    assert (r * p < 0 * p)%Q by (apply Qmult_lt_compat_r; auto). lra.
Qed.
