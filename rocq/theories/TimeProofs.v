From Verif Require Import Common CommonProofs TimeModel TimeSpec.
From Coq Require Import Lqa Permutation.
Open Scope Z_scope.

(** ** Lists *)
Lemma list_eqbZ_iff a b : list_eqbZ a b = true <-> a = b.
Proof.
  revert b; induction a as [|x a IH]; intros [|y b]; simpl; split; intros H; auto; try discriminate.
  - apply andb_true_iff in H as [H1 H2]. apply Z.eqb_eq in H1. apply IH in H2. congruence.
  - injection H as -> ->. apply andb_true_iff. split; [apply Z.eqb_refl | apply IH; auto].
Qed.

Lemma SI_cons x l : StrictlyIncreasing (x :: l) <->
  (forall i y, nth_error l i = Some y -> x < y) /\ StrictlyIncreasing l.
Proof.
  split.
  - intros H. split.
    + intros i y Hy. apply (H 0%nat (S i) x y); auto. lia.
    + intros i j a b Hij Ha Hb. apply (H (S i) (S j) a b); auto. lia.
  - intros [H1 H2] i j a b Hij Ha Hb.
    destruct i as [|i], j as [|j]; simpl in *; try lia.
    + injection Ha as <-. eauto.
    + apply (H2 i j); auto. lia.
Qed.

Lemma SI_nil : StrictlyIncreasing [].
Proof. intros i j x y _ H. destruct i; discriminate. Qed.

Lemma SI_cons2 x y l : StrictlyIncreasing (x :: y :: l) <-> x < y /\ StrictlyIncreasing (y :: l).
Proof.
  rewrite SI_cons. split; intros [H1 H2]; split; auto.
  - apply (H1 0%nat y); auto.
  - intros i z Hz. destruct i; simpl in Hz; [injection Hz as <-; auto|].
    apply SI_cons in H2 as [H2 _]. specialize (H2 i z Hz). lia.
Qed.

(** ** Sorting *)
Inductive Sorted_le : list Z -> Prop :=
| sl_nil : Sorted_le []
| sl_one x : Sorted_le [x]
| sl_cons x y l : x <= y -> Sorted_le (y :: l) -> Sorted_le (x :: y :: l).

Lemma insertZ_head x l : exists h t, insertZ x l = h :: t /\ (h = x \/ exists l', l = h :: l').
Proof.
  destruct l as [|y r]; simpl; [exists x, []; auto|].
  destruct (x <=? y); eexists _, _; split; eauto.
Qed.

Lemma insertZ_sorted x l : Sorted_le l -> Sorted_le (insertZ x l).
Proof.
  induction 1 as [|y|y z l Hyz Hs IH]; simpl.
  - constructor.
  - destruct (Z.leb_spec x y); constructor; try lia; constructor.
  - destruct (Z.leb_spec x y).
    + constructor; [lia|]. constructor; auto.
    + simpl in IH. destruct (Z.leb_spec x z).
      * constructor; [lia|]. exact IH.
      * constructor; [lia|]. exact IH.
Qed.

Lemma sortZ_sorted l : Sorted_le (sortZ l).
Proof. induction l; simpl; [constructor | apply insertZ_sorted; auto]. Qed.

Lemma sortZ_id l : Sorted_le l -> sortZ l = l.
Proof.
  induction 1 as [|y|y z l Hyz Hs IH]; auto.
  change (insertZ y (sortZ (z :: l)) = y :: z :: l).
  rewrite IH. simpl. destruct (Z.leb_spec y z); [auto|lia].
Qed.

Lemma ascending_iff l : timeseries_is_ascending l = true <-> Sorted_le l.
Proof.
  unfold timeseries_is_ascending. rewrite list_eqbZ_iff. split; intros H.
  - rewrite <- H. apply sortZ_sorted.
  - apply sortZ_id; auto.
Qed.

Lemma dedup_length l : (length (dedup_sorted l) <= length l)%nat.
Proof.
  induction l as [|x [|y l] IH]; simpl; auto.
  simpl in IH. destruct (x =? y); simpl in *; lia.
Qed.

Lemma SI_sorted l : StrictlyIncreasing l -> Sorted_le l.
Proof.
  induction l as [|x [|y l] IH]; intros H; try constructor.
  - apply SI_cons2 in H. lia.
  - apply IH. apply SI_cons2 in H. tauto.
Qed.

Lemma sorted_dedup_SI l : Sorted_le l ->
  (StrictlyIncreasing l <-> length (dedup_sorted l) = length l).
Proof.
  induction 1 as [|y|y z l Hyz Hs IH].
  - split; auto. intros; apply SI_nil.
  - split; auto. intros _. apply SI_cons. split; [intros [|] ? ?; discriminate | apply SI_nil].
  - rewrite SI_cons2.
    change (dedup_sorted (y :: z :: l)) with
      (if y =? z then dedup_sorted (z :: l) else y :: dedup_sorted (z :: l)).
    destruct (Z.eqb_spec y z) as [->|Hne].
    + pose proof (dedup_length (z :: l)). split; intros; [lia|]. simpl in *. lia.
    + cbn [length] in *. split; intros H.
      * destruct H as [_ H]. apply IH in H. lia.
      * split; [lia|]. apply IH. lia.
Qed.

Lemma checks_iff l :
  (timeseries_is_ascending l = true /\ has_duplicates l = false) <-> StrictlyIncreasing l.
Proof.
  rewrite ascending_iff. unfold has_duplicates, uniqueZ. split.
  - intros [Hs Hd]. rewrite (sortZ_id _ Hs) in Hd.
    apply sorted_dedup_SI; auto.
    apply andb_false_iff in Hd as [Hd|Hd]; apply negb_false_iff in Hd; apply Nat.eqb_eq in Hd; auto.
    destruct l as [|x [|y l]]; simpl in *; auto; lia.
  - intros H. pose proof (SI_sorted _ H) as Hs. split; auto.
    rewrite (sortZ_id _ Hs). apply sorted_dedup_SI in H; auto.
    rewrite H, Nat.eqb_refl. reflexivity.
Qed.

(** ** Shifts *)
Lemma shift_shift a b l : shift a (shift b l) = shift (b + a) l.
Proof. unfold shift. rewrite map_map. apply map_ext. intros; lia. Qed.
Lemma shift_0 l : shift 0 l = l.
Proof. unfold shift. rewrite <- (map_id l) at 2. apply map_ext. intros; lia. Qed.
Lemma shift_len k l : length (shift k l) = length l.
Proof. apply map_length. Qed.
Lemma nth_shift k l i : nth_error (shift k l) i = option_map (fun x => x + k) (nth_error l i).
Proof. unfold shift. revert i; induction l as [|x l IH]; intros [|i]; simpl; auto. Qed.
Lemma shift_moved k l : MovedBy k l (shift k l).
Proof. split; [apply shift_len|]. intros i x H. rewrite nth_shift, H. reflexivity. Qed.

Lemma SI_shift k l : StrictlyIncreasing (shift k l) <-> StrictlyIncreasing l.
Proof.
  split; intros H i j x y Hij Hx Hy.
  - assert (x + k < y + k); [|lia].
    apply (H i j); auto; rewrite nth_shift; [rewrite Hx | rewrite Hy]; reflexivity.
  - rewrite nth_shift in Hx, Hy.
    destruct (nth_error l i) as [x'|] eqn:Ex; [|discriminate].
    destruct (nth_error l j) as [y'|] eqn:Ey; [|discriminate].
    simpl in *. injection Hx as <-. injection Hy as <-.
    specialize (H i j x' y' Hij Ex Ey). lia.
Qed.

(** ** C01 *)
Definition checked (t : time_obj) : result time_obj :=
  if negb (timeseries_is_ascending (t_data t)) then Err TimeSeriesError
  else if has_duplicates (t_data t) then Err TimeSeriesError else Ok t.

Lemma checked_ok t : StrictlyIncreasing (t_data t) -> checked t = Ok t.
Proof. intros H. apply checks_iff in H as [H1 H2]. unfold checked. rewrite H1, H2. auto. Qed.
Lemma checked_err t : ~ StrictlyIncreasing (t_data t) -> checked t = Err TimeSeriesError.
Proof.
  intros H. unfold checked.
  destruct (timeseries_is_ascending (t_data t)) eqn:E1; simpl; auto.
  destruct (has_duplicates (t_data t)) eqn:E2; auto.
  exfalso. apply H. apply checks_iff. auto.
Qed.

Lemma time_init_eq data tz ntz origin disp :
  (origin <> None -> data <> []) -> (ntz <> None -> tz <> None) ->
  time_init data tz ntz origin disp =
  checked (mkTime (shift (requested_move data tz ntz origin disp) data)
                  (match ntz with Some n => Some n | None => tz end) disp).
Proof.
  intros Ho Hn. unfold time_init, requested_move.
  assert (Ho' : forall d, (match origin with
           | None => Ok data
           | Some o => match data with
                       | [] => Err IndexError
                       | first :: _ => Ok (shift (- (first - o)) data)
                       end
           end) = Ok d -> d = shift (match origin, data with Some o, first :: _ => o - first | _, _ => 0 end) data).
  { intros d. destruct origin as [o|]; [destruct data as [|f r]|]; intros H; try discriminate; injection H as <-.
    - replace (o - f) with (- (f - o)) by lia. reflexivity.
    - rewrite shift_0. destruct data; reflexivity. }
  assert (exists d, (match origin with
           | None => Ok data
           | Some o => match data with
                       | [] => Err IndexError
                       | first :: _ => Ok (shift (- (first - o)) data)
                       end
           end) = Ok d) as [d Hd].
  { destruct origin; [destruct data; [exfalso; apply Ho; congruence|]|]; eauto. }
  rewrite Hd. apply Ho' in Hd. subst d. clear Ho'. simpl bind.
  set (k := match origin, data with Some o, first :: _ => o - first | _, _ => 0 end) in *.
  destruct ntz as [n|].
  - destruct tz as [o|]; [|exfalso; apply Hn; congruence].
    cbn [t_tz bind set_tz t_data t_disp]. rewrite !shift_shift.
    destruct disp as [x|]; cbn [set_disp t_disp t_data bind t_tz];
      rewrite ?shift_shift; unfold checked; cbn [t_data t_tz t_disp].
    + replace (k + (- o + n) + x) with (k + (n - o) + x) by lia. reflexivity.
    + replace (k + (- o + n)) with (k + (n - o) + 0) by lia. reflexivity.
  - cbn [bind]. replace (match tz with Some _ | None => 0 end) with 0 by (destruct tz; auto).
    destruct disp as [x|]; cbn [set_disp t_disp t_data bind t_tz];
      rewrite ?shift_shift; unfold checked; cbn [t_data t_tz t_disp].
    + replace (k + 0 + x) with (k + x) by lia. reflexivity.
    + replace (k + 0 + 0) with k by lia. reflexivity.
Qed.

Lemma time_init_accept data tz ntz origin disp :
  (origin <> None -> data <> []) -> (ntz <> None -> tz <> None) ->
  (StrictlyIncreasing data ->
   exists t, time_init data tz ntz origin disp = Ok t /\
     MovedBy (requested_move data tz ntz origin disp) data (t_data t) /\
     t_tz t = (match ntz with Some n => Some n | None => tz end) /\
     t_disp t = disp) /\
  (~ StrictlyIncreasing data ->
   time_init data tz ntz origin disp = Err TimeSeriesError).
Proof.
  intros Ho Hn. rewrite (time_init_eq _ _ _ _ _ Ho Hn). split; intros H.
  - eexists. split; [apply checked_ok; simpl; apply SI_shift; auto|].
    simpl. auto using shift_moved.
  - apply checked_err. simpl. rewrite SI_shift. exact H.
Qed.

Lemma time_init_bad_args data tz ntz origin disp :
  (origin <> None -> data = [] -> time_init data tz ntz origin disp = Err IndexError) /\
  ((origin <> None -> data <> []) -> ntz <> None -> tz = None ->
   time_init data tz ntz origin disp = Err ValueError).
Proof.
  unfold time_init. split.
  - intros Ho ->. destruct origin; [reflexivity|congruence].
  - intros Ho Hn ->. destruct ntz as [n|]; [|congruence].
    destruct origin as [o|]; [|reflexivity].
    destruct data; [exfalso; apply Ho; congruence|reflexivity].
Qed.

Lemma set_tz_SI t o : StrictlyIncreasing (t_data t) -> StrictlyIncreasing (t_data (set_tz t o)).
Proof.
  unfold set_tz. destruct (t_tz t), o; simpl; auto. intros. rewrite shift_shift. apply SI_shift; auto.
Qed.
Lemma set_disp_SI t d : StrictlyIncreasing (t_data t) -> StrictlyIncreasing (t_data (fst (set_disp t d))).
Proof.
  unfold set_disp. destruct (t_disp t), d; simpl; auto. intros. apply SI_shift; auto.
Qed.
Lemma run_ops_SI h : forall t, StrictlyIncreasing (t_data t) -> StrictlyIncreasing (t_data (run_ops t h)).
Proof.
  induction h as [|o h IH]; intros t H; auto. simpl. apply IH.
  destruct o; [apply set_tz_SI | apply set_disp_SI]; auto.
Qed.

Lemma time_init_SI data tz ntz origin disp t :
  time_init data tz ntz origin disp = Ok t -> StrictlyIncreasing (t_data t).
Proof.
  unfold time_init. intros H.
  apply bind_ok in H as (d1 & _ & H). apply bind_ok in H as (t2 & _ & H).
  apply bind_ok in H as (t3 & _ & H).
  destruct (timeseries_is_ascending (t_data t3)) eqn:E1; [|discriminate].
  destruct (has_duplicates (t_data t3)) eqn:E2; [discriminate|].
  injection H as <-. apply checks_iff. auto.
Qed.

(** ** C02-C04 *)
Lemma SI_splits l q : StrictlyIncreasing l -> splits (fun x => x <? q) l.
Proof.
  intros H i j x y Hij Hx Hy Hp. apply Z.ltb_lt in Hp. apply Z.ltb_lt.
  specialize (H i j x y Hij Hx Hy). lia.
Qed.

Lemma searchsorted_earlier l q : StrictlyIncreasing l ->
  EarlierCount l q (searchsorted (fun x => x <? q) l).
Proof.
  intros H. destruct (searchsorted_spec _ _ (SI_splits l q H)) as (H1 & H2 & H3).
  split; [exact H1|]. split; intros i x Hi Hx.
  - apply Z.ltb_lt. eauto.
  - apply Z.ltb_ge. eauto.
Qed.

Lemma EarlierCount_unique l q n m : EarlierCount l q n -> EarlierCount l q m -> n = m.
Proof.
  intros (A1 & A2 & A3) (B1 & B2 & B3).
  apply (split_point_unique (fun x => x <? q) l); (split; [auto|split]); intros i x Hi Hx;
    try (apply Z.ltb_lt; eauto); try (apply Z.ltb_ge; eauto).
Qed.

Lemma list_last_split {A} (l : list A) : l <> [] -> exists l' x, l = l' ++ [x].
Proof. intros H. destruct (exists_last H) as (l' & x & ->). eauto. Qed.

Lemma max_time_last t b : nth_error (t_data t) (length (t_data t) - 1) = Some b -> max_time t = Ok b.
Proof.
  unfold max_time. intros H.
  destruct (list_last_split (t_data t)) as (l & x & E).
  { intros E. rewrite E in H. discriminate. }
  rewrite E in *. rewrite app_length in H. simpl in H.
  replace (length l + 1 - 1)%nat with (length l) in H by lia.
  rewrite nth_error_app2, Nat.sub_diag in H by lia. injection H as <-.
  apply py_get_last.
Qed.
Lemma min_time_first t a : nth_error (t_data t) 0 = Some a -> min_time t = Ok a.
Proof. intros H. unfold min_time. change 0 with (Z.of_nat 0). apply py_get_nat; auto. Qed.

Lemma nonempty_ends (l : list Z) : l <> [] ->
  exists a b, nth_error l 0 = Some a /\ nth_error l (length l - 1) = Some b.
Proof.
  intros H. destruct l as [|x l]; [congruence|].
  destruct (nth_error_lt_Some (x :: l) (length (x :: l) - 1)) as [b Hb]; [simpl; lia|].
  exists x, b. split; auto.
Qed.

Lemma valid_time_ok t q : InRange (t_data t) q -> valid_time t q = Ok tt.
Proof.
  intros (a & b & Ha & Hb & Hq). unfold valid_time, time_in_bounds.
  rewrite (min_time_first _ _ Ha). simpl.
  destruct (Z.ltb_spec q a); [lia|].
  rewrite (max_time_last _ _ Hb). simpl.
  rewrite Z.gtb_ltb. destruct (Z.ltb_spec b q); [lia|]. reflexivity.
Qed.
Lemma valid_time_err t q : t_data t <> [] -> ~ InRange (t_data t) q ->
  valid_time t q = Err OutOfTimeRangeError.
Proof.
  intros Hne Hq. destruct (nonempty_ends _ Hne) as (a & b & Ha & Hb).
  unfold valid_time, time_in_bounds. rewrite (min_time_first _ _ Ha). simpl.
  destruct (Z.ltb_spec q a); [reflexivity|].
  rewrite (max_time_last _ _ Hb). simpl.
  rewrite Z.gtb_ltb. destruct (Z.ltb_spec b q); [reflexivity|].
  exfalso. apply Hq. exists a, b. auto.
Qed.

Lemma index_of_single t q ex : length (t_data t) = 1%nat -> index_of t q ex = Ok O.
Proof. intros H. unfold index_of. rewrite H, orb_true_r. reflexivity. Qed.

Lemma index_of_ok t q ex : StrictlyIncreasing (t_data t) -> length (t_data t) <> 1%nat ->
  (ex = true \/ InRange (t_data t) q) ->
  exists i, index_of t q ex = Ok i /\ EarlierCount (t_data t) q i.
Proof.
  intros Hs Hn Hr. unfold index_of.
  apply Nat.eqb_neq in Hn. rewrite Hn, orb_false_r.
  exists (searchsorted (fun x => x <? q) (t_data t)). split; [|apply searchsorted_earlier; auto].
  destruct ex; simpl; auto.
  destruct Hr as [Hr|Hr]; [discriminate|]. rewrite (valid_time_ok _ _ Hr). reflexivity.
Qed.

Lemma index_of_err t q : length (t_data t) <> 1%nat -> t_data t <> [] ->
  ~ InRange (t_data t) q -> index_of t q false = Err OutOfTimeRangeError.
Proof.
  intros Hn Hne Hr. unfold index_of. apply Nat.eqb_neq in Hn. rewrite Hn. simpl.
  rewrite valid_time_err; auto.
Qed.

Lemma inject_Z_pos z : 0 < z -> (0 < inject_Z z)%Q.
Proof. intros H. unfold Qlt, inject_Z; simpl. lia. Qed.

Lemma interp_alpha_single t q ex : length (t_data t) = 1%nat -> interp_alpha t q ex = Ok 0%Q.
Proof.
  intros H. unfold interp_alpha. rewrite (index_of_single _ _ _ H), H, andb_false_r. reflexivity.
Qed.

Lemma interp_alpha_inner t q ex i : StrictlyIncreasing (t_data t) -> length (t_data t) <> 1%nat ->
  (ex = true \/ InRange (t_data t) q) -> EarlierCount (t_data t) q i ->
  (i = length (t_data t) -> interp_alpha t q ex = Ok 1%Q) /\
  (i = O -> t_data t <> [] -> interp_alpha t q ex = Ok 0%Q) /\
  (forall t0 t1, nth_error (t_data t) (i - 1) = Some t0 -> nth_error (t_data t) i = Some t1 ->
     (0 < i)%nat -> interp_alpha t q ex = Ok (inject_Z (q - t0) / inject_Z (t1 - t0))%Q).
Proof.
  intros Hs Hn Hr Hc.
  destruct (index_of_ok t q ex Hs Hn Hr) as (i' & Hi & Hc').
  assert (i' = i) by (eapply EarlierCount_unique; eauto). subst i'.
  assert (Hv : (if negb ex && negb (Nat.eqb (length (t_data t)) 1) then valid_time t q else Ok tt) = Ok tt).
  { destruct ex; simpl; auto. destruct Hr as [?|Hr]; [discriminate|].
    rewrite (valid_time_ok _ _ Hr). destruct (Nat.eqb _ _); auto. }
  unfold interp_alpha. rewrite Hv, Hi. cbn [bind]. rewrite Z.gtb_ltb.
  split; [|split].
  - intros ->. destruct (Z.ltb_spec (Z.of_nat (length (t_data t)) - 1) (Z.of_nat (length (t_data t)))); [auto|lia].
  - intros -> Hne. destruct (t_data t) as [|z l] eqn:E; [congruence|].
    destruct (Z.ltb_spec (Z.of_nat (length (z :: l)) - 1) (Z.of_nat 0)); [cbn [length] in *; lia|]. reflexivity.
  - intros t0 t1 H0 H1 Hpos. pose proof (nth_error_Some_lt _ _ _ H1).
    destruct (Z.ltb_spec (Z.of_nat (length (t_data t)) - 1) (Z.of_nat i)); [lia|].
    destruct (Nat.eqb_spec i 0); [lia|].
    replace (Z.of_nat i - 1) with (Z.of_nat (i - 1)) by lia.
    rewrite (py_get_nat _ _ _ H0), (py_get_nat _ _ _ H1). reflexivity.
Qed.

Lemma Qdiv_bounds a b : 0 <= a <= b -> 0 < b ->
  (0 <= inject_Z a / inject_Z b <= 1)%Q.
Proof.
  intros Ha Hb. split.
  - apply Qle_shift_div_l; [apply inject_Z_pos; auto|].
    unfold Qle, inject_Z; simpl; lia.
  - apply Qle_shift_div_r; [apply inject_Z_pos; auto|].
    rewrite Qmult_1_l. rewrite <- Zle_Qle. lia.
Qed.

(** In range with more than one entry. *)
Lemma in_range_cases t q i : StrictlyIncreasing (t_data t) -> InRange (t_data t) q ->
  EarlierCount (t_data t) q i ->
  (i = O /\ nth_error (t_data t) 0 = Some q) \/
  (exists k t0 t1, i = S k /\ nth_error (t_data t) k = Some t0 /\
      nth_error (t_data t) (S k) = Some t1 /\ t0 < q <= t1).
Proof.
  intros Hs (a & b & Ha & Hb & Hq) (H1 & H2 & H3).
  destruct i as [|k].
  - left. split; auto. specialize (H3 0%nat a ltac:(lia) Ha). replace q with a by lia. auto.
  - right. destruct (nth_error_lt_Some (t_data t) k) as [t0 H0]; [lia|].
    assert (S k <> length (t_data t)).
    { intros E. specialize (H2 (length (t_data t) - 1)%nat b ltac:(lia) Hb). lia. }
    destruct (nth_error_lt_Some (t_data t) (S k)) as [t1 Ht1]; [lia|].
    exists k, t0, t1. repeat split; auto.
    + apply (H2 k); auto.
    + apply (H3 (S k)); auto.
Qed.

Lemma interp_alpha_bracket t q ex : StrictlyIncreasing (t_data t) -> length (t_data t) <> 1%nat ->
  InRange (t_data t) q ->
  exists i alpha, index_of t q ex = Ok i /\ interp_alpha t q ex = Ok alpha /\
    (0 <= alpha <= 1)%Q /\
    ((i = O /\ nth_error (t_data t) 0 = Some q /\ alpha = 0%Q) \/
     exists k t0 t1, i = S k /\ nth_error (t_data t) k = Some t0 /\
       nth_error (t_data t) (S k) = Some t1 /\ t0 < q <= t1 /\
       (inject_Z t0 + alpha * (inject_Z t1 - inject_Z t0) == inject_Z q)%Q /\
       (q = t1 -> (alpha == 1)%Q) /\ (0 < alpha)%Q).
Proof.
  intros Hs Hn Hr.
  destruct (index_of_ok t q ex Hs Hn (or_intror Hr)) as (i & Hi & Hc).
  destruct (interp_alpha_inner t q ex i Hs Hn (or_intror Hr) Hc) as (A1 & A2 & A3).
  destruct (in_range_cases t q i Hs Hr Hc) as [[-> Hq]|(k & t0 & t1 & -> & H0 & H1 & Hq)].
  - exists O, 0%Q. rewrite A2; auto; [|intros E; rewrite E in Hq; discriminate].
    repeat split; auto; try lra. 
  - specialize (A3 t0 t1). replace (S k - 1)%nat with k in A3 by lia.
    specialize (A3 H0 H1 ltac:(lia)).
    assert (Hp : (0 < inject_Z (t1 - t0))%Q) by (apply inject_Z_pos; lia).
    exists (S k), (inject_Z (q - t0) / inject_Z (t1 - t0))%Q.
    split; auto. split; auto. split; [apply Qdiv_bounds; lia|].
    right. exists k, t0, t1. repeat split; auto; try lia.
    + unfold Z.sub in *. rewrite !inject_Z_plus, !inject_Z_opp in *. field. lra.
    + intros ->. field. lra.
    + apply Qlt_shift_div_l; auto. rewrite Qmult_0_l. apply inject_Z_pos; lia.
Qed.

Lemma position_mono t q1 q2 i1 i2 a1 a2 : StrictlyIncreasing (t_data t) ->
  length (t_data t) <> 1%nat -> InRange (t_data t) q1 -> InRange (t_data t) q2 -> q1 < q2 ->
  index_of t q1 false = Ok i1 -> interp_alpha t q1 false = Ok a1 ->
  index_of t q2 false = Ok i2 -> interp_alpha t q2 false = Ok a2 ->
  (position i1 a1 < position i2 a2)%Q.
Proof.
  intros Hs Hn R1 R2 Hlt I1 A1 I2 A2.
  destruct (interp_alpha_bracket t q1 false Hs Hn R1) as (j1 & b1 & J1 & B1 & C1 & D1).
  destruct (interp_alpha_bracket t q2 false Hs Hn R2) as (j2 & b2 & J2 & B2 & C2 & D2).
  rewrite J1 in I1; injection I1 as ->. rewrite B1 in A1; injection A1 as ->.
  rewrite J2 in I2; injection I2 as ->. rewrite B2 in A2; injection A2 as ->.
  destruct D1 as [(-> & E1 & ->)|(k1 & s0 & s1 & -> & S0 & S1 & Q1 & F1 & G1 & P1)];
  destruct D2 as [(-> & E2 & ->)|(k2 & u0 & u1 & -> & U0 & U1 & Q2 & F2 & G2 & P2)]; unfold position.
  - rewrite E1 in E2. injection E2 as ->. lia.
  - assert (0 <= inject_Z (Z.of_nat k2))%Q by (rewrite <- (Zle_Qle 0); lia). lra.
  - (* q2 is the first entry but q1 < q2 *)
    exfalso. destruct R1 as (a & b & Ha & _ & Hq). rewrite E2 in Ha. injection Ha as <-. lia.
  - destruct (Nat.lt_trichotomy k1 k2) as [Hk|[->|Hk]].
    + assert (inject_Z (Z.of_nat k1) + 1 <= inject_Z (Z.of_nat k2))%Q.
      { rewrite <- (inject_Z_plus _ 1). rewrite <- Zle_Qle. lia. }
      lra.
    + rewrite S0 in U0; injection U0 as <-. rewrite S1 in U1; injection U1 as <-.
      assert (Hpos : (0 < inject_Z s1 - inject_Z s0)%Q).
      { assert (inject_Z s0 < inject_Z s1)%Q by (rewrite <- Zlt_Qlt; lia). lra. }
      assert (inject_Z q1 < inject_Z q2)%Q by (rewrite <- Zlt_Qlt; lia).
      assert (a1 < a2)%Q; [|lra].
      apply Qnot_le_lt. intros Hle.
      assert (a2 * (inject_Z s1 - inject_Z s0) <= a1 * (inject_Z s1 - inject_Z s0))%Q.
      { apply Qmult_le_compat_r; lra. }
      lra.
    + exfalso. (* k2 < k1: u1 <= s0 *)
      assert (u1 <= s0).
      { destruct (Nat.eq_dec (S k2) k1) as [E|E].
        - subst k1. rewrite U1 in S0. injection S0 as ->. lia.
        - enough (u1 < s0) by lia. apply (Hs (S k2) k1); auto. lia. }
      lia.
Qed.

(** C04 *)
Lemma raise_iff t q ex : StrictlyIncreasing (t_data t) -> t_data t <> [] ->
  (index_of t q ex = Err OutOfTimeRangeError <->
     ex = false /\ length (t_data t) <> 1%nat /\ ~ InRange (t_data t) q) /\
  (interp_alpha t q ex = Err OutOfTimeRangeError <->
     ex = false /\ length (t_data t) <> 1%nat /\ ~ InRange (t_data t) q) /\
  (forall e, index_of t q ex = Err e \/ interp_alpha t q ex = Err e -> e = OutOfTimeRangeError).
Proof.
  intros Hs Hne.
  destruct (Nat.eq_dec (length (t_data t)) 1) as [H1|H1].
  - rewrite (index_of_single _ _ _ H1), (interp_alpha_single _ _ _ H1).
    repeat split; intros; try discriminate; try tauto.
    destruct H; discriminate.
  - destruct (nonempty_ends _ Hne) as (a & b & Ha & Hb).
    assert (Hdec : InRange (t_data t) q \/ ~ InRange (t_data t) q).
    { destruct (Z_le_dec a q); [destruct (Z_le_dec q b)|].
      - left. exists a, b. auto.
      - right. intros (a' & b' & Ha' & Hb' & ?). rewrite Hb in Hb'. injection Hb' as ->. lia.
      - right. intros (a' & b' & Ha' & Hb' & ?). rewrite Ha in Ha'. injection Ha' as ->. lia. }
    destruct ex; [|destruct Hdec as [Hr|Hr]].
    + destruct (index_of_ok t q true Hs H1 (or_introl eq_refl)) as (i & Hi & Hc).
      destruct (interp_alpha_inner t q true i Hs H1 (or_introl eq_refl) Hc) as (A1 & A2 & A3).
      assert (exists al, interp_alpha t q true = Ok al) as [al Hal].
      { destruct Hc as (Hc & _ & _).
        destruct i as [|k]; [eauto|].
        destruct (Nat.eq_dec (S k) (length (t_data t))); [eauto|].
        destruct (nth_error_lt_Some (t_data t) (S k - 1)) as [x Hx]; [lia|].
        destruct (nth_error_lt_Some (t_data t) (S k)) as [y Hy]; [lia|].
        eexists. apply (A3 x y); auto. lia. }
      rewrite Hi, Hal. repeat split; intros; try discriminate; try (exfalso; intuition congruence).
    + destruct (interp_alpha_bracket t q false Hs H1 Hr) as (i & al & Hi & Hal & _).
      rewrite Hi, Hal. repeat split; intros; try discriminate; try tauto.
      destruct H; discriminate.
    + rewrite index_of_err by auto.
      assert (interp_alpha t q false = Err OutOfTimeRangeError) as ->.
      { unfold interp_alpha. apply Nat.eqb_neq in H1. rewrite H1. simpl.
        rewrite valid_time_err; auto. }
      repeat split; auto. intros e [H|H]; congruence.
Qed.

Lemma extrapolate_outside t q a b : StrictlyIncreasing (t_data t) -> length (t_data t) <> 1%nat ->
  nth_error (t_data t) 0 = Some a -> nth_error (t_data t) (length (t_data t) - 1) = Some b ->
  (q < a -> index_of t q true = Ok O /\ interp_alpha t q true = Ok 0%Q) /\
  (b < q -> index_of t q true = Ok (length (t_data t)) /\ interp_alpha t q true = Ok 1%Q).
Proof.
  intros Hs H1 Ha Hb.
  destruct (index_of_ok t q true Hs H1 (or_introl eq_refl)) as (i & Hi & Hc).
  destruct (interp_alpha_inner t q true i Hs H1 (or_introl eq_refl) Hc) as (A1 & A2 & A3).
  assert (t_data t <> []) by (intros E; rewrite E in Ha; discriminate).
  destruct Hc as (C1 & C2 & C3). split; intros Hq.
  - assert (i = O). { destruct i as [|k]; auto. specialize (C2 0%nat a ltac:(lia) Ha). lia. }
    subst. auto.
  - assert (i = length (t_data t)).
    { destruct (Nat.eq_dec i (length (t_data t))); auto.
      specialize (C3 (length (t_data t) - 1)%nat b ltac:(lia) Hb). lia. }
    subst. auto.
Qed.

(** ** C05 *)
Lemma last_indep {A} (l : list A) x d d' : last (x :: l) d = last (x :: l) d'.
Proof. revert x; induction l as [|y l IH]; intros x; auto. apply (IH y). Qed.
Lemma last_cons_d {A} (l : list A) x d : last (x :: l) d = last l x.
Proof. destruct l as [|y l]; auto. change (last (y :: l) d = last (y :: l) x). apply last_indep. Qed.
Lemma last_In {A} (l : list A) x d : In (last (x :: l) d) (x :: l).
Proof. revert x; induction l as [|y l IH]; intros x; [left; auto|]. right. apply (IH y). Qed.

Lemma run_tz_shift h : forall t,
  run_tz t h = mkTime (shift (relabel_move (t_tz t) h) (t_data t)) (last h (t_tz t)) (t_disp t).
Proof.
  induction h as [|o h IH]; intros t.
  - simpl. rewrite shift_0. destruct t; auto.
  - unfold run_tz in *. cbn [fold_left]. rewrite IH.
    assert (Hl : last h (t_tz (set_tz t o)) = last (o :: h) (t_tz t)).
    { assert (Ho : t_tz (set_tz t o) = o) by (unfold set_tz; destruct (t_tz t), o; auto).
      rewrite Ho. symmetry. apply last_cons_d. }
    rewrite Hl. unfold set_tz. cbn [relabel_move].
    destruct (t_tz t) as [a|], o as [b|]; cbn [t_data t_tz t_disp]; f_equal; rewrite ?shift_shift; f_equal; lia.
Qed.

Lemma relabel_all_some o h : (forall x, In x h -> x <> None) ->
  forall n, last h (Some o) = Some n -> relabel_move (Some o) h = n - o.
Proof.
  revert o. induction h as [|x h IH]; intros o Hall n Hn.
  - simpl in *. injection Hn as <-. lia.
  - destruct x as [b|]; [|exfalso; apply (Hall None); simpl; auto].
    cbn [relabel_move]. destruct h as [|y h].
    + simpl in *. injection Hn as <-. lia.
    + rewrite (IH b) with (n := n); [lia| |].
      * intros x Hx. apply Hall. simpl in *; tauto.
      * rewrite last_cons_d in Hn. exact Hn.
Qed.

Lemma tz_instants t o h : t_tz t = Some o -> (forall x, In x h -> x <> None) ->
  exists n, t_tz (run_tz t h) = Some n /\ t_tz (run_tz t h) = last h (Some o) /\
    length (t_data (run_tz t h)) = length (t_data t) /\
    forall i x, nth_error (t_data t) i = Some x ->
      exists y, nth_error (t_data (run_tz t h)) i = Some y /\ y - n = x - o.
Proof.
  intros Ht Hall. rewrite run_tz_shift. cbn [t_tz t_data].
  assert (exists n, last h (Some o) = Some n) as [n Hn].
  { destruct (last h (Some o)) as [n|] eqn:E; [eauto|].
    destruct h as [|x h]; [discriminate|].
    exfalso. apply (Hall None); [|auto].
    rewrite <- E. apply last_In. }
  exists n. rewrite Ht. repeat split; auto.
  - apply shift_len.
  - intros i x Hx. rewrite nth_shift, Hx. eexists. split; [reflexivity|].
    rewrite (relabel_all_some o h Hall n Hn). lia.
Qed.

(** ** C06 *)
Lemma run_disp_set t x h : t_disp t = Some x ->
  run_disp t h = (t, map (fun _ => Some AttributeError) h).
Proof.
  intros Ht. induction h as [|d h IH]; auto.
  simpl. unfold set_disp at 1. rewrite Ht, IH. reflexivity.
Qed.

Fixpoint disp_errors (seen : bool) (h : list (option Z)) : list (option err) :=
  match h with
  | [] => []
  | d :: h' => (if seen then Some AttributeError else None)
               :: disp_errors (seen || match d with Some _ => true | None => false end) h'
  end.
Lemma disp_errors_true h : disp_errors true h = map (fun _ => Some AttributeError) h.
Proof. induction h; simpl; auto. rewrite IHh; auto. Qed.

Lemma run_disp_spec t h : t_disp t = None ->
  run_disp t h =
  (mkTime (shift (match first_some h with Some d => d | None => 0 end) (t_data t))
          (t_tz t) (first_some h), disp_errors false h).
Proof.
  revert t. induction h as [|d h IH]; intros t Ht.
  - simpl. rewrite shift_0. destruct t; simpl in *. subst. auto.
  - simpl. unfold set_disp. rewrite Ht. destruct d as [x|].
    + rewrite (run_disp_set _ x) by reflexivity. simpl. rewrite disp_errors_true. auto.
    + rewrite IH by reflexivity. reflexivity.
Qed.

Lemma disp_errors_iff h k d : nth_error h k = Some d ->
  (nth_error (disp_errors false h) k = Some (Some AttributeError) <->
     exists j x, (j < k)%nat /\ nth_error h j = Some (Some x)) /\
  (nth_error (disp_errors false h) k = Some None <->
     forall j, (j < k)%nat -> nth_error h j = Some None).
Proof.
  revert k d. induction h as [|e h IH]; intros k d Hk; [destruct k; discriminate|].
  destruct k as [|k]; simpl.
  - repeat split; intros; try discriminate; try lia; auto.
    destruct H as (j & x & Hj & _). lia.
  - destruct e as [x|]; simpl.
    + rewrite disp_errors_true. rewrite nth_error_map. simpl in Hk. rewrite Hk. simpl.
      repeat split; intros; try discriminate; auto.
      * exists 0%nat, x. split; [lia|auto].
      * exfalso. specialize (H 0%nat ltac:(lia)). discriminate.
    + simpl in Hk. destruct (IH k d Hk) as [I1 I2]. rewrite I1, I2. split; split.
      * intros (j & x & Hj & Hx). exists (S j), x. split; [lia|auto].
      * intros (j & x & Hj & Hx). destruct j as [|j]; [discriminate|].
        exists j, x. split; [lia|auto].
      * intros H j Hj. destruct j as [|j]; auto. simpl. apply H. lia.
      * intros H j Hj. apply (H (S j)). lia.
Qed.

(** ** C08 *)
Lemma tz_eqb_iff a b : tz_eqb a b = true <-> a = b.
Proof.
  destruct a as [a|], b as [b|]; simpl; split; intros H; auto; try discriminate.
  - apply Z.eqb_eq in H; congruence.
  - injection H as ->. apply Z.eqb_refl.
Qed.
Lemma time_eqb_iff a b : time_eqb a b = true <-> t_data a = t_data b /\ t_tz a = t_tz b.
Proof. unfold time_eqb. rewrite andb_true_iff, list_eqbZ_iff, tz_eqb_iff. reflexivity. Qed.
Lemma time_eqb_queries a b q ex : time_eqb a b = true ->
  index_of a q ex = index_of b q ex /\ interp_alpha a q ex = interp_alpha b q ex /\
  time_in_bounds a q = time_in_bounds b q.
Proof.
  intros H. apply time_eqb_iff in H as [Hd _].
  unfold interp_alpha, index_of, valid_time, time_in_bounds, min_time, max_time.
  rewrite Hd. auto.
Qed.
