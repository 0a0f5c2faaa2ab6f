(** Lemmas for the depth properties. *)
From Coq Require Import String Lqa.
From Verif Require Import Common CommonProofs VariableModel DepthModel DepthSpec.
Open Scope Z_scope.

(** ** mapM *)
Lemma mapM_rows {A B} (f : A -> result B) (R : A -> B -> Prop) :
  (forall x, exists y, f x = Ok y /\ R x y) -> forall l,
  exists ys, mapM f l = Ok ys /\ length ys = length l /\
    forall k x, nth_error l k = Some x -> exists y, nth_error ys k = Some y /\ R x y.
Proof.
  intros H l. induction l as [|x l IH].
  - exists []. repeat split; auto. intros [|k] x; discriminate.
  - destruct (H x) as (y & E & HR). destruct IH as (ys & E' & Hl & K).
    exists (y :: ys). cbn [mapM]. rewrite E. cbn [bind]. rewrite E'. cbn [bind].
    split; [auto|]. split; [cbn [length]; lia|].
    intros [|k] z Hz; cbn [nth_error] in *; eauto. injection Hz as <-. eauto.
Qed.
Lemma mapM_rows_in {A B} (f : A -> result B) (R : A -> B -> Prop) : forall l,
  (forall x, In x l -> exists y, f x = Ok y /\ R x y) ->
  exists ys, mapM f l = Ok ys /\ length ys = length l /\
    forall k x, nth_error l k = Some x -> exists y, nth_error ys k = Some y /\ R x y.
Proof.
  intros l. induction l as [|x l IH]; intros H.
  - exists []. repeat split; auto. intros [|k] x; discriminate.
  - destruct (H x) as (y & E & HR); [left; auto|]. destruct IH as (ys & E' & Hl & K).
    { intros z Hz. apply H. right. auto. }
    exists (y :: ys). cbn [mapM]. rewrite E. cbn [bind]. rewrite E'. cbn [bind].
    split; [auto|]. split; [cbn [length]; lia|].
    intros [|k] z Hz; cbn [nth_error] in *; eauto. injection Hz as <-. eauto.
Qed.
Lemma mapM_ok {A B} (f : A -> result B) : forall l ys, mapM f l = Ok ys ->
  length ys = length l /\
  forall k x, nth_error l k = Some x -> exists y, nth_error ys k = Some y /\ f x = Ok y.
Proof.
  induction l as [|x l IH]; intros ys E; cbn [mapM] in E.
  - injection E as <-. split; auto. intros [|k] x; discriminate.
  - apply bind_ok in E as (y & E1 & E). apply bind_ok in E as (r & E2 & E). injection E as <-.
    destruct (IH _ E2) as (Hl & K). split; [cbn [length]; lia|].
    intros [|k] z Hz; cbn [nth_error] in *; eauto. injection Hz as <-. eauto.
Qed.
Lemma mapM_err {A B} (f : A -> result B) e : forall l,
  (forall x, In x l -> (exists y, f x = Ok y) \/ f x = Err e) ->
  (exists x, In x l /\ f x = Err e) -> mapM f l = Err e.
Proof.
  induction l as [|x l IH]; intros H (z & Hz & E); [destruct Hz|].
  cbn [mapM]. destruct (H x (or_introl eq_refl)) as [(y & Ey)|Ee].
  - rewrite Ey. cbn [bind]. rewrite IH; [reflexivity| |].
    + intros w Hw. apply H. right. auto.
    + destruct Hz as [->|Hz]; [congruence|]. eauto.
  - rewrite Ee. reflexivity.
Qed.

(** ** digitize *)
Lemma asc_nondecreasing l : Ascending l -> nondecreasingb l = true.
Proof.
  induction l as [|x l IH]; intros H; auto. destruct l as [|y r]; auto.
  cbn [nondecreasingb]. apply andb_true_intro. split.
  - apply Qle_bool_iff. apply Qlt_le_weak. apply (H 0%nat 1%nat); auto.
  - apply IH. intros i j a b Hij Ha Hb. apply (H (S i) (S j)); auto. lia.
Qed.
Lemma desc_nonincreasing l : Descending l -> nonincreasingb l = true.
Proof.
  induction l as [|x l IH]; intros H; auto. destruct l as [|y r]; auto.
  cbn [nonincreasingb]. apply andb_true_intro. split.
  - apply Qle_bool_iff. apply Qlt_le_weak. apply (H 0%nat 1%nat); auto.
  - apply IH. intros i j a b Hij Ha Hb. apply (H (S i) (S j)); auto. lia.
Qed.
Lemma desc_not_nondecreasing l : Descending l -> (2 <= length l)%nat -> nondecreasingb l = false.
Proof.
  destruct l as [|x [|y r]]; simpl length; try lia. intros H _.
  cbn [nondecreasingb]. apply andb_false_intro1. apply Qle_bool_false. apply (H 0%nat 1%nat); auto.
Qed.
Lemma nth_error_rev {A} (l : list A) i : (i < length l)%nat ->
  nth_error (rev l) i = nth_error l (length l - 1 - i).
Proof.
  revert i. induction l as [|x l IH]; intros i Hi; [simpl in Hi; lia|].
  cbn [rev length] in *. destruct (Nat.lt_ge_cases i (length l)) as [H|H].
  - rewrite nth_error_app1 by (rewrite rev_length; lia). rewrite IH by auto.
    replace (S (length l) - 1 - i)%nat with (S (length l - 1 - i)) by lia. reflexivity.
  - assert (i = length l) as -> by lia. rewrite nth_error_app2 by (rewrite rev_length; lia).
    rewrite rev_length, Nat.sub_diag. replace (S (length l) - 1 - length l)%nat with 0%nat by lia. reflexivity.
Qed.
Lemma desc_rev_asc l : Descending l -> Ascending (rev l).
Proof.
  intros H i j x y Hij Hx Hy.
  pose proof (nth_error_Some_lt _ _ _ Hx). pose proof (nth_error_Some_lt _ _ _ Hy). rewrite rev_length in *.
  rewrite nth_error_rev in Hx, Hy by auto. eapply H; [|exact Hy|exact Hx]. lia.
Qed.
Lemma split_rev {A} (p : A -> bool) l m : split_point p (rev l) m ->
  split_point (fun x => negb (p x)) l (length l - m).
Proof.
  intros (Hm & H1 & H2). rewrite rev_length in Hm. split; [lia|]. split.
  - intros i x Hi Hx. pose proof (nth_error_Some_lt _ _ _ Hx).
    rewrite (H2 (length l - 1 - i)%nat x); auto; [lia|].
    rewrite nth_error_rev by lia. rewrite <- Hx. f_equal. lia.
  - intros i x Hi Hx. pose proof (nth_error_Some_lt _ _ _ Hx).
    rewrite (H1 (length l - 1 - i)%nat x); auto; [lia|].
    rewrite nth_error_rev by lia. rewrite <- Hx. f_equal. lia.
Qed.
Definition before (right : bool) (d b : Q) : bool := if negb right then Qle_bool b d else Qlt_bool b d.
Lemma asc_splits l right d : Ascending l -> splits (before right d) l.
Proof.
  intros H i j x y Hij Hx Hy Hp. specialize (H _ _ _ _ Hij Hx Hy). unfold before in *.
  destruct right; cbn [negb] in *.
  - apply Qlt_bool_iff in Hp. apply Qlt_bool_iff. lra.
  - apply Qle_bool_iff in Hp. apply Qle_bool_iff. lra.
Qed.
Lemma digitize_asc l d right : Ascending l ->
  exists k, digitize d l right = Ok k /\ split_point (before right d) l k.
Proof.
  intros H. unfold digitize. rewrite asc_nondecreasing by auto.
  eexists. split; [reflexivity|]. unfold searchsortedQ. apply searchsorted_spec. apply asc_splits. auto.
Qed.
Lemma digitize_desc l d right : Descending l -> (2 <= length l)%nat ->
  exists k, digitize d l right = Ok k /\ split_point (fun b => negb (before right d b)) l k.
Proof.
  intros H Hn. unfold digitize. rewrite desc_not_nondecreasing, desc_nonincreasing by auto.
  eexists. split; [reflexivity|]. apply split_rev. apply searchsorted_spec. apply asc_splits.
  apply desc_rev_asc. auto.
Qed.

(** ** L_Depth *)
Lemma alpha_bracket x y d : ~ (y - x == 0)%Q ->
  ((x <= d <= y) \/ (y <= d <= x))%Q ->
  (0 <= (d - x) / (y - x) <= 1 /\ d == x + (d - x) / (y - x) * (y - x))%Q.
Proof.
  intros Hne Hb. split; [|field; auto].
  destruct Hb as [Hb|Hb].
  - assert (0 < y - x)%Q by (destruct (Qlt_le_dec 0 (y - x)); auto; exfalso; apply Hne; lra).
    split; [apply Qle_shift_div_l; lra|apply Qle_shift_div_r; lra].
  - assert (y - x < 0)%Q by (destruct (Qlt_le_dec (y - x) 0); auto; exfalso; apply Hne; lra).
    assert (E : ((d - x) / (y - x) == (x - d) / (x - y))%Q) by (field; split; lra).
    rewrite E. split; [apply Qle_shift_div_l; lra|apply Qle_shift_div_r; lra].
Qed.

Lemma py_get_S {A} (l : list A) k y : nth_error l (S k) = Some y -> py_get l (Z.of_nat k + 1) = Ok y.
Proof. intros H. replace (Z.of_nat k + 1) with (Z.of_nat (S k)) by lia. apply py_get_nat. auto. Qed.

(** The row of a point at split index [k] of the levels. *)
Lemma l_point_row levels asc sbc bbc d k :
  (2 <= length levels)%nat -> digitize d levels (negb asc) = Ok k -> (k <= length levels)%nat ->
  l_point levels asc sbc bbc d =
  if (k =? 0)%nat then
    Ok (if bmask (if asc then sbc else bbc) then (None, None) else (Some (-1), Some 1%Q))
  else if (k =? length levels)%nat then
    Ok (if bmask (if asc then bbc else sbc) then (None, None)
        else (Some (Z.of_nat (length levels) - 1), Some 0%Q))
  else do x <- py_get levels (Z.of_nat (k - 1)); do y <- py_get levels (Z.of_nat k);
       if Qeq_bool (y - x) 0 then Err ZeroDivision
       else Ok (Some (Z.of_nat (k - 1)), Some ((d - x) / (y - x))%Q).
Proof.
  intros Hn E Hk. unfold l_point. rewrite E. cbn [bind]. cbv zeta.
  destruct (Nat.eqb_spec k 0) as [->|Hk0].
  - assert (Z.of_nat 0 - 1 =? -1 = true) as -> by reflexivity.
    assert (Z.of_nat 0 - 1 =? Z.of_nat (length levels) - 1 = false) as -> by (apply Z.eqb_neq; lia).
    destruct asc; destruct sbc, bbc; reflexivity.
  - assert (Z.of_nat k - 1 =? -1 = false) as -> by (apply Z.eqb_neq; lia).
    rewrite !andb_false_r.
    destruct (Nat.eqb_spec k (length levels)) as [->|Hkn].
    + rewrite Z.eqb_refl. destruct asc; destruct sbc, bbc; reflexivity.
    + assert (Z.of_nat k - 1 =? Z.of_nat (length levels) - 1 = false) as -> by (apply Z.eqb_neq; lia).
      replace (Z.of_nat k - 1 + 1) with (Z.of_nat k) by lia.
      replace (Z.of_nat k - 1) with (Z.of_nat (k - 1)) by lia.
      destruct asc; cbn [andb]; rewrite !andb_false_r; cbn [orb];
      destruct (py_get levels (Z.of_nat (k - 1))) as [xx|]; cbn [bind]; auto;
      destruct (py_get levels (Z.of_nat k)) as [yy|]; cbn [bind]; auto;
      destruct (Qeq_bool (yy - xx) 0); reflexivity.
Qed.

(** Shape of every row, by the position of the depth. *)
Definition LRowAsc (levels : list Q) (sbc bbc : bcond) (d : Q) (r : drow) : Prop :=
  forall a b, First levels a -> Last levels b ->
  (d < a -> r = if bmask sbc then (None, None) else (Some (-1)%Z, Some 1))%Q /\
  (b <= d -> r = if bmask bbc then (None, None) else (Some (Z.of_nat (length levels) - 1)%Z, Some 0))%Q /\
  (a <= d < b -> exists i al, r = (Some (Z.of_nat i), Some al) /\ Bracketed levels d i al /\ al < 1)%Q.
Definition LRowDesc (levels : list Q) (sbc bbc : bcond) (d : Q) (r : drow) : Prop :=
  forall a b, First levels a -> Last levels b ->
  (a < d -> r = if bmask bbc then (None, None) else (Some (-1)%Z, Some 1))%Q /\
  (d <= b -> r = if bmask sbc then (None, None) else (Some (Z.of_nat (length levels) - 1)%Z, Some 0))%Q /\
  (b < d <= a -> exists i al, r = (Some (Z.of_nat i), Some al) /\ Bracketed levels d i al /\ al < 1)%Q.

Lemma alpha_lt1 x y d : ((x <= d < y) \/ (y < d <= x))%Q -> ((d - x) / (y - x) < 1)%Q.
Proof.
  intros [H|H].
  - apply Qlt_shift_div_r; lra.
  - assert (E : ((d - x) / (y - x) == (x - d) / (x - y))%Q) by (field; split; lra).
    rewrite E. apply Qlt_shift_div_r; lra.
Qed.

Lemma l_point_asc levels sbc bbc d : Ascending levels -> (2 <= length levels)%nat ->
  exists r, l_point levels true sbc bbc d = Ok r /\ LRowAsc levels sbc bbc d r.
Proof.
  intros HA Hn. destruct (digitize_asc levels d false HA) as (k & E & Hk & K1 & K2).
  rewrite (l_point_row levels true sbc bbc d k Hn E Hk).
  destruct (Nat.eqb_spec k 0) as [->|Hk0]; [|destruct (Nat.eqb_spec k (length levels)) as [->|Hkn]].
  - eexists. split; [reflexivity|]. intros a b Ha Hb.
    assert (d < a)%Q. { specialize (K2 0%nat a ltac:(lia) Ha). apply Qle_bool_false in K2. auto. }
    assert (a < b)%Q by (eapply HA; [|exact Ha|exact Hb]; lia).
    split; [auto|]. split; [intros; lra|intros; lra].
  - eexists. split; [reflexivity|]. intros a b Ha Hb.
    assert (b <= d)%Q. { specialize (K1 (length levels - 1)%nat b ltac:(lia) Hb). apply Qle_bool_iff in K1. auto. }
    assert (a < b)%Q by (eapply HA; [|exact Ha|exact Hb]; lia).
    split; [intros; lra|]. split; [auto|intros; lra].
  - destruct (nth_error_lt_Some levels (k - 1)%nat) as [x Hx]; [lia|].
    destruct (nth_error_lt_Some levels k) as [y Hy]; [lia|].
    rewrite (py_get_nat _ _ _ Hx), (py_get_nat _ _ _ Hy). cbn [bind].
    assert (x <= d)%Q. { specialize (K1 (k - 1)%nat x ltac:(lia) Hx). apply Qle_bool_iff in K1. auto. }
    assert (d < y)%Q. { specialize (K2 k y ltac:(lia) Hy). apply Qle_bool_false in K2. auto. }
    destruct (Qeq_bool (y - x) 0) eqn:Z0; [apply Qeq_bool_eq in Z0; lra|].
    eexists. split; [reflexivity|]. intros a b Ha Hb.
    assert (a <= x)%Q.
    { destruct (Nat.eq_dec (k - 1) 0) as [Ez|Ez]; [rewrite Ez in Hx; unfold First in Ha; rewrite Ha in Hx; injection Hx as <-; lra|].
      apply Qlt_le_weak. eapply HA; [|exact Ha|exact Hx]. lia. }
    assert (y <= b)%Q.
    { destruct (Nat.eq_dec k (length levels - 1)) as [Ez|Ez]; [unfold Last in Hb; rewrite <- Ez in Hb; rewrite Hb in Hy; injection Hy as <-; lra|].
      apply Qlt_le_weak. eapply HA; [|exact Hy|exact Hb]. lia. }
    split; [intros; lra|]. split; [intros; lra|]. intros _. exists (k - 1)%nat, ((d - x) / (y - x))%Q.
    split; [auto|]. split; [|apply alpha_lt1; lra]. exists x, y. replace (S (k - 1)) with k by lia.
    split; [auto|]. split; [auto|]. apply alpha_bracket; lra.
Qed.

Lemma l_point_desc levels sbc bbc d : Descending levels -> (2 <= length levels)%nat ->
  exists r, l_point levels false sbc bbc d = Ok r /\ LRowDesc levels sbc bbc d r.
Proof.
  intros HA Hn. destruct (digitize_desc levels d true HA Hn) as (k & E & Hk & K1 & K2).
  unfold before in K1, K2. cbn [negb] in K1, K2.
  rewrite (l_point_row levels false sbc bbc d k Hn E Hk).
  destruct (Nat.eqb_spec k 0) as [->|Hk0]; [|destruct (Nat.eqb_spec k (length levels)) as [->|Hkn]].
  - eexists. split; [reflexivity|]. intros a b Ha Hb.
    assert (a < d)%Q. { specialize (K2 0%nat a ltac:(lia) Ha). rewrite negb_false_iff in K2. apply Qlt_bool_iff in K2. auto. }
    assert (b < a)%Q by (eapply HA; [|exact Ha|exact Hb]; lia).
    split; [auto|]. split; [intros; lra|intros; lra].
  - eexists. split; [reflexivity|]. intros a b Ha Hb.
    assert (d <= b)%Q. { specialize (K1 (length levels - 1)%nat b ltac:(lia) Hb). rewrite negb_true_iff in K1. apply Qlt_bool_false in K1. auto. }
    assert (b < a)%Q by (eapply HA; [|exact Ha|exact Hb]; lia).
    split; [intros; lra|]. split; [auto|intros; lra].
  - destruct (nth_error_lt_Some levels (k - 1)%nat) as [x Hx]; [lia|].
    destruct (nth_error_lt_Some levels k) as [y Hy]; [lia|].
    rewrite (py_get_nat _ _ _ Hx), (py_get_nat _ _ _ Hy). cbn [bind].
    assert (d <= x)%Q. { specialize (K1 (k - 1)%nat x ltac:(lia) Hx). rewrite negb_true_iff in K1. apply Qlt_bool_false in K1. auto. }
    assert (y < d)%Q. { specialize (K2 k y ltac:(lia) Hy). rewrite negb_false_iff in K2. apply Qlt_bool_iff in K2. auto. }
    destruct (Qeq_bool (y - x) 0) eqn:Z0; [apply Qeq_bool_eq in Z0; lra|].
    eexists. split; [reflexivity|]. intros a b Ha Hb.
    assert (x <= a)%Q.
    { destruct (Nat.eq_dec (k - 1) 0) as [Ez|Ez]; [rewrite Ez in Hx; unfold First in Ha; rewrite Ha in Hx; injection Hx as <-; lra|].
      apply Qlt_le_weak. eapply HA; [|exact Ha|exact Hx]. lia. }
    assert (b <= y)%Q.
    { destruct (Nat.eq_dec k (length levels - 1)) as [Ez|Ez]; [unfold Last in Hb; rewrite <- Ez in Hb; rewrite Hb in Hy; injection Hy as <-; lra|].
      apply Qlt_le_weak. eapply HA; [|exact Hy|exact Hb]. lia. }
    split; [intros; lra|]. split; [intros; lra|]. intros _. exists (k - 1)%nat, ((d - x) / (y - x))%Q.
    split; [auto|]. split; [|apply alpha_lt1; lra]. exists x, y. replace (S (k - 1)) with k by lia.
    split; [auto|]. split; [auto|]. apply alpha_bracket; lra.
Qed.

Lemma py_get_m1 {A} (l : list A) b : nth_error l (length l - 1) = Some b -> py_get l (-1) = Ok b.
Proof.
  intros H. pose proof (nth_error_Some_lt _ _ _ H). unfold py_get, py_index.
  replace (0 <=? -1) with false by reflexivity.
  destruct (Z.leb_spec 0 (-1 + Z.of_nat (length l))); [|lia].
  replace (Z.to_nat (-1 + Z.of_nat (length l))) with (length l - 1)%nat by lia. rewrite H. reflexivity.
Qed.
Lemma l_alphas_unfold levels dl sbc bbc ds a b : (2 <= length levels)%nat -> dl <> Some 1%nat ->
  First levels a -> Last levels b ->
  l_alphas levels dl sbc bbc ds = mapM (l_point levels (Qlt_bool a b) sbc bbc) ds.
Proof.
  intros Hn Hd Ha Hb. unfold l_alphas.
  assert (Nat.eqb (length levels) 1 = false) as -> by (apply Nat.eqb_neq; lia).
  assert (match dl with Some 1%nat => true | _ => false end = false) as ->.
  { destruct dl as [[|[|n]]|]; auto. congruence. }
  cbn [orb]. change 0 with (Z.of_nat 0). rewrite (py_get_nat _ _ _ Ha).
  cbn [bind]. rewrite (py_get_m1 _ _ Hb). reflexivity.
Qed.
Lemma ends_exist (l : list Q) : (2 <= length l)%nat -> exists a b, First l a /\ Last l b.
Proof.
  intros H. destruct (nth_error_lt_Some l 0) as [a Ha]; [lia|].
  destruct (nth_error_lt_Some l (length l - 1)) as [b Hb]; [lia|]. exists a, b. split; auto.
Qed.

Lemma l_alphas_asc levels dl sbc bbc ds : Ascending levels -> (2 <= length levels)%nat -> dl <> Some 1%nat ->
  exists rows, l_alphas levels dl sbc bbc ds = Ok rows /\ length rows = length ds /\
    forall k d, nth_error ds k = Some d -> exists r, nth_error rows k = Some r /\ LRowAsc levels sbc bbc d r.
Proof.
  intros HA Hn Hd. destruct (ends_exist levels Hn) as (a & b & Ha & Hb).
  rewrite (l_alphas_unfold levels dl sbc bbc ds a b) by auto.
  assert (Qlt_bool a b = true) as ->. { apply Qlt_bool_iff. eapply HA; [|exact Ha|exact Hb]. lia. }
  apply (mapM_rows _ (LRowAsc levels sbc bbc)). intros d. apply l_point_asc; auto.
Qed.
Lemma l_alphas_desc levels dl sbc bbc ds : Descending levels -> (2 <= length levels)%nat -> dl <> Some 1%nat ->
  exists rows, l_alphas levels dl sbc bbc ds = Ok rows /\ length rows = length ds /\
    forall k d, nth_error ds k = Some d -> exists r, nth_error rows k = Some r /\ LRowDesc levels sbc bbc d r.
Proof.
  intros HA Hn Hd. destruct (ends_exist levels Hn) as (a & b & Ha & Hb).
  rewrite (l_alphas_unfold levels dl sbc bbc ds a b) by auto.
  assert (Qlt_bool a b = false) as ->. { apply Qlt_bool_false. apply Qlt_le_weak. eapply HA; [|exact Ha|exact Hb]. lia. }
  apply (mapM_rows _ (LRowDesc levels sbc bbc)). intros d. apply l_point_desc; auto.
Qed.

(** ** argmin / argmax *)
Definition better_ok (better : Q -> Q -> bool) : Prop :=
  (forall x y z, better x y = true -> better z y = false -> better z x = false) /\ (forall x, better x x = false).
Lemma argbest_spec better (R : Q -> Q -> Prop) (Hr : forall x, R x x) (Ht : forall x y z, R x y -> R y z -> R x z)
  (Hb : forall x y, better x y = true -> R x y) (Hnb : forall x y, better x y = false -> R y x) l :
  forall k pre best b, length pre = k -> nth_error pre best = Some b -> (forall x, In x pre -> R b x) ->
  exists m, nth_error (pre ++ l) (argbest better k best b l) = Some m /\ forall x, In x (pre ++ l) -> R m x.
Proof.
  induction l as [|x l IH]; intros k pre best b Hk Hn Hall; cbn [argbest].
  - rewrite app_nil_r. eauto.
  - destruct (better x b) eqn:E.
    + destruct (IH (S k) (pre ++ [x]) k x) as (m & Hm & Hm').
      * rewrite app_length. cbn [length]. lia.
      * rewrite nth_error_app2 by lia. rewrite Hk, Nat.sub_diag. reflexivity.
      * intros z Hz. apply in_app_or in Hz as [Hz|[<-|[]]]; auto. eapply Ht; [apply Hb; eauto|auto].
      * rewrite <- app_assoc in Hm, Hm'. eauto.
    + destruct (IH (S k) (pre ++ [x]) best b) as (m & Hm & Hm').
      * rewrite app_length. cbn [length]. lia.
      * rewrite nth_error_app1; auto. eapply nth_error_Some_lt; eauto.
      * intros z Hz. apply in_app_or in Hz as [Hz|[<-|[]]]; auto.
      * rewrite <- app_assoc in Hm, Hm'. eauto.
Qed.
Lemma argmin_spec l : l <> [] -> exists k m, argmin l = Ok k /\ nth_error l k = Some m /\ forall x, In x l -> (m <= x)%Q.
Proof.
  destruct l as [|x l]; [congruence|]. intros _. unfold argmin.
  destruct (argbest_spec Qlt_bool Qle Qle_refl Qle_trans
              (fun a b H => Qlt_le_weak _ _ (proj1 (Qlt_bool_iff a b) H))
              (fun a b H => proj1 (Qlt_bool_false a b) H) l 1 [x] 0 x) as (m & Hm & K); auto.
  { intros y [<-|[]]. apply Qle_refl. }
  do 2 eexists. split; [reflexivity|]. split; eauto.
Qed.
Lemma argmax_spec l : l <> [] -> exists k m, argmax l = Ok k /\ nth_error l k = Some m /\ forall x, In x l -> (x <= m)%Q.
Proof.
  destruct l as [|x l]; [congruence|]. intros _. unfold argmax.
  destruct (argbest_spec (fun a b => Qlt_bool b a) (fun a b => Qle b a) Qle_refl (fun a b c H1 H2 => Qle_trans _ _ _ H2 H1)
              (fun a b H => Qlt_le_weak _ _ (proj1 (Qlt_bool_iff b a) H))
              (fun a b H => proj1 (Qlt_bool_false b a) H) l 1 [x] 0 x) as (m & Hm & K); auto.
  { intros y [<-|[]]. apply Qle_refl. }
  do 2 eexists. split; [reflexivity|]. split; eauto.
Qed.
Lemma argmin_asc l : l <> [] -> Ascending l -> argmin l = Ok 0%nat.
Proof.
  intros Hne H. destruct (argmin_spec l Hne) as (k & m & E & Hk & K). rewrite E. f_equal.
  destruct k as [|k]; auto. destruct l as [|x l]; [congruence|].
  assert (x < m)%Q by (apply (H 0%nat (S k)); auto; lia). specialize (K x (or_introl eq_refl)). lra.
Qed.
Lemma argmin_desc l : l <> [] -> Descending l -> argmin l = Ok (length l - 1)%nat.
Proof.
  intros Hne H. destruct (argmin_spec l Hne) as (k & m & E & Hk & K). rewrite E. f_equal.
  pose proof (nth_error_Some_lt _ _ _ Hk). destruct (Nat.eq_dec k (length l - 1)); auto.
  destruct (nth_error_lt_Some l (length l - 1)) as [z Hz]; [lia|].
  assert (z < m)%Q by (eapply (H k (length l - 1)%nat); eauto; lia). specialize (K z (nth_error_In _ _ Hz)). lra.
Qed.
Lemma argmax_desc l : l <> [] -> Descending l -> argmax l = Ok 0%nat.
Proof.
  intros Hne H. destruct (argmax_spec l Hne) as (k & m & E & Hk & K). rewrite E. f_equal.
  destruct k as [|k]; auto. destruct l as [|x l]; [congruence|].
  assert (m < x)%Q by (apply (H 0%nat (S k)); auto; lia). specialize (K x (or_introl eq_refl)). lra.
Qed.
Lemma argmax_asc l : l <> [] -> Ascending l -> argmax l = Ok (length l - 1)%nat.
Proof.
  intros Hne H. destruct (argmax_spec l Hne) as (k & m & E & Hk & K). rewrite E. f_equal.
  pose proof (nth_error_Some_lt _ _ _ Hk). destruct (Nat.eq_dec k (length l - 1)); auto.
  destruct (nth_error_lt_Some l (length l - 1)) as [z Hz]; [lia|].
  assert (m < z)%Q by (eapply (H k (length l - 1)%nat); eauto; lia). specialize (K z (nth_error_In _ _ Hz)). lra.
Qed.
