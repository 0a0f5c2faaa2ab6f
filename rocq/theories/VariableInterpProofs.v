From Coq Require Import Lqa.
From Verif Require Import Common CommonProofs TimeModel TimeSpec TimeProofs TimeHeapProofs
  VariableModel VariableSpec.
Open Scope Z_scope.

(** ** Cells *)
Definition ceq (a b : cell) : Prop :=
  match a, b with
  | CVal x, CVal y => (x == y)%Q
  | CNaN, CNaN | CMasked, CMasked => True
  | _, _ => False
  end.
Definition ceqs (a b : list cell) : Prop := Forall2 ceq a b.
Lemma ceq_refl c : ceq c c.
Proof. destruct c; simpl; auto. reflexivity. Qed.
Lemma ceqs_refl l : ceqs l l.
Proof. induction l; constructor; auto using ceq_refl. Qed.
Definition numeric (c : cell) : Prop := exists q, c = CVal q.

Lemma lerp_one x y a : numeric x -> (a == 1)%Q -> ceq (cell_lerp x y a) y.
Proof.
  intros [q ->] Ha. destruct y; simpl; auto. rewrite Ha. ring.
Qed.
Lemma lerp_zero x y a : numeric y -> (a == 0)%Q -> ceq (cell_lerp x y a) x.
Proof.
  intros [q ->] Ha. destruct x; simpl; auto. rewrite Ha. ring.
Qed.
Lemma lerp_same x a : ceq (cell_lerp x x a) x.
Proof. destruct x; simpl; auto. ring. Qed.
Lemma lerp_between x y a r : (0 <= a <= 1)%Q -> cell_lerp (CVal x) (CVal y) a = CVal r -> QBetween x y r.
Proof.
  intros [H0 H1] H. cbn in H. injection H as <-. unfold QBetween.
  destruct (Qlt_le_dec x y).
  - left. split.
    + setoid_replace x with (x + 0)%Q at 1 by ring. apply Qplus_le_r.
      apply Qmult_le_0_compat; lra.
    + assert ((y - x) * a <= (y - x) * 1)%Q.
      { rewrite !(Qmult_comm (y - x)). apply Qmult_le_compat_r; lra. }
      lra.
  - right. assert (0 <= (x - y) * a)%Q by (apply Qmult_le_0_compat; lra).
    assert ((x - y) * a <= (x - y) * 1)%Q.
    { rewrite !(Qmult_comm (x - y)). apply Qmult_le_compat_r; lra. }
    split; lra.
Qed.
Lemma cells_lerp_length a : forall v0 v1, length v0 = length v1 -> length (cells_lerp v0 v1 a) = length v0.
Proof. induction v0; intros [|y v1] H; simpl in *; auto; try discriminate. Qed.
Lemma cells_lerp_one a v0 : (a == 1)%Q -> forall v1, length v0 = length v1 -> Forall numeric v0 ->
  ceqs (cells_lerp v0 v1 a) v1.
Proof.
  intros Ha. induction v0 as [|x v0 IH]; intros [|y v1] Hl Hn; try discriminate; simpl; constructor.
  - apply lerp_one; auto. inversion Hn; auto.
  - apply IH; auto. inversion Hn; auto.
Qed.
Lemma cells_lerp_same a v : ceqs (cells_lerp v v a) v.
Proof. induction v; simpl; constructor; auto using lerp_same. Qed.
Lemma cells_lerp_map {P} (f g : P -> cell) a pts :
  cells_lerp (map f pts) (map g pts) a = map (fun p => cell_lerp (f p) (g p) a) pts.
Proof. induction pts; simpl; f_equal; auto. Qed.

(** ** Interpolation in time, over an arbitrary next level *)
Section TimeInterp.
  Context (t : time_obj) (val : list Z -> result (list cell)) (F : nat -> list cell).
  Context (HSI : StrictlyIncreasing (t_data t)) (Hne : t_data t <> []).
  Let n := length (t_data t).
  Context (Hval : forall k, (k < n)%nat -> val [Z.of_nat k] = Ok (F k))
          (Hlast : val [-1] = Ok (F (n - 1)%nat)).

  Lemma SI_inj l i j x : StrictlyIncreasing l -> nth_error l i = Some x -> nth_error l j = Some x -> i = j.
  Proof.
    intros H Hi Hj. destruct (Nat.lt_trichotomy i j) as [L|[E|L]]; auto.
    - specialize (H _ _ _ _ L Hi Hj). lia.
    - specialize (H _ _ _ _ L Hj Hi). lia.
  Qed.
  Lemma n_pos : (0 < n)%nat.
  Proof. unfold n. destruct (t_data t); [congruence|simpl; lia]. Qed.

  Lemma ti_first q ex a : nth_error (t_data t) 0 = Some a -> (q = a \/ (ex = true /\ q < a)) ->
    time_interp t q ex val [] = Ok (F 0%nat).
  Proof.
    intros Ha Hq. unfold time_interp. rewrite (min_time_first t a Ha). cbn [bind].
    assert (E : (q =? a) || (ex && (q <? a)) = true).
    { destruct Hq as [->|[-> Hq]]; [rewrite Z.eqb_refl; auto|]. simpl.
      apply Z.ltb_lt in Hq. rewrite Hq. apply orb_true_r. }
    rewrite E. apply (Hval 0%nat). apply n_pos.
  Qed.
  Lemma ti_last q ex b : nth_error (t_data t) (n - 1) = Some b -> (q = b \/ (ex = true /\ b < q)) ->
    time_interp t q ex val [] = Ok (F (n - 1)%nat).
  Proof.
    intros Hb Hq. destruct (nonempty_ends _ Hne) as (a & b' & Ha & Hb').
    fold n in Hb'. rewrite Hb in Hb'. injection Hb' as <-.
    destruct (Nat.eq_dec n 1) as [E1|Hn1].
    - rewrite E1 in Hb |- *. cbn [Nat.sub] in *. rewrite Ha in Hb. injection Hb as <-.
      destruct (Z.eq_dec q a) as [->|Hqa]; [apply (ti_first _ _ a); auto|].
      destruct Hq as [?|[-> Hq]]; [contradiction|].
      unfold time_interp. rewrite (min_time_first t a Ha). cbn [bind].
      assert (E : (q =? a) || (true && (q <? a)) = false).
      { apply orb_false_iff. split; [apply Z.eqb_neq; auto|simpl; apply Z.ltb_ge; lia]. }
      rewrite E. rewrite (max_time_last t a) by (fold n; rewrite E1; exact Ha). cbn [bind].
      assert (E2 : (q =? a) || (true && (q >? a)) = true).
      { simpl. rewrite Z.gtb_ltb. apply Z.ltb_lt in Hq. rewrite Hq. apply orb_true_r. }
      rewrite E2, Hlast, E1. reflexivity.
    - assert (Hab : a < b) by (apply (HSI 0%nat (n - 1)%nat); auto; pose proof n_pos; lia).
      unfold time_interp. rewrite (min_time_first t a Ha). cbn [bind].
      assert (E : (q =? a) || (ex && (q <? a)) = false).
      { apply orb_false_iff. split; [apply Z.eqb_neq; lia|]. apply andb_false_iff. right. apply Z.ltb_ge. lia. }
      rewrite E. rewrite (max_time_last t b Hb). cbn [bind].
      assert (E2 : (q =? b) || (ex && (q >? b)) = true).
      { destruct Hq as [->|[-> Hq]]; [rewrite Z.eqb_refl; auto|]. simpl.
        rewrite Z.gtb_ltb. apply Z.ltb_lt in Hq. rewrite Hq. apply orb_true_r. }
      rewrite E2. exact Hlast.
  Qed.

  (** Between two samples (the later one included unless it is the last). *)
  Lemma ti_between q ex k t0 t1 : nth_error (t_data t) k = Some t0 ->
    nth_error (t_data t) (S k) = Some t1 -> t0 < q <= t1 -> (S k < n - 1 \/ q <> t1)%nat ->
    exists alpha, (inject_Z t0 + alpha * (inject_Z t1 - inject_Z t0) == inject_Z q)%Q /\
      (0 <= alpha <= 1)%Q /\ (q = t1 -> (alpha == 1)%Q) /\
      time_interp t q ex val [] = Ok (cells_lerp (F k) (F (S k)) alpha).
  Proof.
    intros H0 H1 Hq Hnl.
    pose proof (nth_error_Some_lt _ _ _ H1) as Hlt. fold n in Hlt.
    destruct (nonempty_ends _ Hne) as (a & b & Ha & Hb). fold n in Hb.
    assert (HaT : a <= t0).
    { destruct k; [rewrite Ha in H0; injection H0; lia|].
      specialize (HSI 0%nat (S k) a t0 ltac:(lia) Ha H0). lia. }
    assert (HTb : q < b \/ (q = b /\ False)).
    { destruct (Nat.eq_dec (S k) (n - 1)) as [E|E].
      - rewrite <- E, H1 in Hb. injection Hb as <-. destruct Hnl; [lia|]. left. lia.
      - specialize (HSI (S k) (n - 1)%nat t1 b ltac:(lia) H1 Hb). left. lia. }
    destruct HTb as [HTb|[_ []]].
    assert (HIR : InRange (t_data t) q).
    { exists a, b. repeat split; auto; lia. }
    assert (Hn1 : length (t_data t) <> 1%nat) by (fold n; lia).
    destruct (interp_alpha_bracket t q ex HSI Hn1 HIR) as (i & al & Hi & Hal & Hal01 & Hcase).
    destruct (interp_alpha_bracket t q false HSI Hn1 HIR) as (i' & al' & Hi' & _ & _ & Hcase').
    assert (Hk : i = S k).
    { destruct Hcase as [(-> & Hq0 & _)|(k' & u0 & u1 & -> & Hu0 & Hu1 & Hu & _)].
      - rewrite Ha in Hq0. injection Hq0 as <-. lia.
      - f_equal. destruct (Nat.lt_trichotomy k k') as [L|[E|L]]; auto.
        + assert (t1 <= u0).
          { destruct (Nat.eq_dec (S k) k') as [<-|]; [rewrite H1 in Hu0; injection Hu0; lia|].
            specialize (HSI (S k) k' t1 u0 ltac:(lia) H1 Hu0). lia. }
          lia.
        + assert (u1 <= t0).
          { destruct (Nat.eq_dec (S k') k) as [<-|]; [rewrite H0 in Hu1; injection Hu1; lia|].
            specialize (HSI (S k') k u1 t0 ltac:(lia) Hu1 H0). lia. }
          lia. }
    assert (Hk' : i' = S k).
    { destruct Hcase' as [(-> & Hq0 & _)|(k' & u0 & u1 & -> & Hu0 & Hu1 & Hu & _)].
      - rewrite Ha in Hq0. injection Hq0 as <-. lia.
      - f_equal. destruct (Nat.lt_trichotomy k k') as [L|[E|L]]; auto.
        + assert (t1 <= u0).
          { destruct (Nat.eq_dec (S k) k') as [<-|]; [rewrite H1 in Hu0; injection Hu0; lia|].
            specialize (HSI (S k) k' t1 u0 ltac:(lia) H1 Hu0). lia. }
          lia.
        + assert (u1 <= t0).
          { destruct (Nat.eq_dec (S k') k) as [<-|]; [rewrite H0 in Hu1; injection Hu1; lia|].
            specialize (HSI (S k') k u1 t0 ltac:(lia) Hu1 H0). lia. }
          lia. }
    subst i i'.
    destruct Hcase as [(? & _)|(k' & u0 & u1 & E & Hu0 & Hu1 & Hu & Heq & Hone & _)]; [discriminate|].
    injection E as <-. rewrite H0 in Hu0. injection Hu0 as <-. rewrite H1 in Hu1. injection Hu1 as <-.
    exists al. split; [auto|]. split; [auto|]. split; [auto|].
    unfold time_interp. rewrite (min_time_first t a Ha). cbn [bind].
    assert (E1 : (q =? a) || (ex && (q <? a)) = false).
    { apply orb_false_iff. split; [apply Z.eqb_neq; lia|]. apply andb_false_iff. right. apply Z.ltb_ge. lia. }
    rewrite E1. rewrite (max_time_last t b Hb). cbn [bind].
    assert (E2 : (q =? b) || (ex && (q >? b)) = false).
    { apply orb_false_iff. split; [apply Z.eqb_neq; lia|]. apply andb_false_iff. right.
      rewrite Z.gtb_ltb. apply Z.ltb_ge. lia. }
    rewrite E2, Hi'. cbn [bind app]. replace (Z.of_nat (S k) - 1) with (Z.of_nat k) by lia.
    rewrite !Hval by lia. cbn [bind]. rewrite Hal. reflexivity.
  Qed.

  Lemma ti_single q ex : n = 1%nat -> exists vs, time_interp t q ex val [] = Ok vs /\ ceqs vs (F 0%nat).
  Proof.
    intros E1. destruct (nonempty_ends _ Hne) as (a & b & Ha & Hb). fold n in Hb.
    unfold time_interp. rewrite (min_time_first t a Ha). cbn [bind].
    destruct ((q =? a) || (ex && (q <? a))).
    - change (val [0]) with (val [Z.of_nat 0]). rewrite (Hval 0%nat) by lia.
      eexists; split; [reflexivity|apply ceqs_refl].
    - rewrite (max_time_last t b Hb). cbn [bind]. destruct ((q =? b) || (ex && (q >? b))).
      + rewrite Hlast, E1. eexists; split; [reflexivity|apply ceqs_refl].
      + rewrite (index_of_single t q false E1). cbn [bind app].
        replace (Z.of_nat 0 - 1) with (-1) by lia. rewrite Hlast. cbn [bind].
        rewrite (Hval 0%nat) by lia. cbn [bind].
        rewrite (interp_alpha_single t q ex E1). cbn [bind]. rewrite E1. cbn [Nat.sub].
        eexists; split; [reflexivity|]. apply cells_lerp_same.
  Qed.

  Lemma ti_out_of_range q : n <> 1%nat -> ~ InRange (t_data t) q ->
    time_interp t q false val [] = Err OutOfTimeRangeError.
  Proof.
    intros Hn Hr. destruct (nonempty_ends _ Hne) as (a & b & Ha & Hb). fold n in Hb.
    unfold time_interp. rewrite (min_time_first t a Ha). cbn [bind andb].
    rewrite !orb_false_r.
    assert (Hqa : q <> a).
    { intros ->. apply Hr. exists a, b. repeat split; auto; try lia.
      specialize (HSI 0%nat (n-1)%nat a b ltac:(pose proof n_pos; lia) Ha Hb). lia. }
    assert (Hqb : q <> b).
    { intros ->. apply Hr. exists a, b. repeat split; auto; try lia.
      specialize (HSI 0%nat (n-1)%nat a b ltac:(pose proof n_pos; lia) Ha Hb). lia. }
    rewrite (proj2 (Z.eqb_neq q a) Hqa). rewrite (max_time_last t b Hb). cbn [bind].
    rewrite (proj2 (Z.eqb_neq q b) Hqb).
    rewrite index_of_err; auto.
  Qed.

  (** Sampled times. *)
  Lemma ti_sample q ex k : nth_error (t_data t) k = Some q ->
    (forall j, (j < n)%nat -> Forall numeric (F j) /\ length (F j) = length (F 0%nat)) ->
    exists vs, time_interp t q ex val [] = Ok vs /\ ceqs vs (F k).
  Proof.
    intros Hk Hnum. pose proof (nth_error_Some_lt _ _ _ Hk) as Hlt. fold n in Hlt.
    destruct k as [|k].
    - exists (F 0%nat). split; [apply (ti_first q ex q); auto|apply ceqs_refl].
    - destruct (Nat.eq_dec (S k) (n - 1)) as [E|E].
      + exists (F (S k)). split; [|apply ceqs_refl]. rewrite E. apply (ti_last q ex q); [|auto].
        rewrite <- E. auto.
      + destruct (nth_error_lt_Some (t_data t) k ltac:(fold n; lia)) as [t0 Ht0].
        destruct (ti_between q ex k t0 q Ht0 Hk) as (al & _ & _ & H1 & ->).
        * specialize (HSI k (S k) t0 q ltac:(lia) Ht0 Hk). lia.
        * left. lia.
        * eexists. split; [reflexivity|]. apply cells_lerp_one; [apply H1; auto| |].
          -- destruct (Hnum k ltac:(lia)) as [_ ->]. destruct (Hnum (S k) ltac:(lia)) as [_ ->]. auto.
          -- apply Hnum. lia.
  Qed.

  (** A field that is the same at all times stays the same at every answerable time. *)
  Lemma ti_constant q ex G : (forall j, (j < n)%nat -> F j = G) ->
    (ex = true \/ n = 1%nat \/ InRange (t_data t) q) ->
    exists vs, time_interp t q ex val [] = Ok vs /\ ceqs vs G.
  Proof.
    intros HG Hr. pose proof n_pos as Hnp.
    destruct (Nat.eq_dec n 1) as [E1|Hn1].
    { destruct (ti_single q ex E1) as (vs & H & Hc). rewrite HG in Hc by lia. eauto. }
    destruct (nonempty_ends _ Hne) as (a & b & Ha & Hb). fold n in Hb.
    assert (Hab : a < b) by (apply (HSI 0%nat (n - 1)%nat); auto; lia).
    destruct (Z_lt_le_dec q a) as [La|La].
    { destruct Hr as [->|[?|(a' & b' & Ha' & Hb' & ?)]]; [|contradiction|].
      - exists (F 0%nat). rewrite HG by lia. split; [|apply ceqs_refl].
        rewrite <- (HG 0%nat) by lia. apply (ti_first q true a); auto.
      - rewrite Ha in Ha'. injection Ha' as <-. lia. }
    destruct (Z_lt_le_dec b q) as [Lb|Lb].
    { destruct Hr as [->|[?|(a' & b' & Ha' & Hb' & ?)]]; [|contradiction|].
      - exists (F (n - 1)%nat). rewrite HG by lia. split; [|apply ceqs_refl].
        rewrite <- (HG (n - 1)%nat) by lia. apply (ti_last q true b); auto.
      - fold n in Hb'. rewrite Hb in Hb'. injection Hb' as <-. lia. }
    assert (HIR : InRange (t_data t) q) by (exists a, b; repeat split; auto; lia).
    assert (HEC : EarlierCount (t_data t) q (searchsorted (fun x => x <? q) (t_data t))).
    { apply searchsorted_earlier; auto. }
    destruct (in_range_cases t q _ HSI HIR HEC) as [[_ H0]|(k & t0 & t1 & _ & H0 & H1 & Hq)].
    - exists G. split; [|apply ceqs_refl]. rewrite <- (HG 0%nat) by lia. apply (ti_first q ex q); auto.
    - pose proof (nth_error_Some_lt _ _ _ H1) as Hlt. fold n in Hlt.
      destruct (Z.eq_dec q b) as [->|Hqb].
      { exists G. split; [|apply ceqs_refl]. rewrite <- (HG (n - 1)%nat) by lia. apply (ti_last b ex b); auto. }
      destruct (ti_between q ex k t0 t1 H0 H1 Hq) as (al & _ & _ & _ & ->).
      { destruct (Nat.eq_dec (S k) (n - 1)) as [E|E]; [|left; lia]. right.
        intros ->. apply Hqb. rewrite E, Hb in H1. congruence. }
      eexists. split; [reflexivity|]. rewrite !HG by lia. apply cells_lerp_same.
  Qed.
End TimeInterp.

(** ** Depth *)
Lemma insertZ_in x l y : In y (insertZ x l) <-> y = x \/ In y l.
Proof.
  induction l as [|a l IH]; simpl; [intuition|].
  destruct (x <=? a); simpl; [intuition|]. rewrite IH. intuition.
Qed.
Lemma sortZ_in l y : In y (sortZ l) <-> In y l.
Proof. induction l as [|a l IH]; simpl; [tauto|]. rewrite insertZ_in, IH. intuition. Qed.
Lemma dedup_in l y : In y (dedup_sorted l) <-> In y l.
Proof.
  induction l as [|a l IH]; [simpl; tauto|].
  destruct l as [|b l]; [simpl; tauto|].
  change (dedup_sorted (a :: b :: l)) with (if a =? b then dedup_sorted (b :: l) else a :: dedup_sorted (b :: l)).
  destruct (Z.eqb_spec a b) as [->|Hne].
  - rewrite IH. simpl. intuition.
  - simpl in *. rewrite IH. tauto.
Qed.
Lemma uniqueZ_in l y : In y (uniqueZ l) <-> In y l.
Proof. unfold uniqueZ. rewrite dedup_in, sortZ_in. tauto. Qed.
Lemma unique_unmasked_in idxs i : In i (unique_unmasked idxs) <-> In (Some i) idxs.
Proof.
  unfold unique_unmasked. rewrite uniqueZ_in, in_flat_map. split.
  - intros ([j|] & H & Hj); simpl in Hj; [|tauto]. destruct Hj as [->|[]]. auto.
  - intros H. exists (Some i). simpl. auto.
Qed.

Lemma where_eq_in idxs i : forall k j, In j (where_eq k idxs i) <->
  exists m, j = (k + m)%nat /\ nth_error idxs m = Some (Some i).
Proof.
  induction idxs as [|o idxs IH]; intros k j; simpl.
  - split; [tauto|]. intros ([|m] & _ & H); discriminate.
  - assert (R : (exists m, j = (k + m)%nat /\ nth_error (o :: idxs) m = Some (Some i)) <->
               (j = k /\ o = Some i) \/ exists m, j = (S k + m)%nat /\ nth_error idxs m = Some (Some i)).
    { split.
      - intros ([|m] & E & H); simpl in H.
        + left. split; [lia|congruence].
        + right. exists m. split; [lia|auto].
      - intros [[-> ->]|(m & E & H)].
        + exists O. split; [lia|reflexivity].
        + exists (S m). split; [lia|auto]. }
    rewrite R. destruct o as [z|].
    + destruct (Z.eqb_spec z i) as [->|Hne]; simpl; rewrite IH.
      * intuition.
      * split; [auto|]. intros [[_ H]|H]; [congruence|auto].
    + rewrite IH. split; [auto|]. intros [[_ H]|H]; [discriminate|auto].
Qed.
Lemma where_eq_nodup idxs i : forall k, NoDup (where_eq k idxs i).
Proof.
  induction idxs as [|o idxs IH]; intros k; simpl; [constructor|].
  destruct o as [z|]; auto. destruct (z =? i); auto.
  constructor; auto. intros H. apply where_eq_in in H as (m & E & _). lia.
Qed.

Lemma put_all_spec {A} (g : nat -> A) ks : NoDup ks -> forall l k,
  (forall j, In j ks -> (j < length l)%nat) ->
  nth_error (put_all l ks (map g ks)) k = if in_dec Nat.eq_dec k ks then Some (g k) else nth_error l k.
Proof.
  induction 1 as [|a ks Ha Hn IH]; intros l k Hlt; cbn [put_all map].
  - destruct (in_dec Nat.eq_dec k []); [destruct i|auto].
  - rewrite IH by (intros j Hj; rewrite list_set_len; apply Hlt; right; auto).
    destruct (in_dec Nat.eq_dec k ks) as [H|H]; destruct (in_dec Nat.eq_dec k (a :: ks)) as [H'|H']; auto.
    + exfalso; apply H'; right; auto.
    + destruct H' as [->|]; [|contradiction]. apply nth_list_set_eq. apply Hlt. left; auto.
    + apply nth_list_set_neq. intros ->. apply H'. left; auto.
Qed.
Lemma put_all_len {A} (ks : list nat) : forall (l vs : list A), length (put_all l ks vs) = length l.
Proof. induction ks as [|k ks IH]; intros l [|v vs]; simpl; auto. rewrite IH. apply list_set_len. Qed.

Lemma gather_map {A B} (f : A -> B) (l : list A) (d : B) ks : (forall j, In j ks -> (j < length l)%nat) ->
  map f (gather l ks) = map (fun k => match nth_error l k with Some a => f a | None => d end) ks.
Proof.
  induction ks as [|k ks IH]; intros H; simpl; auto.
  destruct (nth_error_lt_Some l k (H k (or_introl eq_refl))) as [a Ea]. rewrite Ea. simpl.
  f_equal. apply IH. intros j Hj. apply H. right; auto.
Qed.
Lemma zip_lerp_gather {P} (f0 f1 : P -> cell) (pts : list P) (alphas : list Q) ks :
  (forall j, In j ks -> (j < length pts)%nat /\ (j < length alphas)%nat) ->
  zip_lerp (map f0 (gather pts ks)) (map f1 (gather pts ks)) (gather alphas ks) =
  map (fun k => match nth_error pts k, nth_error alphas k with
                | Some p, Some a => cell_lerp (f0 p) (f1 p) a | _, _ => CNaN end) ks.
Proof.
  induction ks as [|k ks IH]; intros H; simpl; auto.
  destruct (H k (or_introl eq_refl)) as [H1 H2].
  destruct (nth_error_lt_Some pts k H1) as [p Ep]. destruct (nth_error_lt_Some alphas k H2) as [a Ea].
  rewrite Ep, Ea. simpl. f_equal. apply IH. intros j Hj. apply H. right; auto.
Qed.

Section DepthInterp.
  Context {P : Type} (ndim : nat) (val : list P -> list Z -> result (list cell))
          (slices : list Z) (pts : list P) (idxs : list (option Z)) (alphas : list Q)
          (f : Z -> P -> cell).
  Context (Hli : length idxs = length pts) (Hla : length alphas = length pts).

  Definition expected (k : nat) : cell :=
    match nth_error pts k, nth_error idxs k, nth_error alphas k with
    | Some p, Some (Some i), Some a => cell_lerp (f i p) (f (i + 1) p) a
    | _, _, _ => CNaN
    end.
  Lemma where_bound i : forall j, In j (where_eq 0 idxs i) -> (j < length pts)%nat /\ (j < length alphas)%nat.
  Proof.
    intros j Hj. apply where_eq_in in Hj as (m & -> & Hm). apply nth_error_Some_lt in Hm. lia.
  Qed.

  Lemma level_loop_spec us : forall lay values,
    (forall i, In i us -> i <> Z.of_nat ndim - 1) ->
    (forall i ps, In i us \/ In (i - 1) us -> val ps (slices ++ [i]) = Ok (map (f i) ps)) ->
    length values = length pts ->
    exists vs, level_loop ndim val slices pts idxs alphas us lay values = Ok vs /\
      length vs = length pts /\
      forall k, nth_error vs k = match nth_error idxs k with
                | Some (Some i) => if in_dec Z.eq_dec i us then Some (expected k) else nth_error values k
                | _ => nth_error values k end.
  Proof.
    induction us as [|u us IH]; intros lay values Hnb Hval Hlen; cbn [level_loop].
    - exists values. split; [auto|]. split; [auto|]. intros k.
      destruct (nth_error idxs k) as [[i|]|]; auto. 
    - rewrite (proj2 (Z.eqb_neq _ _) (Hnb u (or_introl eq_refl))).
      rewrite !Hval by (simpl; auto; right; left; lia). cbn [bind].
      set (l := where_eq 0 idxs u).
      rewrite zip_lerp_gather by apply where_bound.
      set (g := fun k => match nth_error pts k, nth_error alphas k with
                | Some p, Some a => cell_lerp (f u p) (f (u + 1) p) a | _, _ => CNaN end).
      destruct (IH (Some l) (put_all values l (map g l))) as (vs & Hvs & Hvl & Hk).
      + intros i Hi. apply Hnb. right; auto.
      + intros i ps Hi. apply Hval. simpl. tauto.
      + rewrite put_all_len. auto.
      + exists vs. split; [auto|]. split; [auto|]. intros k. rewrite Hk.
        assert (Hput : nth_error (put_all values l (map g l)) k =
                 if in_dec Nat.eq_dec k l then Some (g k) else nth_error values k).
        { apply put_all_spec; [apply where_eq_nodup|]. intros j Hj. apply where_bound in Hj. lia. }
        destruct (nth_error idxs k) as [[i|]|] eqn:Ei.
        * destruct (in_dec Z.eq_dec i us) as [Hi|Hi]; destruct (in_dec Z.eq_dec i (u :: us)) as [Hi'|Hi']; auto.
          -- exfalso. apply Hi'. right; auto.
          -- destruct Hi' as [->|]; [|contradiction]. rewrite Hput.
             destruct (in_dec Nat.eq_dec k l) as [Hin|Hnin].
             ++ f_equal. unfold g, expected. rewrite Ei. destruct (nth_error pts k); auto.
             ++ exfalso. apply Hnin. apply where_eq_in. exists k. auto.
          -- rewrite Hput. destruct (in_dec Nat.eq_dec k l) as [Hin|Hnin]; auto.
             apply where_eq_in in Hin as (m & -> & Hm). simpl in Ei. rewrite Hm in Ei.
             injection Ei as ->. exfalso. apply Hi'. left; auto.
        * rewrite Hput. destruct (in_dec Nat.eq_dec k l) as [Hin|Hnin]; auto.
          apply where_eq_in in Hin as (m & -> & Hm). simpl in Ei. congruence.
        * rewrite Hput. destruct (in_dec Nat.eq_dec k l) as [Hin|Hnin]; auto.
          apply where_eq_in in Hin as (m & -> & Hm). simpl in Ei. congruence.
  Qed.

  Definition layer_expected (k : nat) : cell :=
    match nth_error pts k, nth_error idxs k with
    | Some p, Some (Some i) => f i p
    | _, _ => CNaN
    end.
  Lemma layer_loop_spec us : forall values,
    (forall i, In i us -> i <> -1) ->
    (forall i ps, In i us -> val ps (slices ++ [i]) = Ok (map (f i) ps)) ->
    length values = length pts ->
    exists vs, layer_loop val slices pts idxs us values = Ok vs /\
      length vs = length pts /\
      forall k, nth_error vs k = match nth_error idxs k with
                | Some (Some i) => if in_dec Z.eq_dec i us then Some (layer_expected k) else nth_error values k
                | _ => nth_error values k end.
  Proof.
    induction us as [|u us IH]; intros values Hnb Hval Hlen; cbn [layer_loop].
    - exists values. split; [auto|]. split; [auto|]. intros k.
      destruct (nth_error idxs k) as [[i|]|]; auto.
    - rewrite (proj2 (Z.eqb_neq _ _) (Hnb u (or_introl eq_refl))).
      rewrite Hval by (simpl; auto). cbn [bind].
      set (l := where_eq 0 idxs u).
      rewrite (gather_map _ _ CNaN) by (intros j Hj; apply where_bound in Hj; lia).
      set (g := fun k => match nth_error pts k with Some a => f u a | None => CNaN end).
      destruct (IH (put_all values l (map g l))) as (vs & Hvs & Hvl & Hk).
      + intros i Hi. apply Hnb. right; auto.
      + intros i ps Hi. apply Hval. simpl. tauto.
      + rewrite put_all_len. auto.
      + exists vs. split; [auto|]. split; [auto|]. intros k. rewrite Hk.
        assert (Hput : nth_error (put_all values l (map g l)) k =
                 if in_dec Nat.eq_dec k l then Some (g k) else nth_error values k).
        { apply put_all_spec; [apply where_eq_nodup|]. intros j Hj. apply where_bound in Hj. lia. }
        destruct (nth_error idxs k) as [[i|]|] eqn:Ei.
        * destruct (in_dec Z.eq_dec i us) as [Hi|Hi]; destruct (in_dec Z.eq_dec i (u :: us)) as [Hi'|Hi']; auto.
          -- exfalso. apply Hi'. right; auto.
          -- destruct Hi' as [->|]; [|contradiction]. rewrite Hput.
             destruct (in_dec Nat.eq_dec k l) as [Hin|Hnin].
             ++ f_equal. unfold g, layer_expected. rewrite Ei. destruct (nth_error pts k); auto.
             ++ exfalso. apply Hnin. apply where_eq_in. exists k. auto.
          -- rewrite Hput. destruct (in_dec Nat.eq_dec k l) as [Hin|Hnin]; auto.
             apply where_eq_in in Hin as (m & -> & Hm). simpl in Ei. rewrite Hm in Ei.
             injection Ei as ->. exfalso. apply Hi'. left; auto.
        * rewrite Hput. destruct (in_dec Nat.eq_dec k l) as [Hin|Hnin]; auto.
          apply where_eq_in in Hin as (m & -> & Hm). simpl in Ei. congruence.
        * rewrite Hput. destruct (in_dec Nat.eq_dec k l) as [Hin|Hnin]; auto.
          apply where_eq_in in Hin as (m & -> & Hm). simpl in Ei. congruence.
  Qed.

  Lemma nth_error_map' {A B} (g : A -> B) l k : nth_error (map g l) k = option_map g (nth_error l k).
  Proof. revert k; induction l; intros [|k]; simpl; auto. Qed.
  Lemma all_masked : forallb (fun o : option Z => match o with None => true | _ => false end) idxs = true ->
    forall k o, nth_error idxs k = Some o -> o = None.
  Proof.
    intros H k o Hk. rewrite forallb_forall in H. apply nth_error_In in Hk. apply H in Hk.
    destruct o; [discriminate|auto].
  Qed.

  Lemma depth_level layers : ndim <> layers ->
    (forall i, In (Some i) idxs -> i <> Z.of_nat ndim - 1) ->
    (forall i ps, In (Some i) idxs \/ In (Some (i - 1)) idxs -> val ps (slices ++ [i]) = Ok (map (f i) ps)) ->
    exists vs, depth_interp ndim val slices pts idxs alphas layers = Ok vs /\ length vs = length pts /\
      forall k p o a, nth_error pts k = Some p -> nth_error idxs k = Some o -> nth_error alphas k = Some a ->
        nth_error vs k = Some (match o with
                               | None => CMasked
                               | Some i => cell_lerp (f i p) (f (i + 1) p) a end).
  Proof.
    intros Hl Hnb Hval. unfold depth_interp.
    destruct (forallb _ idxs) eqn:Em.
    - eexists. split; [reflexivity|]. split; [apply map_length|].
      intros k p o a Hp Ho Ha. rewrite nth_error_map', Hp. rewrite (all_masked Em k o Ho). reflexivity.
    - rewrite (proj2 (Nat.eqb_neq _ _) Hl).
      destruct (level_loop_spec (unique_unmasked idxs) None
        (map (fun o => match o with None => CMasked | Some _ => CNaN end) idxs)) as (vs & E & El & Hk).
      + intros i Hi. apply Hnb. apply unique_unmasked_in; auto.
      + intros i ps Hi. apply Hval. rewrite !unique_unmasked_in in Hi. auto.
      + rewrite map_length. auto.
      + exists vs. split; [auto|]. split; [auto|]. intros k p o a Hp Ho Ha. rewrite Hk, Ho.
        destruct o as [i|].
        * destruct (in_dec Z.eq_dec i (unique_unmasked idxs)) as [Hi|Hi].
          -- unfold expected. rewrite Hp, Ho, Ha. reflexivity.
          -- exfalso. apply Hi. apply unique_unmasked_in. eapply nth_error_In; eauto.
        * rewrite nth_error_map', Ho. reflexivity.
  Qed.

  Lemma depth_layer layers : ndim = layers ->
    (forall i, In (Some i) idxs -> i <> -1) ->
    (forall i ps, In (Some i) idxs -> val ps (slices ++ [i]) = Ok (map (f i) ps)) ->
    exists vs, depth_interp ndim val slices pts idxs alphas layers = Ok vs /\ length vs = length pts /\
      forall k p o, nth_error pts k = Some p -> nth_error idxs k = Some o ->
        nth_error vs k = Some (match o with None => CMasked | Some i => f i p end).
  Proof.
    intros Hl Hnb Hval. unfold depth_interp.
    destruct (forallb _ idxs) eqn:Em.
    - eexists. split; [reflexivity|]. split; [apply map_length|].
      intros k p o Hp Ho. rewrite nth_error_map', Hp. rewrite (all_masked Em k o Ho). reflexivity.
    - rewrite (proj2 (Nat.eqb_eq _ _) Hl).
      destruct (layer_loop_spec (unique_unmasked idxs)
        (map (fun o => match o with None => CMasked | Some _ => CNaN end) idxs)) as (vs & E & El & Hk).
      + intros i Hi. apply Hnb. apply unique_unmasked_in; auto.
      + intros i ps Hi. apply Hval. rewrite unique_unmasked_in in Hi. auto.
      + rewrite map_length. auto.
      + exists vs. split; [auto|]. split; [auto|]. intros k p o Hp Ho. rewrite Hk, Ho.
        destruct o as [i|].
        * destruct (in_dec Z.eq_dec i (unique_unmasked idxs)) as [Hi|Hi].
          -- unfold layer_expected. rewrite Hp, Ho. reflexivity.
          -- exfalso. apply Hi. apply unique_unmasked_in. eapply nth_error_In; eauto.
        * rewrite nth_error_map', Ho. reflexivity.
  Qed.

  (** If every unmasked point sits at the last level the call always fails. *)
  Lemma depth_last_only layers : ndim <> layers -> (exists i, In (Some i) idxs) ->
    (forall i, In (Some i) idxs -> i = Z.of_nat ndim - 1) ->
    depth_interp ndim val slices pts idxs alphas layers = Err UnboundLocalError.
  Proof.
    intros Hl [i0 H0] Hall. unfold depth_interp.
    destruct (forallb _ idxs) eqn:Em.
    - rewrite forallb_forall in Em. apply Em in H0. discriminate.
    - rewrite (proj2 (Nat.eqb_neq _ _) Hl).
      destruct (unique_unmasked idxs) as [|u us] eqn:Eu.
      + apply unique_unmasked_in in H0. rewrite Eu in H0. destruct H0.
      + cbn [level_loop].
        assert (Hu : u = Z.of_nat ndim - 1).
        { apply Hall. apply unique_unmasked_in. rewrite Eu. left; auto. }
        rewrite (proj2 (Z.eqb_eq _ _) Hu). reflexivity.
  Qed.
End DepthInterp.
