From Coq Require Import String Lqa Qabs.
From Verif Require Import Common CommonProofs VariableModel DepthModel DepthSpec DepthProofs
  UGridGeomModel RGridModel RGridSpec.
Open Scope Q_scope.

(** ** locate_faces *)
Lemma asc_not_desc l : Ascending l -> (2 <= length l)%nat -> ~ Descending l.
Proof.
  intros HA Hn HD. destruct l as [|a [|b r]]; cbn [length] in Hn; try lia.
  specialize (HA 0%nat 1%nat a b ltac:(lia) eq_refl eq_refl).
  specialize (HD 0%nat 1%nat a b ltac:(lia) eq_refl eq_refl). lra.
Qed.
Lemma incell_len axis p i : InCell axis p i -> (S i < length axis)%nat.
Proof. intros (a & b & _ & H & _). eapply nth_error_Some_lt; eauto. Qed.

Lemma axis_index_spec axis q : Monotone axis -> (2 <= length axis)%nat ->
  exists z, axis_index axis (Some q) = Ok z /\
    ((exists i, z = Z.of_nat i /\ InCell axis q i) \/ (z = (-1)%Z /\ ~ OnAxis axis q)).
Proof.
  intros HM Hn. unfold axis_index. cbn [digitize_or_nan].
  assert (exists k, digitize q axis false = Ok k /\ split_point (fun b =>
      if nondecreasingb axis then before false q b else negb (before false q b)) axis k /\
      (if nondecreasingb axis then Ascending axis else Descending axis)) as (k & E & (Hk & K1 & K2) & HA).
  { destruct HM as [HA|HD].
    - rewrite asc_nondecreasing by auto. destruct (digitize_asc axis q false HA) as (k & E & Hs). eauto.
    - rewrite desc_not_nondecreasing by auto. destruct (digitize_desc axis q false HD Hn) as (k & E & Hs). eauto. }
  rewrite E. cbn [bind]. cbv zeta. eexists. split; [reflexivity|].
  unfold before in K1, K2. cbn [negb] in K1, K2.
  destruct (Z.eqb_spec (Z.of_nat k - 1) (Z.of_nat (length axis) - 1)) as [Ek|Ek].
  - right. split; auto. assert (k = length axis) by lia. subst k. intros (i & a & b & Ha & Hb & H).
    pose proof (nth_error_Some_lt _ _ _ Hb) as Hl.
    specialize (K1 (S i) b Hl Hb). destruct (nondecreasingb axis).
    + apply Qle_bool_iff in K1. destruct H as [[_ H]|[H _]]; [lra|]. exact (asc_not_desc _ HA Hn H).
    + apply negb_true_iff in K1. apply Qle_bool_false in K1. destruct H as [[H _]|[_ H]]; [|lra].
      exact (asc_not_desc _ H Hn HA).
  - assert (k < length axis)%nat by lia. destruct k as [|k].
    + right. split; auto. intros (i & a & b & Ha & Hb & H').
      specialize (K2 i a ltac:(lia) Ha). destruct (nondecreasingb axis).
      * apply Qle_bool_false in K2. destruct H' as [[_ H']|[H' _]]; [lra|]. exact (asc_not_desc _ HA Hn H').
      * apply negb_false_iff in K2. apply Qle_bool_iff in K2. destruct H' as [[H' _]|[_ H']]; [|lra].
        exact (asc_not_desc _ H' Hn HA).
    + left. exists k. split; [lia|]. destruct (nth_error_lt_Some axis k) as [a Ha]; [lia|].
      destruct (nth_error_lt_Some axis (S k)) as [b Hb]; [lia|]. exists a, b. split; auto. split; auto.
      specialize (K1 k a ltac:(lia) Ha). specialize (K2 (S k) b ltac:(lia) Hb).
      destruct (nondecreasingb axis).
      * left. split; auto. apply Qle_bool_iff in K1. apply Qle_bool_false in K2. lra.
      * right. split; auto. apply negb_true_iff in K1. apply negb_false_iff in K2.
        apply Qle_bool_false in K1. apply Qle_bool_iff in K2. lra.
Qed.
Lemma axis_index_nan axis : Monotone axis -> axis_index axis None = Ok (-1)%Z.
Proof.
  intros HM. unfold axis_index. cbn [digitize_or_nan]. destruct HM as [HA|HD].
  - rewrite asc_nondecreasing by auto. cbn [bind]. cbv zeta. rewrite Z.eqb_refl. reflexivity.
  - destruct (nondecreasingb axis).
    + cbn [bind]. cbv zeta. rewrite Z.eqb_refl. reflexivity.
    + rewrite desc_nonincreasing by auto. cbn [bind]. cbv zeta. rewrite Nat.sub_diag.
      destruct (Z.eqb_spec (Z.of_nat 0 - 1) (Z.of_nat (length axis) - 1)); reflexivity.
Qed.
Lemma axis_index_bad axis x : nondecreasingb axis = false -> nonincreasingb axis = false ->
  axis_index axis x = Err ValueError.
Proof. intros H1 H2. unfold axis_index, digitize_or_nan, digitize. destruct x; rewrite H1, H2; reflexivity. Qed.

Lemma incell_unique axis p i j : InCell axis p i -> InCell axis p j -> i = j.
Proof.
  intros Hi Hj. pose proof (incell_len _ _ _ Hi) as Li. pose proof (incell_len _ _ _ Hj) as Lj.
  destruct Hi as (a & b & Ha & Hb & H1). destruct Hj as (c & d & Hc & Hd & H2).
  assert (N : (2 <= length axis)%nat) by lia.
  destruct (Nat.lt_trichotomy i j) as [H|[H|H]]; auto; exfalso.
  - destruct H1 as [[HA H1]|[HA H1]]; destruct H2 as [[HB H2]|[HB H2]];
      try exact (asc_not_desc axis HA N HB); try exact (asc_not_desc axis HB N HA).
    + destruct (Nat.eq_dec (S i) j) as [<-|Hne]; [rewrite Hb in Hc; injection Hc as ->; lra|].
      specialize (HA (S i) j b c ltac:(lia) Hb Hc). lra.
    + destruct (Nat.eq_dec (S i) j) as [<-|Hne]; [rewrite Hb in Hc; injection Hc as ->; lra|].
      specialize (HA (S i) j b c ltac:(lia) Hb Hc). lra.
  - destruct H1 as [[HA H1]|[HA H1]]; destruct H2 as [[HB H2]|[HB H2]];
      try exact (asc_not_desc axis HA N HB); try exact (asc_not_desc axis HB N HA).
    + destruct (Nat.eq_dec (S j) i) as [<-|Hne]; [rewrite Hd in Ha; injection Ha as ->; lra|].
      specialize (HA (S j) i d a ltac:(lia) Hd Ha). lra.
    + destruct (Nat.eq_dec (S j) i) as [<-|Hne]; [rewrite Hd in Ha; injection Ha as ->; lra|].
      specialize (HA (S j) i d a ltac:(lia) Hd Ha). lra.
Qed.

Lemma locate_spec g x y : Monotone (rg_lon g) -> Monotone (rg_lat g) ->
  (2 <= length (rg_lon g))%nat -> (2 <= length (rg_lat g))%nat ->
  exists i j, locate_one g (Some x, Some y) = Ok (i, j) /\
    ((exists a b, i = Z.of_nat a /\ j = Z.of_nat b /\ InCell (rg_lon g) x a /\ InCell (rg_lat g) y b) \/
     (i = (-1)%Z /\ j = (-1)%Z /\ ~ (OnAxis (rg_lon g) x /\ OnAxis (rg_lat g) y))).
Proof.
  intros H1 H2 N1 N2. unfold locate_one. cbn [fst snd].
  destruct (axis_index_spec (rg_lon g) x H1 N1) as (i & -> & Hi).
  destruct (axis_index_spec (rg_lat g) y H2 N2) as (j & -> & Hj). cbn [bind]. cbv zeta.
  do 2 eexists. split; [reflexivity|].
  destruct Hj as [(b & -> & Hb)|(-> & Hb)].
  - assert (E : (Z.of_nat b =? -1)%Z = false) by (apply Z.eqb_neq; lia). rewrite E.
    destruct Hi as [(a & -> & Ha)|(-> & Ha)].
    + assert (E' : (Z.of_nat a =? -1)%Z = false) by (apply Z.eqb_neq; lia). rewrite E'.
      left. exists a, b. auto.
    + right. cbn. repeat split; auto. tauto.
  - right. cbn. repeat split; auto. tauto.
Qed.
Lemma locate_nan g p : Monotone (rg_lon g) -> Monotone (rg_lat g) ->
  (2 <= length (rg_lon g))%nat -> (2 <= length (rg_lat g))%nat ->
  fst p = None \/ snd p = None -> locate_one g p = Ok (-1, -1)%Z.
Proof.
  intros H1 H2 N1 N2 Hp. unfold locate_one. destruct p as [x y]. cbn [fst snd] in *.
  destruct Hp as [-> | ->].
  - rewrite axis_index_nan by auto. cbn [bind]. destruct y as [y|].
    + destruct (axis_index_spec (rg_lat g) y H2 N2) as (j & -> & _). cbn [bind]. cbv zeta.
      destruct (j =? -1)%Z; reflexivity.
    + rewrite axis_index_nan by auto. reflexivity.
  - rewrite (axis_index_nan (rg_lat g)) by auto. destruct x as [x|].
    + destruct (axis_index_spec (rg_lon g) x H1 N1) as (j & -> & _). reflexivity.
    + rewrite axis_index_nan by auto. reflexivity.
Qed.

(** ** centers *)
Lemma midpoints_spec l : length (midpoints l) = (length l - 1)%nat /\
  forall k a b, nth_error l k = Some a -> nth_error l (S k) = Some b ->
  nth_error (midpoints l) k = Some ((a + b) / 2).
Proof.
  induction l as [|x l IH]; [split; auto; intros [|k]; discriminate|].
  destruct l as [|y r]; [split; auto; intros [|k]; cbn; try discriminate; destruct k; discriminate|].
  destruct IH as [L K]. cbn [midpoints length] in *. split; [lia|].
  intros [|k] a b Ha Hb; cbn [nth_error] in Ha, Hb |- *.
  - injection Ha as <-. injection Hb as <-. reflexivity.
  - apply K; auto.
Qed.
Lemma meshgrid_spec lon lat : length (meshgrid lon lat) = length lat /\
  Forall (fun r => length r = length lon) (meshgrid lon lat) /\
  forall i j x y, nth_error lon i = Some x -> nth_error lat j = Some y ->
  exists r, nth_error (meshgrid lon lat) j = Some r /\ nth_error r i = Some (x, y).
Proof.
  unfold meshgrid. split; [apply map_length|]. split.
  - apply Forall_map. apply Forall_forall. intros y _. apply map_length.
  - intros i j x y Hx Hy. eexists. split; [apply map_nth_error; eauto|].
    apply (map_nth_error (fun x0 => (x0, y))). auto.
Qed.

(** ** bracket *)
Lemma strict_asc l : strictb Qlt_bool l = true <-> Ascending l.
Proof.
  split.
  - induction l as [|x l IH]; intros H; [intros [|i] ? ? ? ?; discriminate|].
    destruct l as [|y r].
    { intros i [|j] a b Hij Ha Hb; [lia|]; cbn in Hb; destruct j; discriminate. }
    cbn [strictb] in H. apply andb_prop in H. destruct H as [Hxy H]. apply Qlt_bool_iff in Hxy.
    specialize (IH H). intros i j a b Hij Ha Hb. destruct j as [|j]; [lia|].
    destruct i as [|i]; [|eapply (IH i j); eauto; lia].
    cbn [nth_error] in Ha. injection Ha as <-. cbn [nth_error] in Hb.
    destruct j as [|j]; cbn [nth_error] in Hb; [injection Hb as <-; auto|].
    specialize (IH 0%nat (S j) y b ltac:(lia) eq_refl Hb). lra.
  - induction l as [|x l IH]; intros H; auto. destruct l as [|y r]; auto.
    cbn [strictb]. apply andb_true_intro. split.
    + apply Qlt_bool_iff. apply (H 0%nat 1%nat); auto.
    + apply IH. intros i j a b Hij Ha Hb. apply (H (S i) (S j)); auto. lia.
Qed.
Lemma strict_desc l : strictb (fun a b => Qlt_bool b a) l = true <-> Descending l.
Proof.
  split.
  - induction l as [|x l IH]; intros H; [intros [|i] ? ? ? ?; discriminate|].
    destruct l as [|y r].
    { intros i [|j] a b Hij Ha Hb; [lia|]; cbn in Hb; destruct j; discriminate. }
    cbn [strictb] in H. apply andb_prop in H. destruct H as [Hxy H]. apply Qlt_bool_iff in Hxy.
    specialize (IH H). intros i j a b Hij Ha Hb. destruct j as [|j]; [lia|].
    destruct i as [|i]; [|eapply (IH i j); eauto; lia].
    cbn [nth_error] in Ha. injection Ha as <-. cbn [nth_error] in Hb.
    destruct j as [|j]; cbn [nth_error] in Hb; [injection Hb as <-; auto|].
    specialize (IH 0%nat (S j) y b ltac:(lia) eq_refl Hb). lra.
  - induction l as [|x l IH]; intros H; auto. destruct l as [|y r]; auto.
    cbn [strictb]. apply andb_true_intro. split.
    + apply Qlt_bool_iff. apply (H 0%nat 1%nat); auto.
    + apply IH. intros i j a b Hij Ha Hb. apply (H (S i) (S j)); auto. lia.
Qed.

Definition bracket_ok (axis : list Q) (p : Q) (r : option ((nat * Q) * (nat * Q))) : Prop :=
  match r with
  | Some ((i, u), (j, v)) => Neighbours axis p i j u v /\ Spans axis p
  | None => ~ Spans axis p
  end.
Lemma nth_some {A} (l : list A) k x d : nth_error l k = Some x -> nth k l d = x.
Proof. intros H. apply nth_error_nth with (d := d) in H. exact H. Qed.
Lemma bracket_asc_spec axis p : Ascending axis -> (2 <= length axis)%nat ->
  bracket_ok axis p (bracket_asc axis p).
Proof.
  intros HA Hn. unfold bracket_asc. cbv zeta.
  pose proof (searchsorted_spec (before false p) axis (asc_splits axis false p HA)) as (Hk & K1 & K2).
  change (searchsortedQ true axis p) with (searchsorted (before false p) axis).
  set (s := searchsorted (before false p) axis) in *. unfold before in K1, K2. cbn [negb] in K1, K2.
  destruct (nth_error_lt_Some axis 0) as [f Hf]; [lia|].
  destruct (nth_error_lt_Some axis (length axis - 1)) as [l Hl]; [lia|].
  rewrite (nth_some _ _ _ 0 Hf), (nth_some _ _ _ 0 Hl).
  assert (f < l) by (apply (HA 0%nat (length axis - 1)%nat); auto; lia).
  destruct (Qle_bool f p) eqn:E1; [destruct (Qle_bool p l) eqn:E2|]; cbn [andb].
  - apply Qle_bool_iff in E1, E2. set (k := Nat.min (s - 1) (length axis - 2)).
    destruct (nth_error_lt_Some axis k) as [x Hx]; [lia|].
    destruct (nth_error_lt_Some axis (S k)) as [y Hy]; [lia|].
    rewrite (nth_some _ _ _ 0 Hx), (nth_some _ _ _ 0 Hy).
    assert (Hs : (0 < s)%nat).
    { destruct (Nat.eq_dec s 0) as [E|E]; [|lia]. specialize (K2 0%nat f ltac:(lia) Hf). apply Qle_bool_false in K2. lra. }
    assert (Hxp : x <= p) by (apply Qle_bool_iff; apply (K1 k x); auto; lia).
    assert (Hpy : p <= y).
    { destruct (Nat.lt_ge_cases (S k) s) as [Hlt|Hge].
      - assert (S k = length axis - 1)%nat by lia. rewrite H0 in Hy. rewrite Hl in Hy. injection Hy as <-. auto.
      - specialize (K2 (S k) y ltac:(lia) Hy). apply Qle_bool_false in K2. lra. }
    assert (x < y) by (apply (HA k (S k)); auto).
    destruct (alpha_bracket x y p) as [[A1 A2] A3]; [intros ?; lra|left; lra|].
    split.
    + exists x, y. split; auto. split; auto. split; [lia|]. split; [lra|]. split; [lra|]. split; [ring|]. rewrite A3 at 1. ring.
    + exists f, l. split; auto.
  - apply Qle_bool_false in E2. intros (a & b & Ha & Hb & H'). unfold First, Last in *.
    rewrite Hf in Ha. rewrite Hl in Hb. injection Ha as <-. injection Hb as <-. lra.
  - apply Qle_bool_false in E1. intros (a & b & Ha & Hb & H'). unfold First, Last in *.
    rewrite Hf in Ha. rewrite Hl in Hb. injection Ha as <-. injection Hb as <-. lra.
Qed.
Lemma spans_rev axis p : Spans (rev axis) p <-> Spans axis p.
Proof.
  assert (H : forall l q, (0 < length l)%nat -> Spans (rev l) q -> Spans l q).
  { intros l q Hl (a & b & Ha & Hb & H). unfold First, Last in *. rewrite rev_length in Hb.
    rewrite nth_error_rev in Ha, Hb by lia.
    exists b, a. unfold First, Last. replace (length l - 1 - (length l - 1))%nat with 0%nat in Hb by lia.
    replace (length l - 1 - 0)%nat with (length l - 1)%nat in Ha by lia. repeat split; auto. tauto. }
  assert (E : forall l q, Spans l q -> (0 < length l)%nat).
  { intros l q (a & b & Ha & _). unfold First in Ha. apply nth_error_Some_lt in Ha. auto. }
  split; intros Hs.
  - apply H; auto. apply E in Hs. rewrite rev_length in Hs. auto.
  - apply H; [|rewrite rev_involutive; auto]. rewrite rev_length. eauto.
Qed.
Lemma bracket_spec axis p : Monotone axis -> (2 <= length axis)%nat -> bracket_ok axis p (bracket axis p).
Proof.
  intros HM Hn. unfold bracket. destruct (strictb Qlt_bool axis) eqn:E.
  - apply strict_asc in E. apply bracket_asc_spec; auto.
  - assert (HD : Descending axis).
    { destruct HM as [HA|]; auto. apply strict_asc in HA. congruence. }
    pose proof (bracket_asc_spec (rev axis) p (desc_rev_asc _ HD) ltac:(rewrite rev_length; lia)) as H.
    destruct (bracket_asc (rev axis) p) as [[[i u] [j v]]|]; cbn [bracket_ok fst snd] in *.
    + destruct H as [(x & y & Hx & Hy & Hij & Hw) Hs]. split; [|apply spans_rev; auto].
      pose proof (nth_error_Some_lt _ _ _ Hx) as Lx. pose proof (nth_error_Some_lt _ _ _ Hy) as Ly.
      rewrite rev_length in Lx, Ly. rewrite nth_error_rev in Hx, Hy by auto.
      exists x, y. split; auto. split; auto. split; auto. lia.
    + rewrite <- spans_rev. auto.
Qed.

(** ** the interpolator *)
Lemma vget_table vals ny nx i j : Table vals ny nx -> (i < ny)%nat -> (j < nx)%nat ->
  exists q, vget vals i j = CVal q /\ At vals i j q.
Proof.
  intros [L F] Hi Hj. destruct (nth_error_lt_Some vals i) as [r Hr]; [lia|].
  rewrite Forall_forall in F. destruct (F r (nth_error_In _ _ Hr)) as [Lr Fr].
  destruct (nth_error_lt_Some r j) as [c Hc]; [lia|].
  rewrite Forall_forall in Fr. destruct (Fr c (nth_error_In _ _ Hc)) as [q ->].
  exists q. unfold vget, At. rewrite (nth_some _ _ _ [] Hr), (nth_some _ _ _ CNaN Hc). eauto.
Qed.
Lemma neighbours_lt axis p i j u v : Neighbours axis p i j u v -> (i < length axis)%nat /\ (j < length axis)%nat.
Proof. intros (x & y & Hx & Hy & _). split; eapply nth_error_Some_lt; eauto. Qed.
Lemma rgi_eval_spec y x vals py px : Monotone y -> Monotone x -> (2 <= length y)%nat -> (2 <= length x)%nat ->
  Table vals (length y) (length x) ->
  exists q, rgi_eval y x vals (py, px) = CVal q /\
    ((Spans y py /\ Spans x px /\ BilinearAt y x vals py px q) \/ (~ (Spans y py /\ Spans x px) /\ q == 0)).
Proof.
  intros Hy Hx Ny Nx HT. unfold rgi_eval. cbn [fst snd].
  pose proof (bracket_spec y py Hy Ny) as By. pose proof (bracket_spec x px Hx Nx) as Bx.
  destruct (bracket y py) as [[[i u] [i' u']]|]; [|exists 0; split; auto; right; split; [cbn [bracket_ok] in *; tauto|reflexivity]].
  destruct (bracket x px) as [[[j v] [j' v']]|]; [|exists 0; split; auto; right; split; [cbn [bracket_ok] in *; tauto|reflexivity]].
  cbn [bracket_ok] in *. destruct By as [By Sy]. destruct Bx as [Bx Sx].
  destruct (neighbours_lt _ _ _ _ _ _ By) as [Li Li']. destruct (neighbours_lt _ _ _ _ _ _ Bx) as [Lj Lj'].
  destruct (vget_table vals _ _ i j HT Li Lj) as (a & -> & Ha).
  destruct (vget_table vals _ _ i j' HT Li Lj') as (b & -> & Hb).
  destruct (vget_table vals _ _ i' j HT Li' Lj) as (c & -> & Hc).
  destruct (vget_table vals _ _ i' j' HT Li' Lj') as (d & -> & Hd).
  cbn [cell_mul cell_add]. eexists. split; [reflexivity|]. left. split; auto. split; auto.
  exists i, i', u, u', j, j', v, v', a, b, c, d. repeat split; auto. ring.
Qed.
Lemma monotone_ok axis : Monotone axis -> rgi_ok axis = true.
Proof.
  unfold rgi_ok. intros [H|H].
  - apply strict_asc in H. rewrite H. auto.
  - apply strict_desc in H. rewrite H. apply orb_true_r.
Qed.
Lemma ok_monotone axis : rgi_ok axis = true -> Monotone axis.
Proof.
  unfold rgi_ok. intros H. apply orb_prop in H. destruct H as [H|H].
  - left. apply strict_asc. auto.
  - right. apply strict_desc. auto.
Qed.
Lemma rgi_make_ok y x vals : Monotone y -> Monotone x -> (2 <= length y)%nat -> (2 <= length x)%nat ->
  Table vals (length y) (length x) -> rgi_make y x vals = Ok tt.
Proof.
  intros Hy Hx Ny Nx [L F]. unfold rgi_make. rewrite !monotone_ok by auto. cbn [andb negb].
  rewrite L, Nat.eqb_refl. cbn [andb].
  assert (E : forallb (fun r => (length r =? length x)%nat) vals = true).
  { apply forallb_forall. intros r Hr. rewrite Forall_forall in F. apply Nat.eqb_eq. apply (F r Hr). }
  rewrite E. cbn [negb]. destruct (Nat.ltb_spec (length y) 2); [lia|]. destruct (Nat.ltb_spec (length x) 2); [lia|].
  reflexivity.
Qed.

(** ** facts about bilinear values *)
Lemma bilinear_exact y x vals py px q A B C D :
  (forall i j a b v, nth_error y i = Some a -> nth_error x j = Some b -> At vals i j v ->
     v == A * a + B * b + C * (a * b) + D) ->
  BilinearAt y x vals py px q -> q == A * py + B * px + C * (py * px) + D.
Proof.
  intros HV (i & i' & u & u' & j & j' & v & v' & a & b & c & d &
    (y1 & y2 & Hy1 & Hy2 & _ & _ & _ & Su & Ey) & (x1 & x2 & Hx1 & Hx2 & _ & _ & _ & Sv & Ex) & Ha & Hb & Hc & Hd & E).
  rewrite E, (HV _ _ _ _ _ Hy1 Hx1 Ha), (HV _ _ _ _ _ Hy1 Hx2 Hb), (HV _ _ _ _ _ Hy2 Hx1 Hc), (HV _ _ _ _ _ Hy2 Hx2 Hd).
  rewrite Ey, Ex. assert (Eu : u' == 1 - u) by lra. assert (Ev : v' == 1 - v) by lra. rewrite Eu, Ev. ring.
Qed.
Lemma weighted_bounds u u' a b lo hi : 0 <= u -> 0 <= u' -> u + u' == 1 ->
  lo <= a <= hi -> lo <= b <= hi -> lo <= u * a + u' * b <= hi.
Proof. intros. assert (u' == 1 - u) by lra. split; nra. Qed.
Lemma bilinear_bounds y x vals py px q lo hi :
  (forall i j v, At vals i j v -> lo <= v <= hi) ->
  BilinearAt y x vals py px q -> lo <= q <= hi.
Proof.
  intros HV (i & i' & u & u' & j & j' & v & v' & a & b & c & d &
    (y1 & y2 & _ & _ & _ & U1 & U2 & Su & _) & (x1 & x2 & _ & _ & _ & V1 & V2 & Sv & _) & Ha & Hb & Hc & Hd & E).
  assert (E' : q == u * (v * a + v' * b) + u' * (v * c + v' * d)) by (rewrite E; ring). rewrite E'.
  apply weighted_bounds; auto; apply weighted_bounds; eauto.
Qed.
(** At an entry of the axis the whole weight is on it. *)
Lemma neighbours_at axis p k i j u v : Monotone axis -> nth_error axis k = Some p ->
  Neighbours axis p i j u v -> (i = k /\ u == 1 /\ v == 0) \/ (j = k /\ v == 1 /\ u == 0).
Proof.
  intros HM Hk (x & y & Hx & Hy & Hij & U & V & S & E).
  assert (forall a b, (a < b)%nat -> forall s t, nth_error axis a = Some s -> nth_error axis b = Some t ->
           (if strictb Qlt_bool axis then s < t else t < s)) as Hord.
  { intros a b Hab s t Hs Ht. destruct (strictb Qlt_bool axis) eqn:Es.
    - apply strict_asc in Es. eapply Es; eauto.
    - destruct HM as [HA|HD]; [apply strict_asc in HA; congruence|]. eapply HD; eauto. }
  assert (Hd : forall a b, a <> b -> forall s t, nth_error axis a = Some s -> nth_error axis b = Some t -> ~ s == t).
  { intros a b Hab s t Hs Ht. destruct (Nat.lt_trichotomy a b) as [H|[H|H]]; [|congruence|].
    - specialize (Hord _ _ H _ _ Hs Ht). destruct (strictb Qlt_bool axis); intros ?; lra.
    - specialize (Hord _ _ H _ _ Ht Hs). destruct (strictb Qlt_bool axis); intros ?; lra. }
  destruct (Nat.eq_dec i k) as [->|Ni].
  { left. rewrite Hx in Hk. injection Hk as ->. split; auto.
    assert (Hv : v * (y - p) == 0) by (assert (u == 1 - v) by lra; nra).
    apply Qmult_integral in Hv. destruct Hv as [Hv|Hv]; [split; lra|].
    exfalso. apply (Hd k j ltac:(lia) p y Hx Hy). lra. }
  destruct (Nat.eq_dec j k) as [->|Nj].
  { right. rewrite Hy in Hk. injection Hk as ->. split; auto.
    assert (Hv : u * (x - p) == 0) by (assert (v == 1 - u) by lra; nra).
    apply Qmult_integral in Hv. destruct Hv as [Hv|Hv]; [split; lra|].
    exfalso. apply (Hd k i ltac:(lia) p x Hy Hx). lra. }
  exfalso. assert (Hs : u * (p - x) + v * (p - y) == 0).
  { setoid_replace (u * (p - x) + v * (p - y)) with ((u + v) * p - (u * x + v * y)) by ring. rewrite S, <- E. ring. }
  destruct (Nat.lt_ge_cases k i) as [Hlt|Hge].
  - pose proof (Hord k i Hlt _ _ Hk Hx) as O1. pose proof (Hord k j ltac:(lia) _ _ Hk Hy) as O2.
    destruct (strictb Qlt_bool axis); destruct (Qlt_le_dec 0 u); nra.
  - pose proof (Hord i k ltac:(lia) _ _ Hx Hk) as O1. pose proof (Hord j k ltac:(lia) _ _ Hy Hk) as O2.
    destruct (strictb Qlt_bool axis); destruct (Qlt_le_dec 0 u); nra.
Qed.
Lemma at_fun vals i j a b : At vals i j a -> At vals i j b -> a = b.
Proof. intros (r & Hr & Ha) (r' & Hr' & Hb). congruence. Qed.
Lemma bilinear_at_node y x vals k l py px w q : Monotone y -> Monotone x ->
  nth_error y k = Some py -> nth_error x l = Some px -> At vals k l w ->
  BilinearAt y x vals py px q -> q == w.
Proof.
  intros My Mx Hk Hl Hw (i & i' & u & u' & j & j' & v & v' & a & b & c & d & Ny & Nx & Ha & Hb & Hc & Hd & E).
  destruct (neighbours_at _ _ _ _ _ _ _ My Hk Ny) as [(-> & E1 & E2)|(-> & E1 & E2)];
  destruct (neighbours_at _ _ _ _ _ _ _ Mx Hl Nx) as [(-> & F1 & F2)|(-> & F1 & F2)];
  rewrite E, E1, E2, F1, F2.
  - rewrite (at_fun _ _ _ _ _ Ha Hw). ring.
  - rewrite (at_fun _ _ _ _ _ Hb Hw). ring.
  - rewrite (at_fun _ _ _ _ _ Hc Hw). ring.
  - rewrite (at_fun _ _ _ _ _ Hd Hw). ring.
Qed.

(** ** orientation *)
Lemma last2_two {A} (l : list A) a b : last2 (l ++ [a; b]) = [a; b].
Proof.
  unfold last2. rewrite app_length. cbn [length]. replace (length l + 2 - 2)%nat with (length l + 0)%nat by lia.
  rewrite skipn_app, skipn_all2 by lia. replace (length l + 0 - length l)%nat with 0%nat by lia. reflexivity.
Qed.
Lemma last2_nil {A} (l : list A) : last2 l = [] -> l = [].
Proof.
  intros H. apply (f_equal (@length A)) in H. unfold last2 in H. rewrite skipn_length in H.
  destruct l; auto. cbn [length] in H. lia.
Qed.
Lemma last2_one {A} (l : list A) a : last2 l = [a] -> l = [a].
Proof.
  intros H. unfold last2 in H. pose proof (f_equal (@length A) H) as HL. rewrite skipn_length in HL. cbn [length] in HL.
  replace (length l - 2)%nat with 0%nat in H by lia. exact H.
Qed.
Lemma last2_some {A} (l : list A) a b r : last2 l = a :: b :: r -> r = [] /\ exists pre, l = pre ++ [a; b].
Proof.
  intros H. unfold last2 in H. assert (r = []).
  { apply (f_equal (@length A)) in H. rewrite skipn_length in H. cbn [length] in H. destruct r; auto. cbn [length] in H. lia. }
  subst. split; auto. exists (firstn (length l - 2) l). rewrite <- H. symmetry. apply firstn_skipn.
Qed.
Lemma py2_0 {A} (a b : A) : py_get [a; b] 0 = Ok a. Proof. reflexivity. Qed.
Lemma py2_1 {A} (a b : A) : py_get [a; b] 1 = Ok b. Proof. reflexivity. Qed.
Lemma py1_0 {A} (a : A) : py_get [a] 0 = Ok a. Proof. reflexivity. Qed.
Lemma py1_1 {A} (a : A) : py_get [a] 1 = Err IndexError. Proof. reflexivity. Qed.
