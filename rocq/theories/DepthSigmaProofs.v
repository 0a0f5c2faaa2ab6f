(** Lemmas for the sigma depths. *)
From Coq Require Import String Lqa.
From Verif Require Import Common CommonProofs VariableModel DepthModel DepthSpec DepthProofs.
Open Scope Z_scope.

(** What the boundary conditions do to an index: nothing inside; masked outside
    unless "extrapolate" is asked for on that side. *)
Lemma s_boundary_spec surf bot sbc bbc i :
  (surf = 0 -> 0 < bot -> s_boundary surf bot sbc bbc false i =
     if i <? 0 then (Some 1%Q, negb (bextrap sbc))
     else if bot <=? i then (Some 0%Q, negb (bextrap bbc)) else (None, false)) /\
  (bot = 0 -> 0 < surf -> s_boundary surf bot sbc bbc false i =
     if i <? 0 then (Some 1%Q, negb (bextrap bbc))
     else if surf <=? i then (Some 0%Q, negb (bextrap sbc)) else (None, false)).
Proof.
  split; intros -> H; unfold s_boundary; rewrite !Z.geb_leb.
  - rewrite Z.eqb_refl. destruct (Z.ltb_spec i 0); destruct (Z.leb_spec bot i); try lia;
    destruct sbc, bbc; reflexivity.
  - assert (surf =? 0 = false) as -> by (apply Z.eqb_neq; lia).
    destruct (Z.ltb_spec i 0); destruct (Z.leb_spec surf i); try lia; destruct sbc, bbc; reflexivity.
Qed.
Lemma s_boundary_excluded surf bot sbc bbc i : snd (s_boundary surf bot sbc bbc true i) = true.
Proof. unfold s_boundary. cbv zeta. cbn [snd]. apply orb_true_r. Qed.

Definition SRowAsc (prof : list Q) (sbc bbc : bcond) (d : Q) (r : drow) : Prop :=
  forall a b, First prof a -> Last prof b ->
  (d < a -> r = if bextrap sbc then (Some (-1)%Z, Some 1) else (None, None))%Q /\
  (b <= d -> r = if bextrap bbc then (Some (Z.of_nat (length prof) - 1)%Z, Some 0) else (None, None))%Q /\
  (a <= d < b -> exists i al, r = (Some (Z.of_nat i), Some al) /\ Bracketed prof d i al)%Q.
Definition SRowDesc (prof : list Q) (sbc bbc : bcond) (d : Q) (r : drow) : Prop :=
  forall a b, First prof a -> Last prof b ->
  (a <= d -> r = if bextrap bbc then (Some (-1)%Z, Some 1) else (None, None))%Q /\
  (d < b -> r = if bextrap sbc then (Some (Z.of_nat (length prof) - 1)%Z, Some 0) else (None, None))%Q /\
  (b <= d < a -> exists i al, r = (Some (Z.of_nat i), Some al) /\ Bracketed prof d i al)%Q.

(** A point with index strictly between the ends. *)
Lemma s_point_inner surf bot sbc bbc d prof k x y :
  digitize d prof false = Ok k -> (1 <= k < length prof)%nat ->
  s_boundary surf bot sbc bbc false (Z.of_nat k - 1) = (None, false) ->
  nth_error prof (k - 1) = Some x -> nth_error prof k = Some y -> ~ (y - x == 0)%Q ->
  ((x <= d <= y) \/ (y <= d <= x))%Q ->
  s_point surf bot sbc bbc (d, Some prof) = Ok (Some (Z.of_nat (k - 1)), Some ((d - x) / (y - x))%Q) /\
  Bracketed prof d (k - 1) ((d - x) / (y - x)).
Proof.
  intros E Hk HB Hx Hy Hne Hb. unfold s_point. cbn [snd fst]. rewrite E. cbn [bind]. cbv zeta. rewrite HB.
  assert (clip 0 (Z.of_nat (length prof) - 2) (Z.of_nat k - 1) = Z.of_nat (k - 1)) as -> by (unfold clip; lia).
  rewrite (py_get_nat _ _ _ Hx). cbn [bind].
  replace (Z.of_nat (k - 1) + 1) with (Z.of_nat k) by lia. rewrite (py_get_nat _ _ _ Hy). cbn [bind].
  destruct (Qeq_bool (y - x) 0) eqn:Z0; [apply Qeq_bool_eq in Z0; contradiction|].
  destruct (alpha_bracket x y d Hne Hb) as ((A1 & A2) & A3).
  assert (Qlt_bool ((d - x) / (y - x)) 0 = false) as -> by (apply Qlt_bool_false; auto).
  assert (Qlt_bool 1 ((d - x) / (y - x)) = false) as -> by (apply Qlt_bool_false; auto).
  cbn [orb andb negb]. replace (Z.of_nat k - 1) with (Z.of_nat (k - 1)) by lia. split; [auto|].
  exists x, y. replace (S (k - 1)) with k by lia. auto.
Qed.

Lemma s_point_asc prof sbc bbc d : Ascending prof -> (2 <= length prof)%nat ->
  exists r, s_point 0 (Z.of_nat (length prof - 1)) sbc bbc (d, Some prof) = Ok r /\ SRowAsc prof sbc bbc d r.
Proof.
  intros HA Hn. destruct (digitize_asc prof d false HA) as (k & E & Hk & K1 & K2).
  destruct (s_boundary_spec 0 (Z.of_nat (length prof - 1)) sbc bbc (Z.of_nat k - 1)) as (HB & _).
  specialize (HB eq_refl ltac:(lia)).
  assert (Hends : forall a b, First prof a -> Last prof b -> (a < b)%Q).
  { intros a b Ha Hb. eapply HA; [|exact Ha|exact Hb]. lia. }
  destruct (Nat.eq_dec k 0) as [->|Hk0]; [|destruct (Nat.eq_dec k (length prof)) as [->|Hkn]].
  - replace (Z.of_nat 0 - 1 <? 0) with true in HB by reflexivity.
    unfold s_point. cbn [snd fst]. rewrite E. cbn [bind]. cbv zeta. rewrite HB.
    eexists. split; [reflexivity|]. intros a b Ha Hb. specialize (Hends a b Ha Hb).
    assert (d < a)%Q. { specialize (K2 0%nat a ltac:(lia) Ha). apply Qle_bool_false in K2. auto. }
    split; [intros _; destruct (bextrap sbc); reflexivity|]. split; intros; lra.
  - destruct (Z.ltb_spec (Z.of_nat (length prof) - 1) 0); [lia|].
    destruct (Z.leb_spec (Z.of_nat (length prof - 1)) (Z.of_nat (length prof) - 1)); [|lia].
    unfold s_point. cbn [snd fst]. rewrite E. cbn [bind]. cbv zeta. rewrite HB.
    eexists. split; [reflexivity|]. intros a b Ha Hb. specialize (Hends a b Ha Hb).
    assert (b <= d)%Q. { specialize (K1 (length prof - 1)%nat b ltac:(lia) Hb). apply Qle_bool_iff in K1. auto. }
    split; [intros; lra|]. split; [intros _; destruct (bextrap bbc); reflexivity|intros; lra].
  - destruct (Z.ltb_spec (Z.of_nat k - 1) 0); [lia|].
    destruct (Z.leb_spec (Z.of_nat (length prof - 1)) (Z.of_nat k - 1)); [lia|].
    destruct (nth_error_lt_Some prof (k - 1)%nat) as [x Hx]; [lia|].
    destruct (nth_error_lt_Some prof k) as [y Hy]; [lia|].
    assert (x <= d)%Q. { specialize (K1 (k - 1)%nat x ltac:(lia) Hx). apply Qle_bool_iff in K1. auto. }
    assert (d < y)%Q. { specialize (K2 k y ltac:(lia) Hy). apply Qle_bool_false in K2. auto. }
    destruct (s_point_inner 0 (Z.of_nat (length prof - 1)) sbc bbc d prof k x y) as (E1 & E2); auto; try lia; try lra.
    eexists. split; [exact E1|]. intros a b Ha Hb.
    assert (a <= x)%Q.
    { destruct (Nat.eq_dec (k - 1) 0) as [Ez|Ez]; [rewrite Ez in Hx; unfold First in Ha; rewrite Ha in Hx; injection Hx as <-; lra|].
      apply Qlt_le_weak. eapply HA; [|exact Ha|exact Hx]. lia. }
    assert (y <= b)%Q.
    { destruct (Nat.eq_dec k (length prof - 1)) as [Ez|Ez]; [unfold Last in Hb; rewrite <- Ez in Hb; rewrite Hb in Hy; injection Hy as <-; lra|].
      apply Qlt_le_weak. eapply HA; [|exact Hy|exact Hb]. lia. }
    split; [intros; lra|]. split; [intros; lra|]. eauto.
Qed.

Lemma s_point_desc prof sbc bbc d : Descending prof -> (2 <= length prof)%nat ->
  exists r, s_point (Z.of_nat (length prof - 1)) 0 sbc bbc (d, Some prof) = Ok r /\ SRowDesc prof sbc bbc d r.
Proof.
  intros HA Hn. destruct (digitize_desc prof d false HA Hn) as (k & E & Hk & K1 & K2).
  unfold before in K1, K2. cbn [negb] in K1, K2.
  destruct (s_boundary_spec (Z.of_nat (length prof - 1)) 0 sbc bbc (Z.of_nat k - 1)) as (_ & HB).
  specialize (HB eq_refl ltac:(lia)).
  assert (Hends : forall a b, First prof a -> Last prof b -> (b < a)%Q).
  { intros a b Ha Hb. eapply HA; [|exact Ha|exact Hb]. lia. }
  destruct (Nat.eq_dec k 0) as [->|Hk0]; [|destruct (Nat.eq_dec k (length prof)) as [->|Hkn]].
  - replace (Z.of_nat 0 - 1 <? 0) with true in HB by reflexivity.
    unfold s_point. cbn [snd fst]. rewrite E. cbn [bind]. cbv zeta. rewrite HB.
    eexists. split; [reflexivity|]. intros a b Ha Hb. specialize (Hends a b Ha Hb).
    assert (a <= d)%Q. { specialize (K2 0%nat a ltac:(lia) Ha). rewrite negb_false_iff in K2. apply Qle_bool_iff in K2. auto. }
    split; [intros _; destruct (bextrap bbc); reflexivity|]. split; intros; lra.
  - destruct (Z.ltb_spec (Z.of_nat (length prof) - 1) 0); [lia|].
    destruct (Z.leb_spec (Z.of_nat (length prof - 1)) (Z.of_nat (length prof) - 1)); [|lia].
    unfold s_point. cbn [snd fst]. rewrite E. cbn [bind]. cbv zeta. rewrite HB.
    eexists. split; [reflexivity|]. intros a b Ha Hb. specialize (Hends a b Ha Hb).
    assert (d < b)%Q. { specialize (K1 (length prof - 1)%nat b ltac:(lia) Hb). rewrite negb_true_iff in K1. apply Qle_bool_false in K1. auto. }
    split; [intros; lra|]. split; [intros _; destruct (bextrap sbc); reflexivity|intros; lra].
  - destruct (Z.ltb_spec (Z.of_nat k - 1) 0); [lia|].
    destruct (Z.leb_spec (Z.of_nat (length prof - 1)) (Z.of_nat k - 1)); [lia|].
    destruct (nth_error_lt_Some prof (k - 1)%nat) as [x Hx]; [lia|].
    destruct (nth_error_lt_Some prof k) as [y Hy]; [lia|].
    assert (d < x)%Q. { specialize (K1 (k - 1)%nat x ltac:(lia) Hx). rewrite negb_true_iff in K1. apply Qle_bool_false in K1. auto. }
    assert (y <= d)%Q. { specialize (K2 k y ltac:(lia) Hy). rewrite negb_false_iff in K2. apply Qle_bool_iff in K2. auto. }
    destruct (s_point_inner (Z.of_nat (length prof - 1)) 0 sbc bbc d prof k x y) as (E1 & E2); auto; try lia; try lra.
    eexists. split; [exact E1|]. intros a b Ha Hb.
    assert (x <= a)%Q.
    { destruct (Nat.eq_dec (k - 1) 0) as [Ez|Ez]; [rewrite Ez in Hx; unfold First in Ha; rewrite Ha in Hx; injection Hx as <-; lra|].
      apply Qlt_le_weak. eapply HA; [|exact Ha|exact Hx]. lia. }
    assert (b <= y)%Q.
    { destruct (Nat.eq_dec k (length prof - 1)) as [Ez|Ez]; [unfold Last in Hb; rewrite <- Ez in Hb; rewrite Hb in Hy; injection Hy as <-; lra|].
      apply Qlt_le_weak. eapply HA; [|exact Hy|exact Hb]. lia. }
    split; [intros; lra|]. split; [intros; lra|]. eauto.
Qed.

(** Data on layers: the profile has one entry fewer than the levels the surface
    and bottom index refer to.  A point beyond the last layer centre raises. *)
Lemma s_point_layer_desc prof sbc bbc d b : Descending prof -> (2 <= length prof)%nat ->
  Last prof b -> (d < b)%Q ->
  s_point (Z.of_nat (length prof)) 0 sbc bbc (d, Some prof) = Err ValueError.
Proof.
  intros HA Hn Hb Hd. destruct (digitize_desc prof d false HA Hn) as (k & E & Hk & K1 & K2).
  unfold before in K1, K2. cbn [negb] in K1, K2.
  assert (k = length prof) as ->.
  { destruct (Nat.eq_dec k (length prof)); auto.
    specialize (K2 (length prof - 1)%nat b ltac:(lia) Hb). rewrite negb_false_iff in K2. apply Qle_bool_iff in K2. lra. }
  destruct (s_boundary_spec (Z.of_nat (length prof)) 0 sbc bbc (Z.of_nat (length prof) - 1)) as (_ & HB).
  specialize (HB eq_refl ltac:(lia)).
  destruct (Z.ltb_spec (Z.of_nat (length prof) - 1) 0); [lia|].
  destruct (Z.leb_spec (Z.of_nat (length prof)) (Z.of_nat (length prof) - 1)); [lia|].
  unfold s_point. cbn [snd fst]. rewrite E. cbn [bind]. cbv zeta. rewrite HB.
  assert (clip 0 (Z.of_nat (length prof) - 2) (Z.of_nat (length prof) - 1) = Z.of_nat (length prof - 2)) as -> by (unfold clip; lia).
  destruct (nth_error_lt_Some prof (length prof - 2)%nat) as [x Hx]; [lia|].
  rewrite (py_get_nat _ _ _ Hx). cbn [bind].
  replace (Z.of_nat (length prof - 2) + 1) with (Z.of_nat (length prof - 1)) by lia.
  rewrite (py_get_nat _ _ _ Hb). cbn [bind].
  destruct (Qeq_bool (b - x) 0); auto.
  assert (b < x)%Q by (eapply HA; [|exact Hx|exact Hb]; lia).
  assert (Qlt_bool 1 ((d - x) / (b - x)) = true) as ->.
  { apply Qlt_bool_iff. assert (Eq : ((d - x) / (b - x) == (x - d) / (x - b))%Q) by (field; split; lra).
    rewrite Eq. apply Qlt_shift_div_l; lra. }
  rewrite orb_true_r. reflexivity.
Qed.
Lemma s_point_layer_asc prof sbc bbc d b : Ascending prof -> (2 <= length prof)%nat ->
  Last prof b -> (b < d)%Q ->
  s_point 0 (Z.of_nat (length prof)) sbc bbc (d, Some prof) = Err ValueError.
Proof.
  intros HA Hn Hb Hd. destruct (digitize_asc prof d false HA) as (k & E & Hk & K1 & K2).
  assert (k = length prof) as ->.
  { destruct (Nat.eq_dec k (length prof)); auto.
    specialize (K2 (length prof - 1)%nat b ltac:(lia) Hb). apply Qle_bool_false in K2. lra. }
  destruct (s_boundary_spec 0 (Z.of_nat (length prof)) sbc bbc (Z.of_nat (length prof) - 1)) as (HB & _).
  specialize (HB eq_refl ltac:(lia)).
  destruct (Z.ltb_spec (Z.of_nat (length prof) - 1) 0); [lia|].
  destruct (Z.leb_spec (Z.of_nat (length prof)) (Z.of_nat (length prof) - 1)); [lia|].
  unfold s_point. cbn [snd fst]. rewrite E. cbn [bind]. cbv zeta. rewrite HB.
  assert (clip 0 (Z.of_nat (length prof) - 2) (Z.of_nat (length prof) - 1) = Z.of_nat (length prof - 2)) as -> by (unfold clip; lia).
  destruct (nth_error_lt_Some prof (length prof - 2)%nat) as [x Hx]; [lia|].
  rewrite (py_get_nat _ _ _ Hx). cbn [bind].
  replace (Z.of_nat (length prof - 2) + 1) with (Z.of_nat (length prof - 1)) by lia.
  rewrite (py_get_nat _ _ _ Hb). cbn [bind].
  destruct (Qeq_bool (b - x) 0); auto.
  assert (x < b)%Q by (eapply HA; [|exact Hx|exact Hb]; lia).
  assert (Qlt_bool 1 ((d - x) / (b - x)) = true) as ->.
  { apply Qlt_bool_iff. apply Qlt_shift_div_l; lra. }
  rewrite orb_true_r. reflexivity.
Qed.

(** Whatever the profile: an answer, when given, has its alpha in [0,1] and its
    index between -1 and one less than the profile's length; the index and the
    alpha are masked together. *)
Lemma s_point_safe surf bot sbc bbc d o r : s_point surf bot sbc bbc (d, o) = Ok r ->
  (r = (None, None) \/ exists i a prof, r = (Some i, Some a) /\ o = Some prof /\
     -1 <= i < Z.of_nat (length prof) /\ (0 <= a <= 1)%Q).
Proof.
  unfold s_point. cbn [snd fst]. destruct o as [prof|]; [|intros E; injection E as <-; auto].
  intros E. apply bind_ok in E as (k & Ek & E). cbv zeta in E.
  assert (Hk : (k <= length prof)%nat).
  { unfold digitize in Ek. destruct (nondecreasingb prof) eqn:N.
    - injection Ek as <-. unfold searchsortedQ.
      assert (G : forall (p : Q -> bool) a fuel lo hi, (lo <= hi -> hi <= length a -> bsearch p a fuel lo hi <= length a)%nat).
      { intros p a fuel. induction fuel as [|f IH]; intros lo hi H1 H2; cbn [bsearch]; [lia|].
        destruct (Nat.ltb_spec lo hi); [|lia]. cbv zeta.
        assert (lo + (hi - lo) / 2 < hi)%nat.
        { assert ((hi - lo) / 2 < hi - lo)%nat by (apply Nat.div_lt; lia). lia. }
        destruct (nth_error a (lo + (hi - lo) / 2)) as [x|]; [|lia].
        destruct (p x); apply IH; lia. }
      apply G; lia.
    - destruct (nonincreasingb prof); [|discriminate]. injection Ek as <-. lia. }
  destruct (s_boundary surf bot sbc bbc false (Z.of_nat k - 1)) as [[v|] m] eqn:HB.
  - assert (v = 0 \/ v = 1)%Q.
    { unfold s_boundary in HB. cbv zeta in HB.
      repeat match type of HB with context [if ?b then _ else _] => destruct b; try discriminate end;
        injection HB as <- _; auto. }
    destruct m; injection E as <-; auto. right. exists (Z.of_nat k - 1), v, prof.
    split; [auto|]. split; [auto|]. split; [lia|]. destruct H; subst; split; apply Qle_bool_iff; reflexivity.
  - apply bind_ok in E as (x & _ & E). apply bind_ok in E as (y & _ & E).
    destruct (Qeq_bool (y - x) 0); [discriminate|].
    destruct m; cbn [negb andb] in E; [injection E as <-; auto|].
    destruct (Qlt_bool ((d - x) / (y - x)) 0) eqn:E0; [discriminate|].
    destruct (Qlt_bool 1 ((d - x) / (y - x))) eqn:E1; [discriminate|].
    injection E as <-. right. exists (Z.of_nat k - 1), ((d - x) / (y - x))%Q, prof.
    apply Qlt_bool_false in E0, E1. repeat split; auto; lia.
Qed.

(** ** Profiles *)
Open Scope Q_scope.
Lemma roms2_val hc h zeta s c : ~ hc + h == 0 -> forall v, roms_s 2 hc h zeta s c = Ok v ->
  v + zeta == - ((zeta + h) * ((hc * s + h * c) / (hc + h))).
Proof. intros H v E. unfold roms_s in E. cbn in E. injection E as <-. field. auto. Qed.
Lemma roms1_val hc h zeta s c : ~ h == 0 -> forall v, roms_s 1 hc h zeta s c = Ok v ->
  v + zeta == - ((zeta + h) * ((hc * s + (h - hc) * c) / h)).
Proof. intros H v E. unfold roms_s in E. cbn in E. injection E as <-. field. auto. Qed.

Lemma roms_surface vt hc h zeta v : ~ h == 0 -> ~ hc + h == 0 ->
  roms_s vt hc h zeta 0 0 = Ok v -> v + zeta == 0.
Proof.
  intros H1 H2. unfold roms_s. destruct (vt =? 1)%Z; [|destruct (vt =? 2)%Z; [|discriminate]];
  intros E; injection E as <-; field; auto.
Qed.
Lemma roms_bottom vt hc h zeta v : ~ h == 0 -> ~ hc + h == 0 ->
  roms_s vt hc h zeta (-1) (-1) = Ok v -> v + zeta == h + zeta.
Proof.
  intros H1 H2. unfold roms_s. destruct (vt =? 1)%Z; [|destruct (vt =? 2)%Z; [|discriminate]];
  intros E; injection E as <-; field; auto.
Qed.
Lemma roms_mono2 hc h zeta s1 c1 s2 c2 v1 v2 : 0 <= hc -> 0 < h -> 0 < zeta + h -> s1 < s2 -> c1 < c2 ->
  roms_s 2 hc h zeta s1 c1 = Ok v1 -> roms_s 2 hc h zeta s2 c2 = Ok v2 -> v2 + zeta < v1 + zeta.
Proof.
  intros Hc Hh Ht Hs HC E1 E2. assert (Hne : ~ hc + h == 0) by (intros ?; lra). rewrite (roms2_val _ _ _ _ _ Hne _ E1), (roms2_val _ _ _ _ _ Hne _ E2).
  assert ((hc * s1 + h * c1) / (hc + h) < (hc * s2 + h * c2) / (hc + h)).
  { apply Qlt_shift_div_l; [lra|]. unfold Qdiv. rewrite <- Qmult_assoc, (Qmult_comm (/ (hc + h))), Qmult_inv_r by (intros ?; lra). nra. }
  nra.
Qed.
Lemma roms_mono1 hc h zeta s1 c1 s2 c2 v1 v2 : 0 <= hc <= h -> 0 < h -> 0 < zeta + h -> s1 < s2 -> c1 < c2 ->
  roms_s 1 hc h zeta s1 c1 = Ok v1 -> roms_s 1 hc h zeta s2 c2 = Ok v2 -> v2 + zeta < v1 + zeta.
Proof.
  intros Hc Hh Ht Hs HC E1 E2. assert (Hne : ~ h == 0) by (intros ?; lra). rewrite (roms1_val _ _ _ _ _ Hne _ E1), (roms1_val _ _ _ _ _ Hne _ E2).
  assert (hc * s1 + (h - hc) * c1 < hc * s2 + (h - hc) * c2).
  { destruct (Qlt_le_dec 0 hc); nra. }
  assert ((hc * s1 + (h - hc) * c1) / h < (hc * s2 + (h - hc) * c2) / h).
  { apply Qlt_shift_div_l; [lra|]. unfold Qdiv. rewrite <- Qmult_assoc, (Qmult_comm (/ h)), Qmult_inv_r by (intros ?; lra). nra. }
  nra.
Qed.
Lemma fvcom_val h zeta s : fvcom_s h zeta s + zeta == - ((zeta + h) * s).
Proof. unfold fvcom_s. ring. Qed.

(** Whole profiles. *)
Lemma zipM_ok {A B C} (f : A -> B -> result C) : forall a b l, zipM f a b = Ok l ->
  length l = length a /\ length a = length b /\
  forall k z, nth_error l k = Some z -> exists x y, nth_error a k = Some x /\ nth_error b k = Some y /\ f x y = Ok z.
Proof.
  induction a as [|x a IH]; intros [|y b] l E; cbn [zipM] in E; try discriminate.
  - injection E as <-. repeat split; auto. intros [|k] z; discriminate.
  - apply bind_ok in E as (z & E1 & E). apply bind_ok in E as (zs & E2 & E). injection E as <-.
    destruct (IH _ _ E2) as (H1 & H2 & H3). cbn [length]. repeat split; try lia.
    intros [|k] w Hw; cbn [nth_error] in *; [injection Hw as <-; eauto|eauto].
Qed.
Lemma roms_vt_ok vt hc h zeta s c v : roms_s vt hc h zeta s c = Ok v -> vt = 1%Z \/ vt = 2%Z.
Proof.
  unfold roms_s. destruct (Z.eqb_spec vt 1); auto. destruct (Z.eqb_spec vt 2); auto. discriminate.
Qed.
Lemma roms_profile_desc r n h zeta l :
  0 <= r_hc r -> 0 < h -> 0 < zeta + h -> (r_vt r = 1%Z -> r_hc r <= h) ->
  Ascending (r_sw r) -> Ascending (r_Cw r) -> Ascending (r_srho r) -> Ascending (r_Cr r) ->
  roms_profile r n h zeta = Ok l -> Descending l.
Proof.
  intros H0 Hh Ht Hv A1 A2 A3 A4 E i j x y Hij Hx Hy. unfold roms_profile in E. cbv zeta in E.
  set (s_c := if Nat.eqb n (length (r_srho r)) then r_srho r else r_sw r) in *.
  set (C_s := if Nat.eqb n (length (r_srho r)) then r_Cr r else r_Cw r) in *.
  assert (B1 : Ascending s_c) by (unfold s_c; destruct (Nat.eqb _ _); auto).
  assert (B2 : Ascending C_s) by (unfold C_s; destruct (Nat.eqb _ _); auto).
  apply zipM_ok in E as (_ & _ & K).
  destruct (K _ _ Hx) as (s1 & c1 & Hs1 & Hc1 & E1). destruct (K _ _ Hy) as (s2 & c2 & Hs2 & Hc2 & E2).
  apply bind_ok in E1 as (v1 & E1 & F1). injection F1 as <-. apply bind_ok in E2 as (v2 & E2 & F2). injection F2 as <-.
  specialize (B1 _ _ _ _ Hij Hs1 Hs2). specialize (B2 _ _ _ _ Hij Hc1 Hc2).
  destruct (roms_vt_ok _ _ _ _ _ _ _ E1) as [Ev|Ev]; rewrite Ev in *.
  - eapply roms_mono1; [| | | | |exact E1|exact E2]; auto.
  - eapply roms_mono2; [| | | | |exact E1|exact E2]; auto.
Qed.
Lemma roms_profile_ends r h zeta l : (length (r_sw r) <> length (r_srho r))%nat ->
  ~ h == 0 -> ~ r_hc r + h == 0 ->
  First (r_sw r) (-1) -> First (r_Cw r) (-1) -> Last (r_sw r) 0 -> Last (r_Cw r) 0 ->
  roms_profile r (length (r_sw r)) h zeta = Ok l ->
  length l = length (r_sw r) /\
  (exists b, First l b /\ b == h + zeta) /\ (exists t, Last l t /\ t == 0).
Proof.
  intros Hd H1 H2 F1 F2 L1 L2 E. unfold roms_profile in E. cbv zeta in E.
  assert (Nat.eqb (length (r_sw r)) (length (r_srho r)) = false) as Ef by (apply Nat.eqb_neq; auto).
  rewrite Ef in E. apply zipM_ok in E as (Hl & Hl' & K). split; [auto|].
  pose proof (nth_error_Some_lt _ _ _ F1) as Hlt. rewrite <- Hl in Hlt.
  split.
  - destruct (nth_error_lt_Some l 0) as [b Hb]; [lia|]. exists b. split; [auto|].
    destruct (K _ _ Hb) as (s & c & Hs & Hc & E). unfold First in *. rewrite F1 in Hs. rewrite F2 in Hc.
    injection Hs as <-. injection Hc as <-. apply bind_ok in E as (v & E & G). injection G as <-.
    eapply roms_bottom; [| |exact E]; auto.
  - destruct (nth_error_lt_Some l (length l - 1)) as [b Hb]; [lia|]. exists b. split; [auto|].
    destruct (K _ _ Hb) as (s & c & Hs & Hc & E). unfold Last in *. rewrite Hl in *. rewrite <- Hl' in *.
    rewrite L1 in Hs. rewrite L2 in Hc. injection Hs as <-. injection Hc as <-.
    apply bind_ok in E as (v & E & G). injection G as <-.
    eapply roms_surface; [| |exact E]; auto.
Qed.
Lemma fvcom_profile_mono sig h zeta : 0 < zeta + h ->
  (Descending sig -> Ascending (fvcom_profile sig h zeta)) /\
  (Ascending sig -> Descending (fvcom_profile sig h zeta)).
Proof.
  intros Ht. unfold fvcom_profile. split; intros H i j x y Hij Hx Hy;
  rewrite nth_error_map in Hx, Hy;
  destruct (nth_error sig i) as [s|] eqn:E1; try discriminate;
  destruct (nth_error sig j) as [t|] eqn:E2; try discriminate;
  injection Hx as <-; injection Hy as <-; specialize (H _ _ _ _ Hij E1 E2);
  rewrite !fvcom_val; nra.
Qed.
Lemma fvcom_profile_at sig h zeta k s : nth_error sig k = Some s ->
  exists v, nth_error (fvcom_profile sig h zeta) k = Some v /\
    (s == 0 -> v == 0) /\ (s == -1 -> v == h + zeta).
Proof.
  intros H. unfold fvcom_profile. rewrite nth_error_map, H. cbn [option_map].
  eexists. split; [reflexivity|]. split; intros E; rewrite fvcom_val, E; ring.
Qed.
