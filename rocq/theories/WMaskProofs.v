From Coq Require Import String Lqa.
From Verif Require Import Common CommonProofs TimeModel TimeSpec TimeProofs VariableModel VariableSpec VariableProofs VariableInterpProofs VariableAtProofs
  DepthModel DepthSpec DepthProofs UGridGeomModel UGridGeomSpec UGridGeomProofs UGridLocProofs UGridInterpProofs RGridModel RGridSpec RGridProofs WholeModel WholeSpec WholeProofs WMaskSpec.
Open Scope list_scope.
Open Scope nat_scope.

Lemma sees_iff m m' x c : (m <-> m') -> Sees m x c -> Sees m' x c.
Proof. unfold Sees. tauto. Qed.
Lemma sees_eq m x y c : Sees m x c -> (x == y)%Q -> Sees m y c.
Proof. intros [H|[N H]] E; [now left|right]. split; [exact N|]. eapply shows_eq; eauto. Qed.
Lemma sees_lerp m m' x y a r c d : Sees m x c -> Sees m' y d -> (r == x + (y - x) * a)%Q -> Sees (m \/ m') r (cell_lerp c d a).
Proof.
  intros [[M ->]|[N H]] H' Q; [left; split; [now left|reflexivity]|]. destruct H' as [[M ->]|[N' H']].
  - left. split; [now right|]. destruct H as (v & -> & _). reflexivity.
  - right. split; [tauto|]. eapply shows_lerp; eauto.
Qed.

(** Which samples are used, case by case. *)
Section Used.
  Context (ts : list Z) (SI : StrictlyIncreasing ts).
  Lemma incr_ends a b k x : nth_error ts 0 = Some a -> nth_error ts (length ts - 1) = Some b -> nth_error ts k = Some x -> (a <= x <= b)%Z.
  Proof.
    intros Ha Hb Hx. pose proof (nth_error_Some_lt _ _ _ Hx). split.
    - destruct k as [|k]; [rewrite Ha in Hx; injection Hx as ->; lia|]. pose proof (SI 0 (S k) a x ltac:(lia) Ha Hx). lia.
    - destruct (Nat.eq_dec k (length ts - 1)) as [->|N]; [rewrite Hb in Hx; injection Hx as ->; lia|]. pose proof (SI k (length ts - 1) x b ltac:(lia) Hx Hb). lia.
  Qed.
  Lemma used_single ex q u a : length ts = 1 -> nth_error ts 0 = Some a -> (TimeUsed ts ex q u <-> u = a).
  Proof.
    intros L Ha. split.
    - intros [(_ & H)|[(H & _)|[(H & _)|(k & t0 & t1 & H0 & H1 & _)]]]; try congruence.
      + rewrite L in H. cbn [Nat.sub] in H. congruence.
      + apply nth_error_Some_lt in H1. lia.
    - intros ->. left. auto.
  Qed.
  Lemma used_first ex q u a : nth_error ts 0 = Some a -> (q = a \/ ex = true /\ (q < a)%Z) -> (TimeUsed ts ex q u <-> u = a).
  Proof.
    intros Ha Q. split.
    - intros [(_ & H)|[(H & _)|[(H & C)|(k & t0 & t1 & H0 & H1 & C & _)]]]; try congruence.
      + assert (a <= u)%Z by (apply (incr_ends a u (length ts - 1) u); auto). destruct Q as [->|[_ Q]], C as [->|[_ C]]; auto; lia.
      + exfalso. destruct k as [|k]; [rewrite Ha in H0; injection H0 as ->; lia|]. pose proof (SI 0 (S k) a t0 ltac:(lia) Ha H0). lia.
    - intros ->. right. left. auto.
  Qed.
  Lemma used_last ex q u b : nth_error ts (length ts - 1) = Some b -> (q = b \/ ex = true /\ (b < q)%Z) -> (TimeUsed ts ex q u <-> u = b).
  Proof.
    intros Hb Q. split.
    - intros [(L & H)|[(H & C)|[(H & C)|(k & t0 & t1 & H0 & H1 & C & NL & _)]]]; try congruence.
      + rewrite L in Hb. cbn [Nat.sub] in Hb. congruence.
      + assert (u <= b)%Z by (apply (incr_ends u b 0 u); auto). destruct Q as [->|[_ Q]], C as [->|[_ C]]; auto; lia.
      + exfalso. destruct Q as [->|[_ Q]]; [contradiction|].
        assert (t1 <= b)%Z; [|lia]. pose proof (nth_error_Some_lt _ _ _ H1). destruct (Nat.eq_dec (S k) (length ts - 1)) as [E|N]; [rewrite E, Hb in H1; injection H1 as ->; lia|].
        pose proof (SI (S k) (length ts - 1) t1 b ltac:(lia) H1 Hb). lia.
    - intros ->. right. right. left. auto.
  Qed.
  Lemma used_between ex q u k t0 t1 : nth_error ts k = Some t0 -> nth_error ts (S k) = Some t1 -> (t0 < q <= t1)%Z -> nth_error ts (length ts - 1) <> Some q ->
    (TimeUsed ts ex q u <-> u = t0 \/ u = t1).
  Proof.
    intros H0 H1 C NL. pose proof (nth_error_Some_lt _ _ _ H1) as L1.
    destruct (nth_error_lt_Some ts 0) as [a Ha]; [lia|]. destruct (nth_error_lt_Some ts (length ts - 1)) as [b Hb]; [lia|].
    pose proof (incr_ends a b k t0 Ha Hb H0) as I0. pose proof (incr_ends a b (S k) t1 Ha Hb H1) as I1. split.
    - intros [(L & _)|[(H & D)|[(H & D)|(j & s0 & s1 & K0 & K1 & D & _ & E)]]]; try lia.
      + rewrite Ha in H. injection H as <-. destruct D as [->|[_ D]]; lia.
      + assert (b = u) by congruence. subst u. destruct D as [->|[_ D]]; [congruence|lia].
      + destruct (Nat.lt_trichotomy j k) as [Lt|[->|Lt]].
        * exfalso. assert (s1 <= t0)%Z; [|lia]. destruct (Nat.eq_dec (S j) k) as [X|X]; [subst k; rewrite H0 in K1; injection K1 as ->; lia|].
          pose proof (SI (S j) k s1 t0 ltac:(lia) K1 H0). lia.
        * rewrite H0 in K0. rewrite H1 in K1. injection K0 as <-. injection K1 as <-. exact E.
        * exfalso. assert (t1 <= s0)%Z; [|lia]. destruct (Nat.eq_dec (S k) j) as [X|X]; [subst j; rewrite H1 in K0; injection K0 as ->; lia|].
          pose proof (SI (S k) j t1 s0 ltac:(lia) H1 K0). lia.
    - intros E. right. right. right. exists k, t0, t1. auto 8.
  Qed.
End Used.

Section Samples.
  Context {P : Type}.
  Lemma time_sees t q q' ex (val : list Z -> result (list cell)) (M : Z -> P -> Prop) (E : Z -> P -> Q) pts :
    StrictlyIncreasing (t_data t) -> t_data t <> [] -> TimeAsked (t_data t) ex q q' ->
    (forall k tk, nth_error (t_data t) k = Some tk -> exists vs, val [Z.of_nat k] = Ok vs /\ Forall2 (fun p c => Sees (M tk p) (E tk p) c) pts vs) ->
    val [-1]%Z = val [Z.of_nat (length (t_data t) - 1)] ->
    (forall p, In p pts -> LinearInTime (t_data t) (fun u => E u p)) ->
    exists vs, time_interp t q ex val [] = Ok vs /\ Forall2 (fun p c => Sees (exists u, TimeUsed (t_data t) ex q u /\ M u p) (E q' p) c) pts vs.
  Proof.
    intros SI Ne Q V L Lin. set (n := length (t_data t)).
    set (F := fun k => match val [Z.of_nat k] with Ok vs => vs | Err _ => [] end).
    assert (HF : forall k, k < n -> val [Z.of_nat k] = Ok (F k)).
    { intros k Hk. destruct (nth_error_lt_Some (t_data t) k Hk) as [tk Hk']. destruct (V k tk Hk') as (vs & Ev & _). unfold F. now rewrite Ev. }
    assert (HS : forall k tk, nth_error (t_data t) k = Some tk -> Forall2 (fun p c => Sees (M tk p) (E tk p) c) pts (F k)).
    { intros k tk Hk. destruct (V k tk Hk) as (vs & Ev & H). unfold F. now rewrite Ev. }
    assert (Hn : 0 < n) by (unfold n; destruct (t_data t); [congruence|cbn; lia]).
    assert (HL : val [-1]%Z = Ok (F (n - 1))) by (rewrite L; apply HF; lia).
    destruct (nonempty_ends _ Ne) as (a & b & Ha & Hb). fold n in Hb.
    assert (Only : forall u0 vs, (forall u, TimeUsed (t_data t) ex q u <-> u = u0) -> Forall2 (fun p c => Sees (M u0 p) (E u0 p) c) pts vs ->
      Forall2 (fun p c => Sees (exists u, TimeUsed (t_data t) ex q u /\ M u p) (E u0 p) c) pts vs).
    { intros u0 vs U. clear - U. induction 1 as [|p c ps cs H _ IH]; constructor; auto. revert H. apply sees_iff. split.
      - intros H. exists u0. split; [now apply U|exact H].
      - intros (u & Hu & H). apply U in Hu. now subst u. }
    assert (Single : n = 1 -> exists vs, time_interp t q ex val [] = Ok vs /\ Forall2 (fun p c => Sees (exists u, TimeUsed (t_data t) ex q u /\ M u p) (E a p) c) pts vs).
    { intros E1. destruct (ti_single t val F Ne HF HL q ex E1) as (vs & Ev & C). exists vs. split; [exact Ev|].
      apply Only; [intros u; apply used_single; auto|]. specialize (HS _ _ Ha).
      clear - C HS. revert pts HS. induction C as [|c d l l' K _ IH]; intros ps H; inversion H as [|p ? ps' ? Hp Hps]; subst; constructor; auto.
      destruct Hp as [[Hm ->]|[Hm (v & -> & Ev)]]; destruct c; cbn in K; try contradiction; [now left|]. right. split; [exact Hm|]. eexists. split; [reflexivity|]. now rewrite K. }
    destruct Q as [((a' & b' & Ha' & Hb' & B) & ->)|[(a' & -> & Ha' & Lt & ->)|[(b' & -> & Hb' & Lt & ->)|(E1 & H1)]]].
    - fold n in Hb'. rewrite Ha in Ha'. injection Ha' as <-. rewrite Hb in Hb'. injection Hb' as <-.
      destruct (Nat.eq_dec n 1) as [E1|N1].
      { assert (q = a) as ->. { rewrite E1 in Hb. cbn [Nat.sub] in Hb. rewrite Ha in Hb. injection Hb as <-. lia. } auto. }
      destruct (Z.eq_dec q a) as [->|Na].
      { exists (F 0). split; [apply (ti_first t val F SI Ne HF HL a ex a); auto|]. apply Only; auto. intros u. apply used_first; auto. }
      destruct (Z.eq_dec q b) as [->|Nb].
      { exists (F (n - 1)). split; [apply (ti_last t val F SI Ne HF HL b ex b); auto|]. apply Only; auto. intros u. apply used_last; auto. }
      assert (exists k t0 t1, nth_error (t_data t) k = Some t0 /\ nth_error (t_data t) (S k) = Some t1 /\ (t0 < q <= t1)%Z) as (k & t0 & t1 & H0 & H1 & Hq).
      { destruct (interp_alpha_bracket t q ex SI N1) as (i & al & _ & _ & _ & [(-> & H0 & _)|(k & t0 & t1 & -> & H0 & H1 & Hq & _)]).
        - exists a, b. auto.
        - rewrite Ha in H0. congruence.
        - eauto 6. }
      destruct (ti_between t val F SI Ne HF q ex k t0 t1 H0 H1 Hq) as (al & Al & _ & _ & Ev).
      { destruct (Nat.lt_ge_cases (S k) (n - 1)) as [|G]; [auto|]. right. intros ->. pose proof (nth_error_Some_lt _ _ _ H1). fold n in H.
        assert (S k = n - 1) as X by lia. rewrite X, Hb in H1. congruence. }
      exists (cells_lerp (F k) (F (S k)) al). split; [exact Ev|]. clear Ev. pose proof (HS _ _ H0) as S0. pose proof (HS _ _ H1) as S1.
      assert (Lt : (inject_Z t0 < inject_Z t1)%Q). { rewrite <- Zlt_Qlt. apply (SI k (S k)); auto. }
      assert (U : forall u, TimeUsed (t_data t) ex q u <-> u = t0 \/ u = t1) by (intros u; apply (used_between _ SI ex q u k); auto; fold n; congruence).
      generalize dependent (F k). generalize dependent (F (S k)). clear - Lin H0 H1 Hq Al Lt U. revert Lin.
      induction pts as [|p ps IH]; intros Lin l1 S1 l0 S0; inversion S0; inversion S1; subst; cbn [cells_lerp]; constructor.
      + apply (sees_iff (M t0 p \/ M t1 p)).
        { split; [intros [H|H]; [exists t0|exists t1]; (split; [apply U; auto|exact H])|intros (u & Hu & H); apply U in Hu; destruct Hu as [-> | ->]; auto]. }
        eapply sees_lerp; eauto. pose proof (Lin p (or_introl eq_refl) k t0 t1 q H0 H1 ltac:(lia)) as X. cbn beta in X.
        assert (Y : ((E q p - E t0 p - (E t1 p - E t0 p) * al) * (inject_Z t1 - inject_Z t0) == 0)%Q).
        { rewrite <- Al in X. nra. }
        apply Qmult_integral in Y as [Y|Y]; lra.
      + apply IH; auto. intros; apply Lin; right; auto.
    - rewrite Ha in Ha'. injection Ha' as <-. exists (F 0). split; [apply (ti_first t val F SI Ne HF HL q true a); auto|]. apply Only; auto. intros u. apply used_first; auto.
    - fold n in Hb'. rewrite Hb in Hb'. injection Hb' as <-. exists (F (n - 1)). split; [apply (ti_last t val F SI Ne HF HL q true b); auto|]. apply Only; auto. intros u. apply used_last; auto.
    - rewrite Ha in H1. injection H1 as <-. auto.
  Qed.

  Lemma level_used ls z d j x y : Monotone ls -> nth_error ls j = Some x -> nth_error ls (S j) = Some y -> (x <= z < y \/ y < z <= x)%Q ->
    (DepthUsed ls z d <-> d = x \/ d = y).
  Proof.
    intros Mo Hx Hy B. split; [|intros H; left; exists j, x, y; auto].
    intros [(k & x' & y' & Hx' & Hy' & B' & H)|(a & b & Ha & Hb & C & _)].
    - assert (j = k); [|subst k; rewrite Hx in Hx'; rewrite Hy in Hy'; injection Hx' as <-; injection Hy' as <-; exact H].
      destruct (Nat.lt_trichotomy j k) as [Lt|[E|Lt]]; [exfalso|exact E|exfalso].
      + destruct Mo as [A|D].
        * pose proof (A j (S j) x y ltac:(lia) Hx Hy). pose proof (A k (S k) x' y' ltac:(lia) Hx' Hy'). assert (y <= x')%Q; [|lra].
          destruct (Nat.eq_dec (S j) k) as [X|X]; [subst k; rewrite Hy in Hx'; injection Hx' as ->; lra|]. pose proof (A (S j) k y x' ltac:(lia) Hy Hx'). lra.
        * pose proof (D j (S j) x y ltac:(lia) Hx Hy). pose proof (D k (S k) x' y' ltac:(lia) Hx' Hy'). assert (x' <= y)%Q; [|lra].
          destruct (Nat.eq_dec (S j) k) as [X|X]; [subst k; rewrite Hy in Hx'; injection Hx' as ->; lra|]. pose proof (D (S j) k y x' ltac:(lia) Hy Hx'). lra.
      + destruct Mo as [A|D].
        * pose proof (A j (S j) x y ltac:(lia) Hx Hy). pose proof (A k (S k) x' y' ltac:(lia) Hx' Hy'). assert (y' <= x)%Q; [|lra].
          destruct (Nat.eq_dec (S k) j) as [X|X]; [subst j; rewrite Hx in Hy'; injection Hy' as ->; lra|]. pose proof (A (S k) j y' x ltac:(lia) Hy' Hx). lra.
        * pose proof (D j (S j) x y ltac:(lia) Hx Hy). pose proof (D k (S k) x' y' ltac:(lia) Hx' Hy'). assert (x <= y')%Q; [|lra].
          destruct (Nat.eq_dec (S k) j) as [X|X]; [subst j; rewrite Hx in Hy'; injection Hy' as ->; lra|]. pose proof (D (S k) j y' x ltac:(lia) Hy' Hx). lra.
    - exfalso. unfold First in Ha. destruct C as [(A & C)|(D & C)].
      + pose proof (A j (S j) x y ltac:(lia) Hx Hy). destruct j as [|j]; [rewrite Ha in Hx; injection Hx as <-; lra|]. pose proof (A 0 (S j) a x ltac:(lia) Ha Hx). lra.
      + pose proof (D j (S j) x y ltac:(lia) Hx Hy). destruct j as [|j]; [rewrite Ha in Hx; injection Hx as <-; lra|]. pose proof (D 0 (S j) a x ltac:(lia) Ha Hx). lra.
  Qed.
  Lemma beyond_used ls z d a b : 2 <= length ls -> First ls a -> Last ls b -> (Ascending ls /\ z < a \/ Descending ls /\ a < z)%Q ->
    (DepthUsed ls z d <-> d = a \/ d = b).
  Proof.
    intros N Ha Hb C. split; [|intros H; right; exists a, b; auto].
    intros [(k & x & y & Hx & Hy & B & H)|(a' & b' & Ha' & Hb' & _ & H)].
    - exfalso. unfold First in Ha. destruct C as [(A & C)|(D & C)].
      + pose proof (A k (S k) x y ltac:(lia) Hx Hy). destruct k as [|k]; [rewrite Ha in Hx; injection Hx as <-; lra|]. pose proof (A 0 (S k) a x ltac:(lia) Ha Hx). lra.
      + pose proof (D k (S k) x y ltac:(lia) Hx Hy). destruct k as [|k]; [rewrite Ha in Hx; injection Hx as <-; lra|]. pose proof (D 0 (S k) a x ltac:(lia) Ha Hx). lra.
    - unfold First, Last in *. rewrite Ha in Ha'. rewrite Hb in Hb'. injection Ha' as <-. injection Hb' as <-. exact H.
  Qed.

  Lemma depth_sees order shape (dep : P -> Q) ls sbc bbc (val : list P -> list Z -> result (list cell)) slices (f : nat -> P -> cell) (M : Q -> P -> Prop) (E : Q -> P -> Q) (z : P -> Q) pts :
    2 <= length ls -> Monotone ls -> dim_len order shape DDepth = Ok (length ls) ->
    (forall p, In p pts -> DepthAsked ls sbc bbc (dep p) (z p)) ->
    (forall j ps, j < length ls -> val ps (slices ++ [Z.of_nat j]) = Ok (map (f j) ps)) ->
    (forall ps, val ps (slices ++ [-1]%Z) = Ok (map (f (length ls - 1)) ps)) ->
    (forall j L p, nth_error ls j = Some L -> In p pts -> Sees (M L p) (E L p) (f j p)) ->
    (forall p, In p pts -> LinearInDepth ls (fun u => E u p)) ->
    exists vs, v_depth order shape (Some (l_view dep ls (Some (length ls)) sbc bbc)) val pts slices = Ok vs /\
      Forall2 (fun p c => Sees (exists d, DepthUsed ls (dep p) d /\ M d p) (E (z p) p) c) pts vs.
  Proof.
    intros N Dir DL Q V V1 Sm Lin. unfold v_depth. cbn [l_view dv_alphas dv_layers]. unfold view_rows.
    (* the rows *)
    assert (exists rows, l_alphas ls (Some (length ls)) sbc bbc (map dep pts) = Ok rows /\ length rows = length pts /\
      forall k p, nth_error pts k = Some p -> exists i al, nth_error rows k = Some (Some i, Some al) /\
        ((i = -1)%Z /\ (al == 1)%Q /\ First ls (z p) /\ (Ascending ls /\ dep p < z p \/ Descending ls /\ z p < dep p)%Q \/
         exists j, i = Z.of_nat j /\ (S j < length ls) /\ Bracketed ls (dep p) j al /\ (al < 1)%Q /\ z p = dep p)) as (rows & Er & Lr & Kr).
    { assert (H1 : Some (length ls) <> Some 1) by (intros X; injection X; lia).
      assert (NB : forall a b, First ls a -> Last ls b -> (Ascending ls -> (a < b)%Q) /\ (Descending ls -> (b < a)%Q)).
      { intros a b Ha Hb. split; intros D; (eapply D; [|exact Ha|exact Hb]); lia. }
      assert (AD : Ascending ls -> Descending ls -> False).
      { intros A D. destruct (ends_exist ls N) as (a & b & Ha & Hb). destruct (NB a b Ha Hb) as (X & Y). specialize (X A). specialize (Y D). lra. }
      destruct Dir as [A|D].
      - destruct (l_alphas_asc ls (Some (length ls)) sbc bbc (map dep pts) A N H1) as (rows & Er & Lr & K). exists rows. split; [exact Er|]. rewrite map_length in Lr. split; [exact Lr|].
        intros k p Hp. destruct (K k (dep p)) as (r & Hr & R). { now apply map_nth_error. }
        destruct (Q p (nth_error_In _ _ Hp)) as (a & b & Ha & Hb & C). destruct (R a b Ha Hb) as (R1 & _ & R3).
        destruct C as [(_ & B & Ez)|[(D & _)|[(_ & B & Mk & Ez)|(D & _)]]]; try (exfalso; eauto; fail).
        + destruct (R3 B) as (i & al & -> & Br & L1). exists (Z.of_nat i), al. split; [exact Hr|]. right. exists i.
          destruct Br as (x & y & Hx & Hy & Br). pose proof (nth_error_Some_lt _ _ _ Hy). repeat split; auto. exists x, y. auto.
        + rewrite (R1 B), Mk in Hr. exists (-1)%Z, 1%Q. split; [exact Hr|]. left. rewrite Ez. repeat split; auto.
      - destruct (l_alphas_desc ls (Some (length ls)) sbc bbc (map dep pts) D N H1) as (rows & Er & Lr & K). exists rows. split; [exact Er|]. rewrite map_length in Lr. split; [exact Lr|].
        intros k p Hp. destruct (K k (dep p)) as (r & Hr & R). { now apply map_nth_error. }
        destruct (Q p (nth_error_In _ _ Hp)) as (a & b & Ha & Hb & C). destruct (R a b Ha Hb) as (R1 & _ & R3).
        destruct C as [(A & _)|[(_ & B & Ez)|[(A & _)|(_ & B & Mk & Ez)]]]; try (exfalso; eauto; fail).
        + destruct (R3 B) as (i & al & -> & Br & L1). exists (Z.of_nat i), al. split; [exact Hr|]. right. exists i.
          destruct Br as (x & y & Hx & Hy & Br). pose proof (nth_error_Some_lt _ _ _ Hy). repeat split; auto. exists x, y. auto.
        + rewrite (R1 B), Mk in Hr. exists (-1)%Z, 1%Q. split; [exact Hr|]. left. rewrite Ez. repeat split; auto. }
    rewrite Er. unfold drow in *. cbn [bind fst snd]. rewrite DL. cbn [bind].
    set (g := fun (i : Z) (p : P) => f (if (i =? -1)%Z then length ls - 1 else Z.to_nat i) p).
    assert (Rng : forall i, In (Some i) (map fst rows) -> i = (-1)%Z \/ exists j, i = Z.of_nat j /\ S j < length ls).
    { intros i Hi. apply in_map_iff in Hi as (r & Hf & Hr). apply In_nth_error in Hr as (k & Hk). assert (Lk : k < length pts) by (rewrite <- Lr; exact (nth_error_Some_lt _ _ _ Hk)).
      destruct (nth_error_lt_Some pts k Lk) as [p Hp]. destruct (Kr k p Hp) as (i' & al & Hr & C). rewrite Hk in Hr. injection Hr as ->. cbn [fst] in Hf. injection Hf as <-.
      destruct C as [(-> & _)|(j & -> & Hj & _)]; eauto. }
    destruct (depth_level (length ls) val slices pts (map fst rows) (map (fun x => match snd x with Some a => a | None => 0%Q end) rows) g) with (layers := length ls - 1) as (vs & Ev & Lv & Kv).
    - now rewrite map_length.
    - now rewrite map_length.
    - lia.
    - intros i Hi. destruct (Rng i Hi) as [->|(j & -> & Hj)]; lia.
    - intros i ps Hi. assert (C : i = (-1)%Z \/ exists j, i = Z.of_nat j /\ j < length ls).
      { destruct Hi as [Hi|Hi]; destruct (Rng _ Hi) as [X|(j & X & Hj)]; [left; auto|right; exists j; split; [auto|lia]|right; exists 0; lia|right; exists (S j); lia]. }
      unfold g. destruct C as [->|(j & -> & Hj)].
      + cbn [Z.eqb Pos.eqb]. apply V1.
      + rewrite V by auto. destruct (Z.eqb_spec (Z.of_nat j) (-1)); [lia|]. now rewrite Nat2Z.id.
    - exists vs. split; [exact Ev|]. clear Ev V V1 Er.
      assert (K : forall k p, nth_error pts k = Some p -> exists c, nth_error vs k = Some c /\ Sees (exists d, DepthUsed ls (dep p) d /\ M d p) (E (z p) p) c).
      { intros k p Hp. destruct (Kr k p Hp) as (i & al & Hr & C).
        specialize (Kv k p (Some i) al Hp). rewrite !nth_error_map, Hr in Kv. specialize (Kv eq_refl eq_refl). eexists. split; [exact Kv|]. clear Kv. unfold g.
        pose proof (nth_error_In _ _ Hp) as Ip. destruct C as [(-> & Ha & F1 & By)|(j & -> & Hj & (x & y & Hx & Hy & Ba & Ez') & L1 & Ez)].
        - cbn [Z.eqb Pos.eqb Z.add Z.pos_sub]. cbn [Z.to_nat].
          destruct (nth_error_lt_Some ls (length ls - 1)) as [l Hl]; [lia|].
          apply (sees_iff (M l p \/ M (z p) p)).
          { split; [intros [H|H]; [exists l|exists (z p)]; (split; [apply (beyond_used ls (dep p) _ (z p) l); auto|exact H])|].
            intros (d & Hd & H). apply (beyond_used ls (dep p) d (z p) l) in Hd; auto. destruct Hd as [-> | ->]; auto. }
          eapply sees_lerp; [apply (Sm _ _ p Hl Ip)|apply (Sm _ _ p F1 Ip)|]. rewrite Ha. ring.
        - destruct (Z.eqb_spec (Z.of_nat j) (-1)); [lia|]. destruct (Z.eqb_spec (Z.of_nat j + 1) (-1)); [lia|]. replace (Z.of_nat j + 1)%Z with (Z.of_nat (S j)) by lia. rewrite !Nat2Z.id.
          assert (B : (x <= dep p < y \/ y < dep p <= x)%Q).
          { destruct Dir as [A|D]; [left; pose proof (A j (S j) x y ltac:(lia) Hx Hy)|right; pose proof (D j (S j) x y ltac:(lia) Hx Hy)]; split; nra. }
          apply (sees_iff (M x p \/ M y p)).
          { split; [intros [H|H]; [exists x|exists y]; (split; [apply (level_used ls (dep p) _ j x y); auto|exact H])|].
            intros (d & Hd & H). apply (level_used ls (dep p) d j x y) in Hd; auto. destruct Hd as [-> | ->]; auto. }
          eapply sees_lerp; [apply (Sm _ _ p Hx Ip)|apply (Sm _ _ p Hy Ip)|]. rewrite (Lin p Ip j x y al Hx Hy Ba (z p)); [ring|]. now rewrite Ez. }
      clear - K Lv. revert vs Lv K. induction pts as [|p ps IH]; intros [|c vs] L K; try discriminate; constructor.
      + destruct (K 0 p eq_refl) as (c' & Hc & ?). injection Hc as ->. auto.
      + apply IH; [cbn in L; lia|]. intros k q Hq. apply (K (S k) q Hq).
  Qed.
End Samples.

Section Composed.
  Context (g : grid_kind) (interp : list nat -> list spot -> result (list cell)) (leaf : list nat -> spot -> cell).
  Context (time : option time_obj) (levels : option (list Q)) (sbc bbc : bcond) (rest : list nat) (q q' : Z) (ex : bool).
  Context (M : Z -> Q -> spot -> bool) (E : Z -> Q -> spot -> Q) (z : Q -> Q) (pts : list spot).
  Let ts := option_map t_data time.
  Context (HT : TimeOk ts ex q q') (HL : LevelsOk levels) (HD : forall s, In s pts -> DepthOk levels sbc bbc (deep s) (z (deep s))) (HC : Changes ts levels E).
  Context (HI : forall ix u d, SampleAt ts levels ix u d -> forall ps, interp ix ps = Ok (map (leaf ix) ps)).
  Context (HS : forall ix u d s, SampleAt ts levels ix u d -> In s pts -> Sees (M u d s = true) (E u d s) (leaf ix s)).

  Lemma composed_sees : exists vs, at_grid interp (order_of (some time) (some levels) g) (shape_of time levels rest) time
      (option_map (fun ls => l_view deep ls (Some (length ls)) sbc bbc) levels) q ex pts = Ok vs /\
    Forall2 (fun s c => Sees (Missing ts levels ex q q' (deep s) (z (deep s)) (fun u d => M u d s)) (E q' (z (deep s)) s) c) pts vs.
  Proof.
    assert (Mp : forall (h : spot -> cell) (m : spot -> Prop) (X : spot -> Q), (forall s, In s pts -> Sees (m s) (X s) (h s)) -> Forall2 (fun s c => Sees (m s) (X s) c) pts (map h pts)).
    { intros h m X H. clear - H. induction pts as [|s l IH]; constructor; [apply H; now left|]. apply IH. intros; apply H; now right. }
    assert (Imp : forall (A B : spot -> cell -> Prop) l m, (forall s c, In s l -> A s c -> B s c) -> Forall2 A l m -> Forall2 B l m).
    { intros A B l m H F. revert H. induction F; intros H'; constructor; [apply H'; [now left|assumption]|]. apply IHF. intros; apply H'; [now right|assumption]. }
    destruct HC as [LT LD]. unfold ts in *. unfold Missing. destruct time as [t|], levels as [ls|]; cbn [some option_map UsesTime UsesDepth] in *.
    - destruct (HT _ eq_refl) as (SI & Ne & TA). destruct (HL ls eq_refl) as (N & Mo). set (n := length (t_data t)).
      assert (Hn : 0 < n) by (unfold n; destruct (t_data t); [congruence|cbn; lia]).
      assert (at_grid interp (order_of true true g) (shape_of (Some t) (Some ls) rest) (Some t) (Some (l_view deep ls (Some (length ls)) sbc bbc)) q ex pts =
        time_interp t q ex (v_depth (order_of true true g) (shape_of (Some t) (Some ls) rest) (Some (l_view deep ls (Some (length ls)) sbc bbc)) (grid_xy interp [n; length ls]) pts) []) as ->.
      { destruct g; reflexivity. }
      destruct (time_sees t q q' ex (v_depth (order_of true true g) (shape_of (Some t) (Some ls) rest) (Some (l_view deep ls (Some (length ls)) sbc bbc)) (grid_xy interp [n; length ls]) pts)
        (fun u s => exists d, DepthUsed ls (deep s) d /\ M u d s = true) (fun u s => E u (z (deep s)) s) pts SI Ne TA) as (vs & Ev & V).
      + intros k tk Hk. pose proof (nth_error_Some_lt _ _ _ Hk) as Lk. fold n in Lk.
        apply (depth_sees (order_of true true g) (shape_of (Some t) (Some ls) rest) deep ls sbc bbc (grid_xy interp [n; length ls]) [Z.of_nat k] (fun j => leaf [k; j])
          (fun d s => M tk d s = true) (fun d s => E tk d s) (fun s => z (deep s)) pts); auto.
        * intros s Hs. apply (HD s Hs ls eq_refl).
        * intros j ps Hj. cbn [app]. rewrite grid_ix2 by auto. destruct (nth_error_lt_Some ls j Hj) as [L HL']. apply (HI [k; j] tk L). exists k, j. auto.
        * intros ps. cbn [app]. rewrite grid_last2 by lia. destruct (nth_error_lt_Some ls (length ls - 1)) as [L HL']; [lia|]. apply (HI [k; length ls - 1] tk L). exists k, (length ls - 1). auto.
        * intros j L s HL' Hs. apply (HS [k; j]); auto. exists k, j. auto.
      + fold n. unfold v_depth. destruct (dv_alphas _ pts) as [ia|]; cbn [bind]; [|reflexivity]. destruct (dim_len _ _ _); cbn [bind]; [|reflexivity].
        apply depth_interp_ext. intros ps i. cbn [app]. now apply grid_first_last.
      + intros s Hs. exact (LT _ eq_refl (z (deep s)) s).
      + exists vs. split; [exact Ev|]. revert V. apply Imp. intros s c _. apply sees_iff. split.
        * intros (u & Hu & d & Hd & H). exists u, d. auto.
        * intros (u & d & Hu & Hd & H). eauto.
    - destruct (HT _ eq_refl) as (SI & Ne & TA). set (n := length (t_data t)).
      assert (Hn : 0 < n) by (unfold n; destruct (t_data t); [congruence|cbn; lia]).
      assert (at_grid interp (order_of true false g) (shape_of (Some t) None rest) (Some t) None q ex pts = time_interp t q ex (grid_xy interp [n] pts) []) as -> by (destruct g; reflexivity).
      destruct (time_sees t q q' ex (grid_xy interp [n] pts) (fun u s => M u (z (deep s)) s = true) (fun u s => E u (z (deep s)) s) pts SI Ne TA) as (vs & Ev & V).
      + intros k tk Hk. pose proof (nth_error_Some_lt _ _ _ Hk) as Lk. fold n in Lk. exists (map (leaf [k]) pts). split.
        * rewrite grid_ix1 by auto. apply (HI [k] tk 0%Q). exists k. auto.
        * apply Mp. intros s Hs. apply (HS [k]); auto. exists k. auto.
      + fold n. rewrite grid_last1, grid_ix1 by lia. reflexivity.
      + intros s Hs. exact (LT _ eq_refl (z (deep s)) s).
      + exists vs. split; [exact Ev|]. revert V. apply Imp. intros s c _. apply sees_iff. split.
        * intros (u & Hu & H). exists u, (z (deep s)). auto.
        * intros (u & d & Hu & -> & H). eauto.
    - destruct (HL ls eq_refl) as (N & Mo).
      assert (at_grid interp (order_of false true g) (shape_of None (Some ls) rest) None (Some (l_view deep ls (Some (length ls)) sbc bbc)) q ex pts =
        v_depth (order_of false true g) (shape_of None (Some ls) rest) (Some (l_view deep ls (Some (length ls)) sbc bbc)) (grid_xy interp [length ls]) pts []) as ->.
      { destruct g; reflexivity. }
      destruct (depth_sees (order_of false true g) (shape_of None (Some ls) rest) deep ls sbc bbc (grid_xy interp [length ls]) [] (fun j => leaf [j])
        (fun d s => M q' d s = true) (fun d s => E q' d s) (fun s => z (deep s)) pts) as (vs & Ev & V); auto.
      + intros s Hs. apply (HD s Hs ls eq_refl).
      + intros j ps Hj. cbn [app]. rewrite grid_ix1 by auto. destruct (nth_error_lt_Some ls j Hj) as [L HL']. apply (HI [j] 0%Z L). exists j. auto.
      + intros ps. cbn [app]. rewrite grid_last1 by lia. destruct (nth_error_lt_Some ls (length ls - 1)) as [L HL']; [lia|]. apply (HI [length ls - 1] 0%Z L). exists (length ls - 1). auto.
      + intros j L s HL' Hs. apply (HS [j]); auto. exists j. auto.
      + exists vs. split; [exact Ev|]. revert V. apply Imp. intros s c _. apply sees_iff. split.
        * intros (d & Hd & H). exists q', d. auto.
        * intros (u & d & -> & Hd & H). eauto.
    - exists (map (leaf []) pts). split; [destruct g; exact (HI [] 0%Z 0%Q eq_refl pts)|]. apply Mp. intros s Hs.
      apply (sees_iff (M q' (z (deep s)) s = true)); [|apply (HS []); [reflexivity|exact Hs]]. split; [intros H; exists q', (z (deep s)); auto|intros (u & d & -> & -> & H); exact H].
  Qed.
End Composed.

(** ** Meshes. *)
Lemma masked_at n m f data k : MaskedSamples n m f data -> k < n -> exists c, nth_error data k = Some c /\ Sees (m k = true) (f k) c.
Proof. intros [L H] Hk. rewrite <- L in Hk. destruct (nth_error_lt_Some data k Hk) as [c Hc]. eauto. Qed.

(** The sum of three products with missing entries left out. *)
Definition kept (m : bool) (x : Q) : Q := if m then 0%Q else x.
Lemma sees_kept (m : bool) x c : Sees (m = true) x c -> (m = true /\ c = CMasked) \/ (m = false /\ exists v, c = CVal v /\ (v == x)%Q).
Proof. intros [[-> ->]|[N (v & -> & E)]]; [now left|right]. destruct m; [congruence|eauto]. Qed.
Lemma sum_sees ma mb mc x y w ca cb cc u v t r :
  Sees (ma = true) x ca -> Sees (mb = true) y cb -> Sees (mc = true) w cc -> (r == u * kept ma x + v * kept mb y + t * kept mc w)%Q ->
  Sees (ma && mb && mc = true) r (cell_sum [cell_mul ca (CVal u); cell_mul cb (CVal v); cell_mul cc (CVal t)]).
Proof.
  intros A B C R. apply sees_kept in A, B, C.
  destruct A as [[-> ->]|[-> (a & -> & Ea)]], B as [[-> ->]|[-> (b & -> & Eb)]], C as [[-> ->]|[-> (c & -> & Ec)]];
    cbn [andb kept] in *; try (left; split; reflexivity);
    right; (split; [discriminate|]); (eexists; split; [reflexivity|]); rewrite R, ?Ea, ?Eb, ?Ec; ring.
Qed.

Section Mesh.
  Context (tree : list pt -> list (list Z) -> list pt -> list Z) (hist : list nat -> list spot -> list ug_op) (nodes : list pt) (faces : list (list Z)) (find : point -> Z).
  Context (HT : forall ps, tree nodes faces ps = map find ps) (HH : forall ix ps, Forall asks (hist ix ps)).
  (** The triangle looked up for a point, and the weights. *)
  Definition corners_of (s : spot) (a b c : nat) : Prop :=
    exists k, FaceAsked (length faces) (find (place s)) k /\ nth_error faces k = Some [Z.of_nat a; Z.of_nat b; Z.of_nat c].
  Lemma corners_exist s : TriMesh nodes faces -> FindsFaces nodes faces find -> exists a b c A B C,
    corners_of s a b c /\ nth_error nodes a = Some A /\ nth_error nodes b = Some B /\ nth_error nodes c = Some C /\ ~ (Cross A B C == 0)%Q.
  Proof.
    intros [Ne T] FF. destruct (FF (place s)) as [E|(k & a & b & c & A & B & C & E & Hk & _)].
    - destruct (last_exists faces Ne) as [f Hf]. destruct (T f (nth_error_In _ _ Hf)) as (a & b & c & A & B & C & -> & HA & HB & HC & X).
      exists a, b, c, A, B, C. split; [|auto]. exists (length faces - 1). split; [right; auto|exact Hf].
    - destruct (T _ (nth_error_In _ _ Hk)) as (a' & b' & c' & A' & B' & C' & Ef & HA & HB & HC & X). injection Ef as Ea Eb Ec. apply Nat2Z.inj in Ea, Eb, Ec. subst a' b' c'.
      exists a, b, c, A', B', C'. split; [|auto]. exists k. split; [left; exact E|exact Hk].
  Qed.
  Lemma corners_unique s a b c a' b' c' : corners_of s a b c -> corners_of s a' b' c' -> a = a' /\ b = b' /\ c = c'.
  Proof.
    intros (k & F & H) (k' & F' & H'). assert (k = k') as <- by (destruct F as [E|[E ->]], F' as [E'|[E' ->]]; lia).
    rewrite H in H'. injection H' as Ea Eb Ec. apply Nat2Z.inj in Ea, Eb, Ec. auto.
  Qed.
  Lemma node_sees s data m (f : nat -> Q) a b c A B C : corners_of s a b c -> nth_error nodes a = Some A -> nth_error nodes b = Some B -> nth_error nodes c = Some C -> ~ (Cross A B C == 0)%Q ->
    MaskedSamples (length nodes) m f data ->
    exists al u v w, alpha_row nodes faces (place s) (find (place s)) = Ok al /\ node_value faces data al (find (place s)) = Ok (node_leaf nodes faces find data s) /\
      Combination A B C (place s) u v w /\
      Sees (m a && m b && m c = true) (if (find (place s) =? -1)%Z then 0%Q else u * kept (m a) (f a) + v * kept (m b) (f b) + w * kept (m c) (f c))%Q (node_leaf nodes faces find data s).
  Proof.
    intros (k & Fk & Hf) HA HB HC X MS. destruct (alphas_weights A B C (place s) X) as (u & v & w & Ea & HCo).
    destruct (masked_at _ _ _ _ a MS (nth_error_Some_lt _ _ _ HA)) as (ca & Da & Sa). destruct (masked_at _ _ _ _ b MS (nth_error_Some_lt _ _ _ HB)) as (cb & Db & Sb).
    destruct (masked_at _ _ _ _ c MS (nth_error_Some_lt _ _ _ HC)) as (cc & Dc & Sc).
    unfold node_leaf, alpha_row, node_value, face_points.
    assert (G : py_get faces (find (place s)) = Ok [Z.of_nat a; Z.of_nat b; Z.of_nat c]).
    { destruct Fk as [-> | [-> ->]]; [now apply py_get_nat|now apply py_get_m1]. }
    rewrite G. cbn [bind mapM]. rewrite (py_get_nat _ _ _ HA), (py_get_nat _ _ _ HB), (py_get_nat _ _ _ HC). cbn [bind]. rewrite Ea.
    rewrite (py_get_nat _ _ _ Da), (py_get_nat _ _ _ Db), (py_get_nat _ _ _ Dc). cbn [bind].
    destruct (Z.eqb_spec (find (place s)) (-1)) as [E|E]; do 4 eexists; (split; [reflexivity|split; [reflexivity|split; [exact HCo|]]]); cbn [map combine fst snd].
    - cbn [cell_mul]. apply sees_kept in Sa, Sb, Sc.
      apply (sum_sees (m a) (m b) (m c) 0 0 0); [| | |unfold kept; destruct (m a), (m b), (m c); ring];
        [destruct Sa as [[-> ->]|[-> (x & -> & _)]]|destruct Sb as [[-> ->]|[-> (x & -> & _)]]|destruct Sc as [[-> ->]|[-> (x & -> & _)]]];
        (left; split; reflexivity) || (right; split; [discriminate|eexists; split; [reflexivity|ring]]).
    - apply (sum_sees (m a) (m b) (m c) (f a) (f b) (f c)); auto. reflexivity.
  Qed.
  Lemma mesh_masked data m f ix ps : TriMesh nodes faces -> FindsFaces nodes faces find -> MaskedSamples (length nodes) m f (data ix) ->
    mesh_interp tree hist nodes faces VNode data ix ps = Ok (map (node_leaf nodes faces find (data ix)) ps).
  Proof.
    intros T FF MS. rewrite (mesh_fresh tree hist nodes faces HH). unfold interp_fresh. rewrite HT, map_map. unfold interpolation_alphas, interp_values. rewrite combine_same, mapM_map. cbn [fst snd].
    assert (K : forall s, exists al, alpha_row nodes faces (place s) (find (place s)) = Ok al /\ node_value faces (data ix) al (find (place s)) = Ok (node_leaf nodes faces find (data ix) s)).
    { intros s. destruct (corners_exist s T FF) as (a & b & c & A & B & C & Co & HA & HB & HC & X). destruct (node_sees s _ m f a b c A B C Co HA HB HC X MS) as (al & u & v & w & E1 & E2 & _). eauto. }
    set (al := fun s => match alpha_row nodes faces (place s) (find (place s)) with Ok a => a | Err _ => [] end).
    rewrite (mapM_pure _ al); [|intros s _; unfold al; destruct (K s) as (a & -> & _); reflexivity].
    cbn [bind]. rewrite combine_same, mapM_map. cbn [fst snd].
    rewrite (mapM_pure _ (node_leaf nodes faces find (data ix))); [reflexivity|].
    intros s _. unfold al. destruct (K s) as (a & -> & E). exact E.
  Qed.

  Lemma face_sees s data m (f : nat -> Q) k : FaceAsked (length faces) (find (place s)) k -> k < length faces -> MaskedSamples (length faces) m f data ->
    face_value data (find (place s)) = Ok (face_leaf find data s) /\
    Sees (m k = true) (if (find (place s) =? -1)%Z then 0%Q else f k) (face_leaf find data s).
  Proof.
    intros Fk Lk MS. destruct (masked_at _ _ _ _ k MS Lk) as (c & Dc & Sc). destruct MS as [Ln _]. unfold face_leaf, face_value.
    assert (G : py_get data (find (place s)) = Ok c). { destruct Fk as [-> | [-> ->]]; [now apply py_get_nat|apply py_get_m1; now rewrite Ln]. }
    rewrite G. cbn [bind]. split; [reflexivity|]. destruct (Z.eqb_spec (find (place s)) (-1)); [|exact Sc].
    apply sees_kept in Sc. destruct Sc as [[-> ->]|[-> (x & -> & _)]]; [left; split; reflexivity|]. right. split; [discriminate|]. eexists. split; [reflexivity|ring].
  Qed.
  Lemma face_asked s : faces <> [] -> FindsFaces nodes faces find -> exists k, FaceAsked (length faces) (find (place s)) k /\ k < length faces.
  Proof.
    intros Ne FF. destruct (FF (place s)) as [E|(k & a & b & c & A & B & C & E & Hk & _)].
    - exists (length faces - 1). split; [right; auto|]. assert (length faces <> 0) by (intros X; apply Ne; now apply length_zero_iff_nil). lia.
    - exists k. split; [left; exact E|]. eapply nth_error_Some_lt; eauto.
  Qed.
  Lemma mesh_face_masked data m f ix ps : faces <> [] -> FindsFaces nodes faces find -> MaskedSamples (length faces) m f (data ix) ->
    mesh_interp tree hist nodes faces VFace data ix ps = Ok (map (face_leaf find (data ix)) ps).
  Proof.
    intros Ne FF MS. rewrite (mesh_fresh tree hist nodes faces HH). unfold interp_fresh. rewrite HT, map_map. unfold interp_values. rewrite mapM_map.
    rewrite (mapM_pure _ (face_leaf find (data ix))); [reflexivity|].
    intros s _. destruct (face_asked s Ne FF) as (k & Fk & Lk). apply (face_sees s _ m f k Fk Lk MS).
  Qed.
End Mesh.

(** ** Two axes. *)
Lemma time_interp_ext t q ex (val val' : list Z -> result (list cell)) sl : (forall s, val s = val' s) -> time_interp t q ex val sl = time_interp t q ex val' sl.
Proof.
  intros H. unfold time_interp. destruct (min_time t); cbn [bind]; [|reflexivity]. destruct (_ || _); [apply H|]. destruct (max_time t); cbn [bind]; [|reflexivity].
  destruct (_ || _); [apply H|]. destruct (index_of _ _ _); cbn [bind]; [|reflexivity]. now rewrite !H.
Qed.
Lemma at_grid_ext {P} (interp interp' : list nat -> list P -> result (list cell)) order shape time depth q ex pts :
  (forall ix ps, interp ix ps = interp' ix ps) -> at_grid interp order shape time depth q ex pts = at_grid interp' order shape time depth q ex pts.
Proof.
  intros H. assert (X : forall lead ps sl, grid_xy interp lead ps sl = grid_xy interp' lead ps sl).
  { intros lead ps sl. unfold grid_xy. destruct (resolve lead sl); cbn [bind]; [apply H|reflexivity]. }
  assert (VT : forall (v v' : list P -> list Z -> result (list cell)) ps sl, (forall ps sl, v ps sl = v' ps sl) -> v_time time q ex v ps sl = v_time time q ex v' ps sl).
  { intros v v' ps sl E. unfold v_time. destruct time; [|reflexivity]. apply time_interp_ext. intros; apply E. }
  assert (VD : forall (v v' : list P -> list Z -> result (list cell)) ps sl, (forall ps sl, v ps sl = v' ps sl) -> v_depth order shape depth v ps sl = v_depth order shape depth v' ps sl).
  { intros v v' ps sl E. unfold v_depth. destruct depth; [|reflexivity]. destruct (dv_alphas _ _); cbn [bind]; [|reflexivity]. destruct (dim_len _ _ _); cbn [bind]; [|reflexivity].
    apply depth_interp_ext. intros; apply E. }
  unfold at_grid. destruct order as [|[] o]; auto.
  - destruct (next_is _ _ _) as [[]|]; cbn [bind]; [apply VT; intros; now apply VD|now apply VT|reflexivity].
  - destruct (next_is _ _ _) as [[]|]; cbn [bind]; [apply VD; intros; now apply VT|now apply VD|reflexivity].
Qed.
Lemma fill0_idem c : fill0 (fill0 c) = fill0 c.
Proof. now destruct c. Qed.
Lemma rect_filled g dims shape vals ix ps : rect_interp g dims shape vals ix ps = rect_interp g dims shape (fun ix => map (map fill0) (vals ix)) ix ps.
Proof.
  unfold rect_interp, rg_interpolate. assert (E : map (map fill0) (map (map fill0) (vals ix)) = map (map fill0) (vals ix)); [|now rewrite E].
  rewrite map_map. apply map_ext. intros r. rewrite map_map. apply map_ext. exact fill0_idem.
Qed.
Lemma filled_shows (m : bool) x c : Sees (m = true) x c -> Shows (kept m x) (fill0 c).
Proof. intros H. apply sees_kept in H. destruct H as [[-> ->]|[-> (v & -> & E)]]; (eexists; split; [reflexivity|]); [reflexivity|exact E]. Qed.
Lemma nth_map_some {A B} (f : A -> B) l k y : nth_error (map f l) k = Some y -> exists x, nth_error l k = Some x /\ y = f x.
Proof. rewrite nth_error_map. destruct (nth_error l k); [intros H; injection H as <-; eauto|discriminate]. Qed.
Lemma filled_table y x m f vals : MaskedTable y x m f vals -> Table (map (map fill0) vals) (length y) (length x).
Proof.
  intros (L & LR & H). split; [now rewrite map_length|]. apply Forall_forall. intros r Hr. apply In_nth_error in Hr. destruct Hr as [i Hi].
  apply nth_map_some in Hi. destruct Hi as (row & Hi & ->). split; [rewrite map_length; eauto|]. apply Forall_forall. intros c Hc. apply In_nth_error in Hc. destruct Hc as [j Hj].
  apply nth_map_some in Hj. destruct Hj as (c' & Hj & ->).
  destruct (nth_error_lt_Some y i) as [a Ha]; [rewrite <- L; eapply nth_error_Some_lt; eauto|].
  destruct (nth_error_lt_Some x j) as [b Hb]; [rewrite <- (LR i row Hi); eapply nth_error_Some_lt; eauto|].
  destruct (filled_shows _ _ _ (H i j row c' a b Hi Hj Ha Hb)) as (v & -> & _). eauto.
Qed.
Lemma filled_at y x m f vals i j a b v : MaskedTable y x m f vals -> nth_error y i = Some a -> nth_error x j = Some b -> At (map (map fill0) vals) i j v -> (v == kept (m i j) (f a b))%Q.
Proof.
  intros (L & LR & H) Ha Hb (r & Hr & Hv). apply nth_map_some in Hr. destruct Hr as (row & Hi & ->). apply nth_map_some in Hv. destruct Hv as (c & Hj & E).
  destruct (filled_shows _ _ _ (H i j row c a b Hi Hj Ha Hb)) as (w & E' & Q). congruence.
Qed.
Lemma filled_samples y x m f f0 vals : MaskedTable y x m f vals ->
  (forall i j a b, nth_error y i = Some a -> nth_error x j = Some b -> (f0 a b == kept (m i j) (f a b))%Q) -> TableSamples y x f0 (map (map fill0) vals).
Proof.
  intros (L & LR & H) Z. unfold TableSamples.
  assert (K : forall {A B} (R : A -> B -> Prop) l l', length l' = length l -> (forall i a b, nth_error l i = Some a -> nth_error l' i = Some b -> R a b) -> Forall2 R l l').
  { clear. intros A B R. induction l as [|a l IH]; intros [|b l'] E K; try discriminate; constructor; [apply (K 0); reflexivity|]. apply IH; [now injection E|]. intros i. apply (K (S i)). }
  apply K; [now rewrite map_length|]. intros i a r Ha Hr. apply nth_map_some in Hr. destruct Hr as (row & Hi & ->).
  apply K; [rewrite map_length; eauto|]. intros j b c Hb Hc. apply nth_map_some in Hc. destruct Hc as (c' & Hj & ->).
  eapply shows_eq; [apply filled_shows; eauto|]. symmetry. auto.
Qed.
Section Rect.
  Context (g : rgrid) (sw : bool).
  Let y := fst (yx_axes g sw).
  Let x := snd (yx_axes g sw).
  Context (M1 : Monotone (rg_lon g)) (M2 : Monotone (rg_lat g)) (N1 : 2 <= length (rg_lon g)) (N2 : 2 <= length (rg_lat g)).
  Lemma clear_shows v m f s : MaskedTable y x m (fun a b => f (if sw then (a, b) else (b, a))) v -> BilinearOverCells (rg_lon g) (rg_lat g) f ->
    ClearAt y x m (if sw then fst (place s) else snd (place s)) (if sw then snd (place s) else fst (place s)) ->
    Shows (if within (rg_lon g) (fst (place s)) && within (rg_lat g) (snd (place s)) then f (place s) else 0%Q) (rect_leaf g sw (map (map fill0) v) s).
  Proof.
    intros T B Cl. pose proof (filled_table _ _ _ _ _ T) as Ts. unfold rect_leaf. destruct (place s) as [lon lat] eqn:Ep. cbn [fst snd] in *.
    assert (W : Spans (rg_lon g) lon /\ Spans (rg_lat g) lat <-> within (rg_lon g) lon && within (rg_lat g) lat = true).
    { rewrite andb_true_iff, !within_spec by auto. tauto. }
    unfold x, y in *. destruct sw; cbn [yx_axes fst snd] in *.
    - destruct (rgi_eval_spec (rg_lon g) (rg_lat g) _ lon lat M1 M2 N1 N2 Ts) as (q & -> & [(S1 & S2 & H)|[H E]]); (exists q; split; [reflexivity|]).
      + rewrite (proj1 W (conj S1 S2)).
        destruct H as (i & i' & u & u' & j & j' & w & w' & a & b & c & d & K1 & K2 & A1 & A2 & A3 & A4 & ->).
        destruct (Cl _ _ _ _ _ _ _ _ K1 K2) as (C1 & C2 & C3 & C4).
        pose proof K1 as (X & X' & HX & HX' & _). pose proof K2 as (Y & Y' & HY & HY' & _).
        rewrite (B (lon, lat) i i' u u' j j' w w' X X' Y Y' K1 K2 HX HX' HY HY').
        rewrite (filled_at _ _ _ _ _ _ _ _ _ _ T HX HY A1), (filled_at _ _ _ _ _ _ _ _ _ _ T HX HY' A2), (filled_at _ _ _ _ _ _ _ _ _ _ T HX' HY A3), (filled_at _ _ _ _ _ _ _ _ _ _ T HX' HY' A4).
        rewrite C1, C2, C3, C4. cbn [kept]. ring.
      + destruct (_ && _); [|auto]. exfalso. tauto.
    - destruct (rgi_eval_spec (rg_lat g) (rg_lon g) _ lat lon M2 M1 N2 N1 Ts) as (q & -> & [(S2 & S1 & H)|[H E]]); (exists q; split; [reflexivity|]).
      + rewrite (proj1 W (conj S1 S2)).
        destruct H as (i & i' & u & u' & j & j' & w & w' & a & b & c & d & K1 & K2 & A1 & A2 & A3 & A4 & ->).
        destruct (Cl _ _ _ _ _ _ _ _ K1 K2) as (C1 & C2 & C3 & C4).
        pose proof K1 as (X & X' & HX & HX' & _). pose proof K2 as (Y & Y' & HY & HY' & _).
        rewrite (B (lon, lat) j j' w w' i i' u u' Y Y' X X' K2 K1 HY HY' HX HX').
        rewrite (filled_at _ _ _ _ _ _ _ _ _ _ T HX HY A1), (filled_at _ _ _ _ _ _ _ _ _ _ T HX HY' A2), (filled_at _ _ _ _ _ _ _ _ _ _ T HX' HY A3), (filled_at _ _ _ _ _ _ _ _ _ _ T HX' HY' A4).
        rewrite C1, C2, C3, C4. cbn [kept]. ring.
      + destruct (_ && _); [|auto]. exfalso. tauto.
  Qed.
End Rect.
