From Coq Require Import String Lqa.
From Verif Require Import Common CommonProofs TimeModel TimeSpec TimeProofs VariableModel VariableSpec VariableProofs VariableInterpProofs VariableAtProofs
  DepthModel DepthSpec DepthProofs UGridGeomModel UGridGeomSpec UGridGeomProofs UGridLocProofs UGridInterpProofs RGridModel RGridSpec RGridProofs WholeModel WholeSpec.
Open Scope list_scope.
Open Scope nat_scope.

Lemma shows_eq x y c : Shows x c -> (x == y)%Q -> Shows y c.
Proof. intros (v & -> & E) Q. exists v. split; [reflexivity|]. now rewrite E. Qed.
Lemma shows_lerp x y a r c d : Shows x c -> Shows y d -> (r == x + (y - x) * a)%Q -> Shows r (cell_lerp c d a).
Proof. intros (v & -> & E) (w & -> & E') Q. eexists. split; [reflexivity|]. now rewrite Q, E, E'. Qed.

Section Samples.
  Context {P : Type}.
  (** In time. *)
  Lemma time_shows t q q' ex (val : list Z -> result (list cell)) (E : Z -> P -> Q) pts :
    StrictlyIncreasing (t_data t) -> t_data t <> [] -> TimeAsked (t_data t) ex q q' ->
    (forall k tk, nth_error (t_data t) k = Some tk -> exists vs, val [Z.of_nat k] = Ok vs /\ Forall2 (fun p c => Shows (E tk p) c) pts vs) ->
    val [-1]%Z = val [Z.of_nat (length (t_data t) - 1)] ->
    (forall p, In p pts -> LinearInTime (t_data t) (fun u => E u p)) ->
    exists vs, time_interp t q ex val [] = Ok vs /\ Forall2 (fun p c => Shows (E q' p) c) pts vs.
  Proof.
    intros SI Ne Q V L Lin. set (n := length (t_data t)).
    set (F := fun k => match val [Z.of_nat k] with Ok vs => vs | Err _ => [] end).
    assert (HF : forall k, k < n -> val [Z.of_nat k] = Ok (F k)).
    { intros k Hk. destruct (nth_error_lt_Some (t_data t) k Hk) as [tk Hk']. destruct (V k tk Hk') as (vs & Ev & _). unfold F. now rewrite Ev. }
    assert (HS : forall k tk, nth_error (t_data t) k = Some tk -> Forall2 (fun p c => Shows (E tk p) c) pts (F k)).
    { intros k tk Hk. destruct (V k tk Hk) as (vs & Ev & H). unfold F. now rewrite Ev. }
    assert (Hn : 0 < n) by (unfold n; destruct (t_data t); [congruence|cbn; lia]).
    assert (HL : val [-1]%Z = Ok (F (n - 1))) by (rewrite L; apply HF; lia).
    destruct (nonempty_ends _ Ne) as (a & b & Ha & Hb). fold n in Hb.
    assert (Single : n = 1 -> exists vs, time_interp t q ex val [] = Ok vs /\ Forall2 (fun p c => Shows (E a p) c) pts vs).
    { intros E1. destruct (ti_single t val F Ne HF HL q ex E1) as (vs & Ev & C). exists vs. split; [exact Ev|]. specialize (HS _ _ Ha).
      clear - C HS. revert pts HS. induction C as [|c d l l' K _ IH]; intros ps H; inversion H as [|? ? ? ? (v & -> & Ev)]; subst; constructor; auto.
      destruct c; cbn in K; try contradiction. exists q. split; [reflexivity|]. now rewrite K. }
    destruct Q as [((a' & b' & Ha' & Hb' & B) & ->)|[(a' & -> & Ha' & Lt & ->)|[(b' & -> & Hb' & Lt & ->)|(E1 & H1)]]].
    - fold n in Hb'. rewrite Ha in Ha'. injection Ha' as <-. rewrite Hb in Hb'. injection Hb' as <-.
      destruct (Nat.eq_dec n 1) as [E1|N1].
      { assert (q = a) as ->. { rewrite E1 in Hb. cbn [Nat.sub] in Hb. rewrite Ha in Hb. injection Hb as <-. lia. } auto. }
      destruct (Z.eq_dec q a) as [->|Na].
      { exists (F 0). split; [apply (ti_first t val F SI Ne HF HL a ex a); auto|auto]. }
      destruct (Z.eq_dec q b) as [->|Nb].
      { exists (F (n - 1)). split; [apply (ti_last t val F SI Ne HF HL b ex b); auto|auto]. }
      assert (exists k t0 t1, nth_error (t_data t) k = Some t0 /\ nth_error (t_data t) (S k) = Some t1 /\ (t0 < q <= t1)%Z) as (k & t0 & t1 & H0 & H1 & Hq).
      { destruct (interp_alpha_bracket t q ex SI N1) as (i & al & _ & _ & _ & [(-> & H0 & _)|(k & t0 & t1 & -> & H0 & H1 & Hq & _)]).
        - exists a, b. auto.
        - rewrite Ha in H0. congruence.
        - eauto 6. }
      destruct (ti_between t val F SI Ne HF q ex k t0 t1 H0 H1 Hq) as (al & Al & _ & _ & Ev).
      { destruct (Nat.lt_ge_cases (S k) (n - 1)) as [|G]; [auto|]. right. intros ->. pose proof (nth_error_Some_lt _ _ _ H1). fold n in H.
        assert (S k = n - 1) as X by lia. rewrite X, Hb in H1. congruence. }
      exists (cells_lerp (F k) (F (S k)) al). split; [exact Ev|]. clear Ev. pose proof (HS _ _ H0) as S0. pose proof (HS _ _ H1) as S1.
      assert (Lt : (inject_Z t0 < inject_Z t1)%Q). { rewrite <- Zlt_Qlt. apply (SI k (S k)); auto. }
      generalize dependent (F k). generalize dependent (F (S k)). clear - Lin H0 H1 Hq Al Lt. revert Lin.
      induction pts as [|p ps IH]; intros Lin l1 S1 l0 S0; inversion S0; inversion S1; subst; cbn [cells_lerp]; constructor.
      + eapply shows_lerp; eauto. pose proof (Lin p (or_introl eq_refl) k t0 t1 q H0 H1 ltac:(lia)) as X. cbn beta in X.
        assert (Y : ((E q p - E t0 p - (E t1 p - E t0 p) * al) * (inject_Z t1 - inject_Z t0) == 0)%Q).
        { rewrite <- Al in X. nra. }
        apply Qmult_integral in Y as [Y|Y]; lra.
      + apply IH; auto. intros; apply Lin; right; auto.
    - rewrite Ha in Ha'. injection Ha' as <-. exists (F 0). split; [apply (ti_first t val F SI Ne HF HL q true a); auto|auto].
    - fold n in Hb'. rewrite Hb in Hb'. injection Hb' as <-. exists (F (n - 1)). split; [apply (ti_last t val F SI Ne HF HL q true b); auto|auto].
    - rewrite Ha in H1. injection H1 as <-. auto.
  Qed.

  (** In depth, over levels; [f i p]: the value at level [i] (as Python counts). *)
  Lemma depth_shows order shape (dep : P -> Q) ls sbc bbc (val : list P -> list Z -> result (list cell)) slices (f : nat -> P -> cell) (E : Q -> P -> Q) (z : P -> Q) pts :
    2 <= length ls -> Monotone ls -> dim_len order shape DDepth = Ok (length ls) ->
    (forall p, In p pts -> DepthAsked ls sbc bbc (dep p) (z p)) ->
    (forall j ps, j < length ls -> val ps (slices ++ [Z.of_nat j]) = Ok (map (f j) ps)) ->
    (forall ps, val ps (slices ++ [-1]%Z) = Ok (map (f (length ls - 1)) ps)) ->
    (forall j L p, nth_error ls j = Some L -> In p pts -> Shows (E L p) (f j p)) ->
    (forall p, In p pts -> LinearInDepth ls (fun u => E u p)) ->
    exists vs, v_depth order shape (Some (l_view dep ls (Some (length ls)) sbc bbc)) val pts slices = Ok vs /\
      Forall2 (fun p c => Shows (E (z p) p) c) pts vs.
  Proof.
    intros N Dir DL Q V V1 Sm Lin. unfold v_depth. cbn [l_view dv_alphas dv_layers]. unfold view_rows.
    (* the rows *)
    assert (exists rows, l_alphas ls (Some (length ls)) sbc bbc (map dep pts) = Ok rows /\ length rows = length pts /\
      forall k p, nth_error pts k = Some p -> exists i al, nth_error rows k = Some (Some i, Some al) /\
        ((i = -1)%Z /\ (al == 1)%Q /\ First ls (z p) \/ exists j, i = Z.of_nat j /\ (S j < length ls) /\ Bracketed ls (dep p) j al /\ z p = dep p)) as (rows & Er & Lr & Kr).
    { assert (H1 : Some (length ls) <> Some 1) by (intros X; injection X; lia).
      assert (NB : forall a b, First ls a -> Last ls b -> (Ascending ls -> (a < b)%Q) /\ (Descending ls -> (b < a)%Q)).
      { intros a b Ha Hb. split; intros D; (eapply D; [|exact Ha|exact Hb]); lia. }
      assert (AD : Ascending ls -> Descending ls -> False).
      { intros A D. destruct (ends_exist ls N) as (a & b & Ha & Hb). destruct (NB a b Ha Hb) as (X & Y). specialize (X A). specialize (Y D). lra. }
      destruct Dir as [A|D].
      - destruct (l_alphas_asc ls (Some (length ls)) sbc bbc (map dep pts) A N H1) as (rows & Er & Lr & K). exists rows. split; [exact Er|]. rewrite map_length in Lr. split; [exact Lr|].
        intros k p Hp. destruct (K k (dep p)) as (r & Hr & R). { now apply map_nth_error. }
        destruct (Q p (nth_error_In _ _ Hp)) as (a & b & Ha & Hb & C). destruct (R a b Ha Hb) as (R1 & _ & R3).
        destruct C as [(_ & B & Ez)|[(D & _)|[(_ & B & M & Ez)|(D & _)]]]; try (exfalso; eauto; fail).
        + destruct (R3 B) as (i & al & -> & Br & _). exists (Z.of_nat i), al. split; [exact Hr|]. right. exists i.
          destruct Br as (x & y & Hx & Hy & Br). pose proof (nth_error_Some_lt _ _ _ Hy). repeat split; auto. exists x, y. auto.
        + rewrite (R1 B), M in Hr. exists (-1)%Z, 1%Q. split; [exact Hr|]. left. rewrite Ez. repeat split; auto.
      - destruct (l_alphas_desc ls (Some (length ls)) sbc bbc (map dep pts) D N H1) as (rows & Er & Lr & K). exists rows. split; [exact Er|]. rewrite map_length in Lr. split; [exact Lr|].
        intros k p Hp. destruct (K k (dep p)) as (r & Hr & R). { now apply map_nth_error. }
        destruct (Q p (nth_error_In _ _ Hp)) as (a & b & Ha & Hb & C). destruct (R a b Ha Hb) as (R1 & _ & R3).
        destruct C as [(A & _)|[(_ & B & Ez)|[(A & _)|(_ & B & M & Ez)]]]; try (exfalso; eauto; fail).
        + destruct (R3 B) as (i & al & -> & Br & _). exists (Z.of_nat i), al. split; [exact Hr|]. right. exists i.
          destruct Br as (x & y & Hx & Hy & Br). pose proof (nth_error_Some_lt _ _ _ Hy). repeat split; auto. exists x, y. auto.
        + rewrite (R1 B), M in Hr. exists (-1)%Z, 1%Q. split; [exact Hr|]. left. rewrite Ez. repeat split; auto. }
    rewrite Er. unfold drow in *. cbn [bind fst snd]. rewrite DL. cbn [bind].
    set (g := fun (i : Z) (p : P) => f (if (i =? -1)%Z then length ls - 1 else Z.to_nat i) p).
    assert (Rng : forall i, In (Some i) (map fst rows) -> i = (-1)%Z \/ exists j, i = Z.of_nat j /\ S j < length ls).
    { intros i Hi. apply in_map_iff in Hi as (r & Hf & Hr). apply In_nth_error in Hr as (k & Hk). assert (Lk : k < length pts) by (rewrite <- Lr; exact (nth_error_Some_lt _ _ _ Hk)).
      destruct (nth_error_lt_Some pts k Lk) as [p Hp]. destruct (Kr k p Hp) as (i' & al & Hr & C). rewrite Hk in Hr. injection Hr as ->. cbn [fst] in Hf. injection Hf as <-.
      destruct C as [(-> & _)|(j & -> & Hj & _)]; eauto. }
    destruct (depth_level (length ls) val slices pts (map fst rows) (map (fun x => match snd x with Some a => a | None => 0%Q end) rows) g) with (layers := length ls - 1) as (vs & Ev & Lv & Kv).
    - now rewrite map_length.
    - now rewrite map_length.
    - lia.
    - intros i Hi. destruct (Rng i Hi) as [->|(j & -> & Hj)]; lia.
    - intros i ps Hi. assert (C : i = (-1)%Z \/ exists j, i = Z.of_nat j /\ j < length ls).
      { destruct Hi as [Hi|Hi]; destruct (Rng _ Hi) as [X|(j & X & Hj)]; [left; auto|right; exists j; split; [auto|lia]|right; exists 0; lia|right; exists (S j); lia]. }
      unfold g. destruct C as [->|(j & -> & Hj)].
      + cbn [Z.eqb Pos.eqb]. apply V1.
      + rewrite V by auto. destruct (Z.eqb_spec (Z.of_nat j) (-1)); [lia|]. now rewrite Nat2Z.id.
    - exists vs. split; [exact Ev|]. clear Ev V V1 Er.
      assert (K : forall k p, nth_error pts k = Some p -> exists c, nth_error vs k = Some c /\ Shows (E (z p) p) c).
      { intros k p Hp. destruct (Kr k p Hp) as (i & al & Hr & C).
        specialize (Kv k p (Some i) al Hp). rewrite !nth_error_map, Hr in Kv. specialize (Kv eq_refl eq_refl). eexists. split; [exact Kv|]. clear Kv. unfold g.
        pose proof (nth_error_In _ _ Hp) as Ip. destruct C as [(-> & Ha & F1)|(j & -> & Hj & (x & y & Hx & Hy & Ba & Ez') & Ez)].
        - cbn [Z.eqb Pos.eqb Z.add Z.pos_sub]. cbn [Z.to_nat].
          destruct (nth_error_lt_Some ls (length ls - 1)) as [l Hl]; [lia|]. eapply shows_lerp; [apply (Sm _ _ p Hl Ip)|apply (Sm _ _ p F1 Ip)|]. rewrite Ha. ring.
        - destruct (Z.eqb_spec (Z.of_nat j) (-1)); [lia|]. destruct (Z.eqb_spec (Z.of_nat j + 1) (-1)); [lia|]. replace (Z.of_nat j + 1)%Z with (Z.of_nat (S j)) by lia. rewrite !Nat2Z.id.
          eapply shows_lerp; [apply (Sm _ _ p Hx Ip)|apply (Sm _ _ p Hy Ip)|]. rewrite (Lin p Ip j x y al Hx Hy Ba (z p)); [ring|]. now rewrite Ez. }
      clear - K Lv. revert vs Lv K. induction pts as [|p ps IH]; intros [|c vs] L K; try discriminate; constructor.
      + destruct (K 0 p eq_refl) as (c' & Hc & ?). injection Hc as ->. auto.
      + apply IH; [cbn in L; lia|]. intros k q Hq. apply (K (S k) q Hq).
  Qed.
End Samples.

Definition order_of (time levels : bool) (g : grid_kind) : list dim :=
  (if time then [DTime] else []) ++ (if levels then [DDepth] else []) ++ horizontal g.
Definition shape_of (time : option time_obj) (levels : option (list Q)) (rest : list nat) : list nat :=
  match time with Some t => [length (t_data t)] | None => [] end ++ match levels with Some ls => [length ls] | None => [] end ++ rest.
Definition some {A} (o : option A) : bool := match o with Some _ => true | None => false end.

Lemma grid_ix1 {P} (interp : list nat -> list P -> result (list cell)) n ps k : k < n -> grid_xy interp [n] ps [Z.of_nat k] = interp [k] ps.
Proof. intros H. unfold grid_xy, resolve. rewrite py_index_nat by auto. reflexivity. Qed.
Lemma grid_last1 {P} (interp : list nat -> list P -> result (list cell)) n ps : 0 < n -> grid_xy interp [n] ps [-1]%Z = interp [n - 1] ps.
Proof. intros H. unfold grid_xy, resolve. rewrite py_index_last by auto. reflexivity. Qed.
Lemma grid_ix2 {P} (interp : list nat -> list P -> result (list cell)) n m ps k j : k < n -> j < m -> grid_xy interp [n; m] ps [Z.of_nat k; Z.of_nat j] = interp [k; j] ps.
Proof. intros H H'. unfold grid_xy, resolve. rewrite !py_index_nat by auto. reflexivity. Qed.
Lemma grid_last2 {P} (interp : list nat -> list P -> result (list cell)) n m ps k : k < n -> 0 < m -> grid_xy interp [n; m] ps [Z.of_nat k; (-1)%Z] = interp [k; m - 1] ps.
Proof. intros H H'. unfold grid_xy, resolve. rewrite py_index_nat, py_index_last by auto. reflexivity. Qed.
Lemma grid_first_last {P} (interp : list nat -> list P -> result (list cell)) n m ps i : 0 < n -> grid_xy interp [n; m] ps [(-1)%Z; i] = grid_xy interp [n; m] ps [Z.of_nat (n - 1); i].
Proof. intros H. unfold grid_xy, resolve. rewrite py_index_last, py_index_nat by lia. reflexivity. Qed.

Section Composed.
  Context (g : grid_kind) (interp : list nat -> list spot -> result (list cell)) (leaf : list nat -> spot -> cell).
  Context (time : option time_obj) (levels : option (list Q)) (sbc bbc : bcond) (rest : list nat) (q q' : Z) (ex : bool).
  Context (E : Z -> Q -> spot -> Q) (z : spot -> Q) (pts : list spot).
  Let ts := option_map t_data time.
  Context (HT : forall t, time = Some t -> StrictlyIncreasing (t_data t) /\ t_data t <> [] /\ TimeAsked (t_data t) ex q q' /\
            forall s, In s pts -> LinearInTime (t_data t) (fun u => E u (z s) s)).
  Context (HD : forall ls, levels = Some ls -> 2 <= length ls /\ Monotone ls /\
            (forall s, In s pts -> DepthAsked ls sbc bbc (deep s) (z s)) /\ forall s u, In s pts -> LinearInDepth ls (fun d => E u d s)).
  Context (HI : forall ix u d, SampleAt ts levels ix u d -> forall ps, interp ix ps = Ok (map (leaf ix) ps)).
  Context (HS : forall ix u d s, SampleAt ts levels ix u d -> In s pts -> Shows (E u d s) (leaf ix s)).

  Lemma composed : exists vs, at_grid interp (order_of (some time) (some levels) g) (shape_of time levels rest) time
      (option_map (fun ls => l_view deep ls (Some (length ls)) sbc bbc) levels) q ex pts = Ok vs /\
    Forall2 (fun s c => Shows (E q' (z s) s) c) pts vs.
  Proof.
    assert (M : forall (h : spot -> cell) (X : spot -> Q), (forall s, In s pts -> Shows (X s) (h s)) -> Forall2 (fun s c => Shows (X s) c) pts (map h pts)).
    { intros h X H. clear - H. induction pts as [|s l IH]; constructor; [apply H; now left|]. apply IH. intros; apply H; now right. }
    unfold ts in *. destruct time as [t|], levels as [ls|]; cbn [some option_map] in *.
    - destruct (HT t eq_refl) as (SI & Ne & TA & LT). destruct (HD ls eq_refl) as (N & Mo & DA & LD). clear HT HD. set (n := length (t_data t)).
      assert (Hn : 0 < n) by (unfold n; destruct (t_data t); [congruence|cbn; lia]).
      assert (at_grid interp (order_of true true g) (shape_of (Some t) (Some ls) rest) (Some t) (Some (l_view deep ls (Some (length ls)) sbc bbc)) q ex pts =
        time_interp t q ex (v_depth (order_of true true g) (shape_of (Some t) (Some ls) rest) (Some (l_view deep ls (Some (length ls)) sbc bbc)) (grid_xy interp [n; length ls]) pts) []) as ->.
      { destruct g; reflexivity. }
      apply (time_shows t q q' ex _ (fun u s => E u (z s) s) pts SI Ne TA).
      + intros k tk Hk. pose proof (nth_error_Some_lt _ _ _ Hk) as Lk. fold n in Lk.
        apply (depth_shows (order_of true true g) (shape_of (Some t) (Some ls) rest) deep ls sbc bbc (grid_xy interp [n; length ls]) [Z.of_nat k] (fun j => leaf [k; j]) (fun d s => E tk d s) z pts); auto.
        * intros j ps Hj. cbn [app]. rewrite grid_ix2 by auto. destruct (nth_error_lt_Some ls j Hj) as [L HL]. apply (HI [k; j] tk L). exists k, j. auto.
        * intros ps. cbn [app]. rewrite grid_last2 by lia. destruct (nth_error_lt_Some ls (length ls - 1)) as [L HL]; [lia|]. apply (HI [k; length ls - 1] tk L). exists k, (length ls - 1). auto.
        * intros j L s HL Hs. apply HS; auto. exists k, j. auto.
      + fold n. unfold v_depth. destruct (dv_alphas _ pts) as [ia|]; cbn [bind]; [|reflexivity]. destruct (dim_len _ _ _); cbn [bind]; [|reflexivity].
        apply depth_interp_ext. intros ps i. cbn [app]. now apply grid_first_last.
      + intros s Hs. apply LT; auto.
    - destruct (HT t eq_refl) as (SI & Ne & TA & LT). clear HT HD. set (n := length (t_data t)).
      assert (Hn : 0 < n) by (unfold n; destruct (t_data t); [congruence|cbn; lia]).
      assert (at_grid interp (order_of true false g) (shape_of (Some t) None rest) (Some t) None q ex pts = time_interp t q ex (grid_xy interp [n] pts) []) as -> by (destruct g; reflexivity).
      apply (time_shows t q q' ex _ (fun u s => E u (z s) s) pts SI Ne TA).
      + intros k tk Hk. pose proof (nth_error_Some_lt _ _ _ Hk) as Lk. fold n in Lk. exists (map (leaf [k]) pts). split.
        * rewrite grid_ix1 by auto. apply (HI [k] tk 0%Q). exists k. auto.
        * apply M. intros s Hs. apply HS; auto. exists k. auto.
      + fold n. rewrite grid_last1, grid_ix1 by lia. reflexivity.
      + intros s Hs. apply LT; auto.
    - destruct (HD ls eq_refl) as (N & Mo & DA & LD). clear HT HD.
      assert (at_grid interp (order_of false true g) (shape_of None (Some ls) rest) None (Some (l_view deep ls (Some (length ls)) sbc bbc)) q ex pts =
        v_depth (order_of false true g) (shape_of None (Some ls) rest) (Some (l_view deep ls (Some (length ls)) sbc bbc)) (grid_xy interp [length ls]) pts []) as ->.
      { destruct g; reflexivity. }
      apply (depth_shows (order_of false true g) (shape_of None (Some ls) rest) deep ls sbc bbc (grid_xy interp [length ls]) [] (fun j => leaf [j]) (fun d s => E q' d s) z pts); auto.
      + intros j ps Hj. cbn [app]. rewrite grid_ix1 by auto. destruct (nth_error_lt_Some ls j Hj) as [L HL]. apply (HI [j] 0%Z L). exists j. auto.
      + intros ps. cbn [app]. rewrite grid_last1 by lia. destruct (nth_error_lt_Some ls (length ls - 1)) as [L HL]; [lia|]. apply (HI [length ls - 1] 0%Z L). exists (length ls - 1). auto.
      + intros j L s HL Hs. apply HS; auto. exists j. auto.
    - exists (map (leaf []) pts). split; [destruct g; exact (HI [] 0%Z 0%Q eq_refl pts)|]. apply M. intros s Hs. apply HS; auto. reflexivity.
  Qed.
End Composed.

(** ** One horizontal field on a mesh. *)
Lemma mapM_pure {A B} (f : A -> result B) (h : A -> B) l : (forall x, In x l -> f x = Ok (h x)) -> mapM f l = Ok (map h l).
Proof.
  induction l as [|x l IH]; intros H; [reflexivity|]. cbn [mapM map]. rewrite (H x (or_introl eq_refl)). cbn [bind].
  rewrite IH by (intros y Hy; apply H; right; exact Hy). reflexivity.
Qed.
Lemma mapM_map {A B C} (f : B -> result C) (h : A -> B) l : mapM f (map h l) = mapM (fun x => f (h x)) l.
Proof. induction l as [|x l IH]; [reflexivity|]. cbn [mapM map]. rewrite IH. reflexivity. Qed.
Lemma combine_same {A B C} (f : A -> B) (h : A -> C) l : combine (map f l) (map h l) = map (fun x => (f x, h x)) l.
Proof. induction l as [|x l IH]; [reflexivity|]. cbn. rewrite IH. reflexivity. Qed.
Lemma samples_numbers nodes f data : NodeSamples nodes f data -> Numbers data /\ length data = length nodes.
Proof. induction 1 as [|n c ns cs (v & -> & _) _ [IH IL]]; [split; auto; constructor|]. split; [constructor; eauto|cbn; now rewrite IL]. Qed.
Lemma samples_at nodes f data k A v : NodeSamples nodes f data -> nth_error nodes k = Some A -> nth_error data k = Some (CVal v) -> (v == f A)%Q.
Proof.
  intros H. revert k. induction H as [|n c ns cs (w & -> & E) _ IH]; intros [|k] HA HV; try discriminate; cbn in HA, HV; [|eauto].
  now injection HA as <-; injection HV as <-.
Qed.
Lemma finds_good nodes faces find p : FindsFaces nodes faces find -> GoodIndex (length faces) (find p).
Proof. intros H. destruct (H p) as [->|(k & a & b & c & A & B & C & -> & Hk & _)]; [now left|]. right. apply nth_error_Some_lt in Hk. lia. Qed.
Lemma combination_corner a b c : Combination a b c a 1 0 0 /\ Combination a b c b 0 1 0 /\ Combination a b c c 0 0 1.
Proof. unfold Combination. repeat split; try reflexivity; ring. Qed.
Lemma linear_combination nodes faces f p a b c A B C u v w : LinearOverFaces nodes faces f -> In [Z.of_nat a; Z.of_nat b; Z.of_nat c] faces ->
  nth_error nodes a = Some A -> nth_error nodes b = Some B -> nth_error nodes c = Some C -> InTriangle A B C p -> Combination A B C p u v w ->
  (f p == u * f A + v * f B + w * f C)%Q.
Proof.
  intros L I HA HB HC T (S1 & Sx & Sy). destruct (L a b c A B C I HA HB HC) as (k & kx & ky & H).
  destruct (combination_corner A B C) as (KA & KB & KC).
  rewrite (H p T), (H A), (H B), (H C); [rewrite Sx, Sy; assert (w == 1 - u - v)%Q as -> by lra; ring| | |]; [exists 0%Q, 0%Q, 1%Q|exists 0%Q, 1%Q, 0%Q|exists 1%Q, 0%Q, 0%Q]; (split; [assumption|lra]).
Qed.

Section Mesh.
  Context (tree : list pt -> list (list Z) -> list pt -> list Z) (hist : list nat -> list spot -> list ug_op) (nodes : list pt) (faces : list (list Z)) (find : point -> Z).
  Context (HT : forall ps, tree nodes faces ps = map find ps) (HH : forall ix ps, Forall asks (hist ix ps)).
  Definition node_leaf (data : list cell) (s : spot) : cell :=
    match (do al <- alpha_row nodes faces (place s) (find (place s)); node_value faces data al (find (place s))) with Ok c => c | Err _ => CNaN end.
  Definition face_leaf (data : list cell) (s : spot) : cell := match face_value data (find (place s)) with Ok c => c | Err _ => CNaN end.
  Lemma mesh_fresh loc data ix ps : mesh_interp tree hist nodes faces loc data ix ps = from_mesh (interp_fresh tree nodes faces loc (data ix) (map place ps)).
  Proof. unfold mesh_interp. f_equal. apply interpolate_fresh. now apply ask_history. Qed.

  Lemma node_one data s : TriMesh nodes faces -> FindsFaces nodes faces find -> Numbers data -> length data = length nodes ->
    exists al q, alpha_row nodes faces (place s) (find (place s)) = Ok al /\ node_value faces data al (find (place s)) = Ok (CVal q) /\
      NodeValue nodes faces data (place s) (find (place s)) q.
  Proof.
    intros M FF N L. destruct (node_interp nodes faces data [place s] [find (place s)] M N L) as (al & vs & E1 & E2 & _ & H);
      [constructor; [eapply finds_good; eauto|constructor]|reflexivity|].
    destruct (H 0 _ _ eq_refl eq_refl) as (q & Hq & NV). unfold interpolation_alphas in E1. cbn [combine mapM fst snd] in E1.
    destruct (alpha_row nodes faces (place s) (find (place s))) as [a|] eqn:Ea; [|discriminate]. cbn [bind] in E1. injection E1 as <-.
    unfold interp_values in E2. cbn [combine mapM fst snd] in E2. destruct (node_value faces data a (find (place s))) as [c|] eqn:Ec; [|discriminate].
    cbn [bind] in E2. injection E2 as <-. cbn in Hq. injection Hq as ->. exists a, q. auto.
  Qed.
  Lemma mesh_nodes data ix ps : TriMesh nodes faces -> FindsFaces nodes faces find -> Numbers (data ix) -> length (data ix) = length nodes ->
    mesh_interp tree hist nodes faces VNode data ix ps = Ok (map (node_leaf (data ix)) ps).
  Proof.
    intros M FF N L. rewrite mesh_fresh. unfold interp_fresh. rewrite HT, map_map. unfold interpolation_alphas, interp_values. rewrite combine_same, mapM_map. cbn [fst snd].
    set (al := fun s => match alpha_row nodes faces (place s) (find (place s)) with Ok a => a | Err _ => [] end).
    rewrite (mapM_pure _ al); [|intros s _; unfold al; destruct (node_one (data ix) s M FF N L) as (a & q & -> & _); reflexivity].
    cbn [bind]. rewrite combine_same, mapM_map. cbn [fst snd].
    rewrite (mapM_pure _ (node_leaf (data ix))); [reflexivity|].
    intros s _. unfold node_leaf, al. destruct (node_one (data ix) s M FF N L) as (a & q & -> & E & _). cbn [bind]. now rewrite E.
  Qed.
  Lemma node_shows data f s : TriMesh nodes faces -> FindsFaces nodes faces find -> NodeSamples nodes f data -> LinearOverFaces nodes faces f ->
    Shows (if (find (place s) =? -1)%Z then 0%Q else f (place s)) (node_leaf data s).
  Proof.
    intros M FF NS L. destruct (samples_numbers _ _ _ NS) as [N Ln]. unfold node_leaf. destruct (node_one data s M FF N Ln) as (a & q & -> & E & NV).
    cbn [bind]. rewrite E. exists q. split; [reflexivity|]. destruct NV as [N1 N2]. destruct (Z.eqb_spec (find (place s)) (-1)) as [H|H]; [auto|].
    destruct (FF (place s)) as [|(k & a' & b' & c' & A' & B' & C' & Ek & Hk & HA' & HB' & HC' & T)]; [congruence|].
    destruct (N2 k Ek) as (x & y & z & A & B & C & va & vb & vc & u & v & w & Hf & HA & HB & HC & Va & Vb & Vc & K & ->).
    rewrite Hk in Hf. injection Hf as Ea Eb Ec. apply Nat2Z.inj in Ea, Eb, Ec. subst x y z.
    assert (A' = A) by congruence. assert (B' = B) by congruence. assert (C' = C) by congruence. subst A' B' C'.
    rewrite (linear_combination nodes faces f (place s) a' b' c' A B C u v w L (nth_error_In _ _ Hk) HA HB HC T K).
    now rewrite (samples_at _ _ _ _ _ _ NS HA Va), (samples_at _ _ _ _ _ _ NS HB Vb), (samples_at _ _ _ _ _ _ NS HC Vc).
  Qed.

  Lemma face_one data s : data <> [] -> Numbers data -> GoodIndex (length data) (find (place s)) ->
    exists q, face_value data (find (place s)) = Ok (CVal q) /\ (find (place s) = (-1)%Z -> (q == 0)%Q) /\ forall m, find (place s) = Z.of_nat m -> nth_error data m = Some (CVal q).
  Proof.
    intros Ne N G. destruct (face_interp data [find (place s)] Ne N) as (vs & E & _ & H); [constructor; [auto|constructor]|].
    destruct (H 0 _ eq_refl) as (q & Hq & H1 & H2). unfold interp_values in E. cbn [mapM] in E. destruct (face_value data (find (place s))) as [c|]; [|discriminate].
    cbn [bind] in E. injection E as <-. cbn in Hq. injection Hq as ->. exists q. auto.
  Qed.
  Lemma mesh_faces data ix ps : data ix <> [] -> Numbers (data ix) -> (forall p, GoodIndex (length (data ix)) (find p)) ->
    mesh_interp tree hist nodes faces VFace data ix ps = Ok (map (face_leaf (data ix)) ps).
  Proof.
    intros Ne N G. rewrite mesh_fresh. unfold interp_fresh. rewrite HT, map_map. unfold interp_values. rewrite mapM_map.
    rewrite (mapM_pure _ (face_leaf (data ix))); [reflexivity|].
    intros s _. unfold face_leaf. destruct (face_one (data ix) s Ne N (G _)) as (q & -> & _). reflexivity.
  Qed.
  Lemma face_shows data (f : nat -> Q) s : FindsFaces nodes faces find -> length data = length faces -> data <> [] ->
    (forall k c, nth_error data k = Some c -> Shows (f k) c) -> Shows (if (find (place s) =? -1)%Z then 0%Q else f (Z.to_nat (find (place s)))) (face_leaf data s).
  Proof.
    intros FF L Ne H. assert (N : Numbers data). { apply Forall_forall. intros c Hc. apply In_nth_error in Hc. destruct Hc as [k Hk]. destruct (H k c Hk) as (v & -> & _). eauto. }
    unfold face_leaf. destruct (face_one data s Ne N) as (q & -> & H1 & H2); [rewrite L; eapply finds_good; eauto|].
    destruct (Z.eqb_spec (find (place s)) (-1)) as [E|E]; [exists q; auto|].
    destruct (FF (place s)) as [|(k & _ & _ & _ & _ & _ & _ & Ek & _)]; [congruence|]. rewrite Ek, Nat2Z.id. eauto.
  Qed.
End Mesh.

(** ** One horizontal field on two axes. *)
Definition within (axis : list Q) (p : Q) : bool := match bracket axis p with Some _ => true | None => false end.
Lemma within_spec axis p : Monotone axis -> 2 <= length axis -> (within axis p = true <-> Spans axis p).
Proof.
  intros M N. unfold within. pose proof (bracket_spec axis p M N) as H. unfold bracket_ok in H. destruct (bracket axis p) as [[[i u] [j v]]|]; intuition congruence.
Qed.
Lemma table_shape y x f vals : TableSamples y x f vals -> Table vals (length y) (length x).
Proof.
  intros H. unfold Table. induction H as [|a row ys rows Hr _ [IL IF]]; [split; auto|]. split; [cbn; now rewrite IL|]. constructor; auto.
  clear - Hr. induction Hr as [|b c xs cs (v & -> & _) _ [IL IF]]; [split; auto|]. split; [cbn; now rewrite IL|]. constructor; eauto.
Qed.
Lemma table_at y x f vals i j a b v : TableSamples y x f vals -> nth_error y i = Some a -> nth_error x j = Some b -> At vals i j v -> (v == f a b)%Q.
Proof.
  intros H Hi Hj (r & Hr & Hv). assert (R : Forall2 (fun b c => Shows (f a b) c) x r).
  { revert i Hi Hr. induction H as [|a' row ys rows R _ IH]; intros [|i] Hi Hr; try discriminate; cbn in Hi, Hr; [injection Hi as ->; injection Hr as ->; exact R|eauto]. }
  clear - R Hj Hv. revert j Hj Hv. induction R as [|b' c xs cs (w & -> & E) _ IH]; intros [|j] Hj Hv; try discriminate; cbn in Hj, Hv; [|eauto].
  injection Hj as ->. injection Hv as <-. auto.
Qed.
Lemma table_fill vals n m : Table vals n m -> map (map fill0) vals = vals.
Proof.
  intros [_ F]. induction F as [|r l [_ Hr] _ IH]; auto. cbn [map]. rewrite IH. f_equal. clear - Hr. induction Hr as [|c r [q ->] _ IH]; auto. cbn [map fill0]. now rewrite IH.
Qed.
Section Rect.
  Context (g : rgrid) (dims : option (list string)) (shape : list nat) (vals : list nat -> list (list cell)) (sw : bool).
  Let y := fst (yx_axes g sw).
  Let x := snd (yx_axes g sw).
  Context (HO : lonlat_to_yx g dims shape = Ok sw) (M1 : Monotone (rg_lon g)) (M2 : Monotone (rg_lat g)) (N1 : 2 <= length (rg_lon g)) (N2 : 2 <= length (rg_lat g)).
  Definition rect_leaf (v : list (list cell)) (s : spot) : cell := rgi_eval y x v (if sw then place s else (snd (place s), fst (place s))).
  Lemma rect_all ix ps : Table (vals ix) (length y) (length x) -> rect_interp g dims shape vals ix ps = Ok (map (rect_leaf (vals ix)) ps).
  Proof.
    intros T. unfold rect_interp, rg_interpolate. rewrite HO. cbn [bind]. cbv zeta. rewrite (table_fill _ _ _ T).
    unfold rect_leaf, x, y in *. destruct sw; cbn [yx_axes fst snd] in *; rewrite rgi_make_ok by auto; cbn [bind]; now rewrite map_map.
  Qed.
  Lemma rect_shows v f s : TableSamples y x (fun a b => f (if sw then (a, b) else (b, a))) v -> BilinearOverCells (rg_lon g) (rg_lat g) f ->
    Shows (if within (rg_lon g) (fst (place s)) && within (rg_lat g) (snd (place s)) then f (place s) else 0%Q) (rect_leaf v s).
  Proof.
    intros T B. pose proof (table_shape _ _ _ _ T) as Ts. unfold rect_leaf. destruct (place s) as [lon lat] eqn:Ep. cbn [fst snd].
    assert (W : forall P : Prop, (Spans (rg_lon g) lon /\ Spans (rg_lat g) lat <-> within (rg_lon g) lon && within (rg_lat g) lat = true)).
    { intros _. rewrite andb_true_iff, !within_spec by auto. tauto. }
    specialize (W True). unfold x, y in *. destruct sw; cbn [yx_axes fst snd] in *.
    - destruct (rgi_eval_spec (rg_lon g) (rg_lat g) v lon lat M1 M2 N1 N2 Ts) as (q & -> & [(S1 & S2 & H)|[H E]]); (exists q; split; [reflexivity|]).
      + rewrite (proj1 W (conj S1 S2)).
        destruct H as (i & i' & u & u' & j & j' & w & w' & a & b & c & d & K1 & K2 & A1 & A2 & A3 & A4 & ->).
        pose proof K1 as (X & X' & HX & HX' & _). pose proof K2 as (Y & Y' & HY & HY' & _).
        rewrite (B (lon, lat) i i' u u' j j' w w' X X' Y Y' K1 K2 HX HX' HY HY').
        rewrite (table_at _ _ _ _ _ _ _ _ _ T HX HY A1), (table_at _ _ _ _ _ _ _ _ _ T HX HY' A2), (table_at _ _ _ _ _ _ _ _ _ T HX' HY A3), (table_at _ _ _ _ _ _ _ _ _ T HX' HY' A4). ring.
      + destruct (_ && _); [|auto]. exfalso. tauto.
    - destruct (rgi_eval_spec (rg_lat g) (rg_lon g) v lat lon M2 M1 N2 N1 Ts) as (q & -> & [(S2 & S1 & H)|[H E]]); (exists q; split; [reflexivity|]).
      + rewrite (proj1 W (conj S1 S2)).
        destruct H as (i & i' & u & u' & j & j' & w & w' & a & b & c & d & K1 & K2 & A1 & A2 & A3 & A4 & ->).
        pose proof K1 as (X & X' & HX & HX' & _). pose proof K2 as (Y & Y' & HY & HY' & _).
        rewrite (B (lon, lat) j j' w w' i i' u u' Y Y' X X' K2 K1 HY HY' HX HX').
        rewrite (table_at _ _ _ _ _ _ _ _ _ T HX HY A1), (table_at _ _ _ _ _ _ _ _ _ T HX HY' A2), (table_at _ _ _ _ _ _ _ _ _ T HX' HY A3), (table_at _ _ _ _ _ _ _ _ _ T HX' HY' A4). ring.
      + destruct (_ && _); [|auto]. exfalso. tauto.
  Qed.
End Rect.
