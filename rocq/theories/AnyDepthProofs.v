(** Lemmas about questions at any depth. *)
From Coq Require Import String Lqa.
From Verif Require Import Common CommonProofs TimeModel TimeSpec TimeProofs VariableModel VariableSpec VariableProofs VariableInterpProofs VariableAtProofs
  DepthModel DepthSpec DepthProofs DepthAtProofs WholeModel WholeSpec WholeProofs WMaskSpec WMaskProofs TerrProofs FFMaskProofs AnyDepthSpec.
Open Scope list_scope.
Open Scope nat_scope.

Lemma asc_desc ls : 2 <= length ls -> Ascending ls -> Descending ls -> False.
Proof.
  intros N A D. destruct (ends_exist ls N) as (a & b & Ha & Hb). assert (a < b)%Q by (eapply A; [|exact Ha|exact Hb]; lia). assert (b < a)%Q by (eapply D; [|exact Ha|exact Hb]; lia). lra.
Qed.
Lemma beyond_not ls sbc bbc d z : 2 <= length ls -> BeyondLevels ls sbc bbc d -> DepthAsked ls sbc bbc d z -> False.
Proof.
  intros N (a & b & Ha & Hb & X) (a' & b' & Ha' & Hb' & Y). unfold First, Last in *. rewrite Ha in Ha'. injection Ha' as <-. rewrite Hb in Hb'. injection Hb' as <-.
  assert (NB : (Ascending ls -> (a < b)%Q) /\ (Descending ls -> (b < a)%Q)) by (split; intros D; (eapply D; [|exact Ha|exact Hb]); lia). destruct NB as [N1 N2].
  destruct X as [(A & L & B)|[(A & L & B)|[(A & L & B)|(A & L & B)]]]; destruct Y as [(A' & L' & B')|[(A' & L' & B')|[(A' & L' & B' & _)|(A' & L' & B' & _)]]];
    try (exfalso; eapply asc_desc; eauto; fail); try congruence; try specialize (N1 A); try specialize (N2 A); lra.
Qed.
(** Which depth is answered. *)
Definition answered (ls : list Q) (d : Q) : Q :=
  match ls with
  | [] => d
  | a :: _ => if Qlt_bool a (last ls a) then (if Qlt_bool d a then a else d) else (if Qlt_bool a d then a else d)
  end.
Lemma last_is ls a b : Last ls b -> last ls a = b.
Proof.
  unfold Last. intros H. destruct (exists_last (l := ls)) as (l & x & ->). { intros ->. discriminate H. }
  rewrite last_last. rewrite app_length in H. cbn [length] in H. rewrite nth_error_app2 in H by lia. replace (length l + 1 - 1 - length l) with 0 in H by lia. now injection H as ->.
Qed.
Lemma asked_answered ls sbc bbc d z : 2 <= length ls -> DepthAsked ls sbc bbc d z -> z = answered ls d.
Proof.
  intros N (a & b & Ha & Hb & Y). unfold answered. destruct ls as [|a' l]; [discriminate Ha|]. unfold First in Ha. cbn in Ha. injection Ha as ->. rewrite (last_is _ a b Hb).
  assert (NB : (Ascending (a :: l) -> (a < b)%Q) /\ (Descending (a :: l) -> (b < a)%Q)) by (assert (H0 : nth_error (a :: l) 0 = Some a) by reflexivity; split; intros D; (eapply D; [|exact H0|exact Hb]); cbn [length] in *; lia). destruct NB as [N1 N2].
  destruct Y as [(A' & L' & ->)|[(A' & L' & ->)|[(A' & L' & _ & ->)|(A' & L' & _ & ->)]]].
  - rewrite (proj2 (Qlt_bool_iff a b) (N1 A')). destruct (Qlt_bool d a) eqn:E; [apply Qlt_bool_iff in E; exfalso; lra|reflexivity].
  - destruct (Qlt_bool a b) eqn:E'; [apply Qlt_bool_iff in E'; specialize (N2 A'); exfalso; lra|]. destruct (Qlt_bool a d) eqn:E; [apply Qlt_bool_iff in E; exfalso; lra|reflexivity].
  - rewrite (proj2 (Qlt_bool_iff a b) (N1 A')). destruct (Qlt_bool d a) eqn:E; [reflexivity|]. apply Qlt_bool_false in E. exfalso. lra.
  - destruct (Qlt_bool a b) eqn:E'; [apply Qlt_bool_iff in E'; specialize (N2 A'); exfalso; lra|]. destruct (Qlt_bool a d) eqn:E; [reflexivity|]. apply Qlt_bool_false in E. exfalso. lra.
Qed.

Section Samples.
  Context {P : Type}.
  Lemma depth_any order shape (dep : P -> Q) ls sbc bbc (val : list P -> list Z -> result (list cell)) slices (f : nat -> P -> cell) (M : Q -> P -> Prop) (E : Q -> P -> Q) (z : P -> Q) pts :
    2 <= length ls -> Monotone ls -> dim_len order shape DDepth = Ok (length ls) ->
    (forall p, In p pts -> BeyondLevels ls sbc bbc (dep p) \/ DepthAsked ls sbc bbc (dep p) (z p)) ->
    (forall j ps, j < length ls -> val ps (slices ++ [Z.of_nat j]) = Ok (map (f j) ps)) ->
    (forall ps, val ps (slices ++ [-1]%Z) = Ok (map (f (length ls - 1)) ps)) ->
    (forall j L p, nth_error ls j = Some L -> In p pts -> Sees (M L p) (E L p) (f j p)) ->
    (forall p, In p pts -> LinearInDepth ls (fun u => E u p)) ->
    exists vs, v_depth order shape (Some (l_view dep ls (Some (length ls)) sbc bbc)) val pts slices = Ok vs /\
      Forall2 (fun p c => Sees (BeyondLevels ls sbc bbc (dep p) \/ exists d, DepthUsed ls (dep p) d /\ M d p) (E (z p) p) c) pts vs.
  Proof.
    intros N Dir DL Q V V1 Sm Lin.
    assert (exists rows, l_alphas ls (Some (length ls)) sbc bbc (map dep pts) = Ok rows /\ Forall2 (fun p r =>
        (BeyondLevels ls sbc bbc (dep p) /\ r = (None, None)) \/ (~ BeyondLevels ls sbc bbc (dep p) /\ exists i al, r = (Some i, Some al) /\
        ((i = -1)%Z /\ (al == 1)%Q /\ First ls (z p) /\ (Ascending ls /\ dep p < z p \/ Descending ls /\ z p < dep p)%Q \/
         exists j, i = Z.of_nat j /\ (S j < length ls) /\ Bracketed ls (dep p) j al /\ (al < 1)%Q /\ z p = dep p))) pts rows) as (rows & Er & Fr).
    { assert (H1 : Some (length ls) <> Some 1) by (intros X; injection X; lia).
      destruct Dir as [A|D].
      - destruct (l_alphas_asc ls (Some (length ls)) sbc bbc (map dep pts) A N H1) as (rows & Er & Lr & K). exists rows. split; [exact Er|]. rewrite map_length in Lr. apply forall2_nth; [exact Lr|].
        intros k p Hp. destruct (K k (dep p)) as (r & Hr & R). { now apply map_nth_error. } exists r. split; [exact Hr|].
        destruct (Q p (nth_error_In _ _ Hp)) as [Bd|As].
        + left. split; [exact Bd|]. destruct Bd as (a & b & Ha & Hb & C). destruct (R a b Ha Hb) as (R1 & R2 & _).
          destruct C as [(_ & L & B)|[(_ & L & B)|[(D & _)|(D & _)]]]; try (exfalso; eapply asc_desc; eauto; fail); [rewrite (R1 L), B|rewrite (R2 L), B]; reflexivity.
        + right. split; [intros Bd; eapply beyond_not; eauto|]. destruct As as (a & b & Ha & Hb & C). destruct (R a b Ha Hb) as (R1 & _ & R3).
          destruct C as [(_ & B & Ez)|[(D & _)|[(_ & B & Mk & Ez)|(D & _)]]]; try (exfalso; eapply asc_desc; eauto; fail).
          * destruct (R3 B) as (i & al & -> & Br & L1). exists (Z.of_nat i), al. split; [reflexivity|]. right. exists i.
            destruct Br as (x & y & Hx & Hy & Br). pose proof (nth_error_Some_lt _ _ _ Hy). repeat split; auto. exists x, y. auto.
          * rewrite (R1 B), Mk. exists (-1)%Z, 1%Q. split; [reflexivity|]. left. rewrite Ez. repeat split; auto.
      - destruct (l_alphas_desc ls (Some (length ls)) sbc bbc (map dep pts) D N H1) as (rows & Er & Lr & K). exists rows. split; [exact Er|]. rewrite map_length in Lr. apply forall2_nth; [exact Lr|].
        intros k p Hp. destruct (K k (dep p)) as (r & Hr & R). { now apply map_nth_error. } exists r. split; [exact Hr|].
        destruct (Q p (nth_error_In _ _ Hp)) as [Bd|As].
        + left. split; [exact Bd|]. destruct Bd as (a & b & Ha & Hb & C). destruct (R a b Ha Hb) as (R1 & R2 & _).
          destruct C as [(A & _)|[(A & _)|[(_ & L & B)|(_ & L & B)]]]; try (exfalso; eapply asc_desc; eauto; fail); [rewrite (R1 L), B|rewrite (R2 L), B]; reflexivity.
        + right. split; [intros Bd; eapply beyond_not; eauto|]. destruct As as (a & b & Ha & Hb & C). destruct (R a b Ha Hb) as (R1 & _ & R3).
          destruct C as [(A & _)|[(_ & B & Ez)|[(A & _)|(_ & B & Mk & Ez)]]]; try (exfalso; eapply asc_desc; eauto; fail).
          * destruct (R3 B) as (i & al & -> & Br & L1). exists (Z.of_nat i), al. split; [reflexivity|]. right. exists i.
            destruct Br as (x & y & Hx & Hy & Br). pose proof (nth_error_Some_lt _ _ _ Hy). repeat split; auto. exists x, y. auto.
          * rewrite (R1 B), Mk. exists (-1)%Z, 1%Q. split; [reflexivity|]. left. rewrite Ez. repeat split; auto. }
    assert (HL : length rows = length pts) by (clear - Fr; induction Fr; cbn; lia).
    assert (HV : dv_alphas (l_view dep ls (Some (length ls)) sbc bbc) pts = view_rows (Ok rows)). { cbn [l_view dv_alphas]. now rewrite Er. }
    assert (FR : Forall (fine_row (length ls)) rows).
    { clear - Fr. induction Fr as [|p r l m R _ IH]; constructor; auto. destruct R as [[_ ->]|[_ (i & al & -> & [(-> & Ha & _)|(j & -> & Hj & _)])]]; [left; reflexivity|right; left; eauto|right; right; eauto]. }
    set (at_ := fun k => nth k ls 0%Q).
    destruct (levels_see order shape (l_view dep ls (Some (length ls)) sbc bbc) val slices f (fun j p => M (at_ j) p) (fun j p => E (at_ j) p) (length ls) pts rows HV HL N DL) as (vs & Ev & Fv); auto.
    { cbn [l_view dv_layers]. lia. }
    { intros j p Hj Hp. apply Sm; auto. unfold at_. now apply nth_error_nth'. }
    exists vs. split; [exact Ev|].
    refine (FFvcomProofs.row_pairs _ (fun p r c => Sees (row_missing (row_used (length ls)) (fun k => M (at_ k) p) r) (row_value (fun k => E (at_ k) p) r) c) _ pts _ rows vs Fr Fv).
    intros p r c Ip R H. cbn beta in H. destruct R as [[Bd ->]|[Nb (i & al & -> & C)]].
    - left. split; [left; exact Bd|]. destruct H as [[_ H]|[H _]]; [exact H|]. exfalso. apply H. left. reflexivity.
    - unfold row_missing, row_used in H. cbn [fst snd row_masked row_value] in H. destruct C as [(-> & Ha & F1 & By)|(j & -> & Hj & (x & y & Hx & Hy & Ba & Ez') & L1 & Ez)].
      + cbn [Z.eqb Pos.eqb] in H. destruct (nth_error_lt_Some ls (length ls - 1)) as [l Hl]; [lia|].
        assert (E0 : at_ 0 = z p) by (apply nth_error_nth; exact F1). assert (El : at_ (length ls - 1) = l) by (apply nth_error_nth; exact Hl). rewrite E0 in H. revert H. apply sees_iff. split.
        * intros [X|(k & [->| ->] & X)]; [discriminate X| |]; right; [exists (z p)|exists l]; (split; [apply (beyond_used ls (dep p) _ (z p) l); auto|congruence]).
        * intros [X|(d & Hd & X)]; [contradiction|]. apply (beyond_used ls (dep p) d (z p) l) in Hd; auto. right. destruct Hd as [->| ->]; [exists 0|exists (length ls - 1)]; (split; [auto|congruence]).
      + destruct (Z.eqb_spec (Z.of_nat j) (-1)); [lia|]. rewrite !Nat2Z.id in H.
        assert (Ej : at_ j = x) by (apply nth_error_nth; exact Hx). assert (ES : at_ (S j) = y) by (apply nth_error_nth; exact Hy).
        assert (B : (x <= dep p < y \/ y < dep p <= x)%Q).
        { destruct Dir as [A|D]; [left; pose proof (A j (S j) x y ltac:(lia) Hx Hy)|right; pose proof (D j (S j) x y ltac:(lia) Hx Hy)]; split; nra. }
        assert (HE : ((E (at_ j) p + (E (at_ (S j)) p - E (at_ j) p) * al) == E (z p) p)%Q) by (rewrite Ej, ES, (Lin p Ip j x y al Hx Hy Ba (z p)); [ring|now rewrite Ez]).
        eapply sees_eq; [|exact HE]. revert H; apply sees_iff. split.
        * intros [X|(k & [->| ->] & X)]; [discriminate X| |]; right; [exists x|exists y]; (split; [apply (level_used ls (dep p) _ j x y); auto|congruence]).
        * intros [X|(d & Hd & X)]; [contradiction|]. apply (level_used ls (dep p) d j x y) in Hd; auto. right. destruct Hd as [->| ->]; [exists j|exists (S j)]; (split; [auto|congruence]).
  Qed.
End Samples.

Section Composed.
  Context (g : grid_kind) (interp : list nat -> list spot -> result (list cell)) (leaf : list nat -> spot -> cell).
  Context (time : option time_obj) (levels : option (list Q)) (sbc bbc : bcond) (rest : list nat) (q q' : Z) (ex : bool).
  Context (M : Z -> Q -> spot -> bool) (E : Z -> Q -> spot -> Q) (pts : list spot).
  Let ts := option_map t_data time.
  Context (HT : TimeOk ts ex q q') (HL : LevelsOk levels) (HD : forall s, In s pts -> Answerable levels sbc bbc (deep s)) (HC : Changes ts levels E).
  Context (HI : forall ix u d, SampleAt ts levels ix u d -> forall ps, interp ix ps = Ok (map (leaf ix) ps)).
  Context (HS : forall ix u d s, SampleAt ts levels ix u d -> In s pts -> Sees (M u d s = true) (E u d s) (leaf ix s)).
  Definition any_sees (s : spot) (c : cell) : Prop := AtAnyDepth levels sbc bbc (deep s)
    (fun z c => Sees (Missing ts levels ex q q' (deep s) z (fun u d => M u d s)) (E q' z s) c) c.
  Lemma composed_any : exists vs, at_grid interp (order_of (some time) (some levels) g) (shape_of time levels rest) time
      (option_map (fun ls => l_view deep ls (Some (length ls)) sbc bbc) levels) q ex pts = Ok vs /\ Forall2 any_sees pts vs.
  Proof.
    destruct levels as [ls|] eqn:El.
    2:{ destruct (composed_sees g interp leaf time None sbc bbc rest q q' ex M E (fun d => d) pts HT HL) as (vs & Ev & V); auto.
        - intros s _ l H. discriminate H.
        - exists vs. split; [exact Ev|]. unfold any_sees, AtAnyDepth. rewrite El. exact V. }
    destruct (HL ls eq_refl) as (N & Mo). destruct HC as [LT LD]. set (z := fun s : spot => answered ls (deep s)).
    assert (HB : forall p, In p pts -> BeyondLevels ls sbc bbc (deep p) \/ DepthAsked ls sbc bbc (deep p) (z p)).
    { intros p Hp. destruct (HD p Hp ls eq_refl) as [B|(z' & B)]; [left; exact B|right]. unfold z. now rewrite <- (asked_answered _ _ _ _ _ N B). }
    assert (Fin : forall (T : Z -> Prop), (exists u, T u) -> (forall u, UsesTime ts ex q q' u <-> T u) -> forall vs,
      Forall2 (fun s c => Sees (exists u, T u /\ (BeyondLevels ls sbc bbc (deep s) \/ exists d, DepthUsed ls (deep s) d /\ M u d s = true)) (E q' (z s) s) c) pts vs ->
      Forall2 (fun s c => AtAnyDepth (Some ls) sbc bbc (deep s) (fun z c => Sees (Missing ts (Some ls) ex q q' (deep s) z (fun u d => M u d s)) (E q' z s) c) c) pts vs).
    { intros T [u0 U0] UT vs F. clear - F U0 UT N. induction F as [|s c l l' H _ IH]; constructor; auto. split.
      - intros B. destruct H as [[_ ->]|[H _]]; [reflexivity|]. exfalso. apply H. exists u0. auto.
      - intros z' A. rewrite (asked_answered _ _ _ _ _ N A). fold (z s). revert H. apply sees_iff. unfold Missing. cbn [UsesDepth]. split.
        + intros (u & Hu & [B|(d & Hd & X)]); [exfalso; eapply beyond_not; eauto|]. exists u, d. split; [now apply UT|auto].
        + intros (u & d & Hu & Hd & X). exists u. split; [now apply UT|]. right. eauto. }
    unfold ts in *. unfold any_sees. rewrite El. destruct time as [t|]; cbn [some option_map UsesTime] in *.
    - destruct (HT _ eq_refl) as (SI & Ne & TA). set (n := length (t_data t)).
      assert (Hn : 0 < n) by (unfold n; destruct (t_data t); [congruence|cbn; lia]).
      assert (at_grid interp (order_of true true g) (shape_of (Some t) (Some ls) rest) (Some t) (Some (l_view deep ls (Some (length ls)) sbc bbc)) q ex pts =
        time_interp t q ex (v_depth (order_of true true g) (shape_of (Some t) (Some ls) rest) (Some (l_view deep ls (Some (length ls)) sbc bbc)) (grid_xy interp [n; length ls]) pts) []) as ->.
      { destruct g; reflexivity. }
      destruct (time_sees t q q' ex (v_depth (order_of true true g) (shape_of (Some t) (Some ls) rest) (Some (l_view deep ls (Some (length ls)) sbc bbc)) (grid_xy interp [n; length ls]) pts)
        (fun u s => BeyondLevels ls sbc bbc (deep s) \/ exists d, DepthUsed ls (deep s) d /\ M u d s = true) (fun u s => E u (z s) s) pts SI Ne TA) as (vs & Ev & V).
      + intros k tk Hk. pose proof (nth_error_Some_lt _ _ _ Hk) as Lk. fold n in Lk.
        apply (depth_any (order_of true true g) (shape_of (Some t) (Some ls) rest) deep ls sbc bbc (grid_xy interp [n; length ls]) [Z.of_nat k] (fun j => leaf [k; j])
          (fun d s => M tk d s = true) (fun d s => E tk d s) z pts); try (destruct g; reflexivity); auto.
        * intros j ps Hj. cbn [app]. rewrite grid_ix2 by auto. destruct (nth_error_lt_Some ls j Hj) as [L HL']. apply (HI [k; j] tk L). exists k, j. auto.
        * intros ps. cbn [app]. rewrite grid_last2 by lia. destruct (nth_error_lt_Some ls (length ls - 1)) as [L HL']; [lia|]. apply (HI [k; length ls - 1] tk L). exists k, (length ls - 1). auto.
        * intros j L s HL' Hs. apply (HS [k; j]); auto. exists k, j. auto.
      + fold n. unfold v_depth. destruct (dv_alphas _ pts) as [ia|]; cbn [bind]; [|reflexivity]. destruct (dim_len _ _ _); cbn [bind]; [|reflexivity].
        apply depth_interp_ext. intros ps i. cbn [app]. now apply grid_first_last.
      + intros s Hs. exact (LT _ eq_refl (z s) s).
      + exists vs. split; [exact Ev|]. apply (Fin (TimeUsed (t_data t) ex q)); [eapply some_used; eauto|intros u; reflexivity|exact V].
    - assert (at_grid interp (order_of false true g) (shape_of None (Some ls) rest) None (Some (l_view deep ls (Some (length ls)) sbc bbc)) q ex pts =
        v_depth (order_of false true g) (shape_of None (Some ls) rest) (Some (l_view deep ls (Some (length ls)) sbc bbc)) (grid_xy interp [length ls]) pts []) as ->.
      { destruct g; reflexivity. }
      destruct (depth_any (order_of false true g) (shape_of None (Some ls) rest) deep ls sbc bbc (grid_xy interp [length ls]) [] (fun j => leaf [j])
        (fun d s => M q' d s = true) (fun d s => E q' d s) z pts) as (vs & Ev & V); try (destruct g; reflexivity); auto.
      + intros j ps Hj. cbn [app]. rewrite grid_ix1 by auto. destruct (nth_error_lt_Some ls j Hj) as [L HL']. apply (HI [j] 0%Z L). exists j. auto.
      + intros ps. cbn [app]. rewrite grid_last1 by lia. destruct (nth_error_lt_Some ls (length ls - 1)) as [L HL']; [lia|]. apply (HI [length ls - 1] 0%Z L). exists (length ls - 1). auto.
      + intros j L s HL' Hs. apply (HS [j]); auto. exists j. auto.
      + exists vs. split; [exact Ev|]. apply (Fin (fun u => u = q')); [eauto|intros u; reflexivity|]. revert V. clear. induction 1 as [|s c l l' H _ IH]; constructor; auto.
        revert H. apply sees_iff. split; [intros H; exists q'; auto|intros (u & -> & H); exact H].
  Qed.
End Composed.
(** Without missing values. *)
Lemma sees_none x c : Sees (false = true) x c -> Shows x c.
Proof. intros [[H _]|[_ H]]; [discriminate H|exact H]. Qed.
Section Whole.
  Context (g : grid_kind) (interp : list nat -> list spot -> result (list cell)) (leaf : list nat -> spot -> cell).
  Context (time : option time_obj) (levels : option (list Q)) (sbc bbc : bcond) (rest : list nat) (q q' : Z) (ex : bool).
  Context (E : Z -> Q -> spot -> Q) (pts : list spot).
  Let ts := option_map t_data time.
  Context (HT : TimeOk ts ex q q') (HL : LevelsOk levels) (HD : forall s, In s pts -> Answerable levels sbc bbc (deep s)) (HC : Changes ts levels E).
  Context (HI : forall ix u d, SampleAt ts levels ix u d -> (forall ps, interp ix ps = Ok (map (leaf ix) ps)) /\ forall s, Shows (E u d s) (leaf ix s)).
  Lemma whole_any : exists vs, at_grid interp (order_of (some time) (some levels) g) (shape_of time levels rest) time
      (option_map (fun ls => l_view deep ls (Some (length ls)) sbc bbc) levels) q ex pts = Ok vs /\
    Forall2 (fun s c => AtAnyDepth levels sbc bbc (deep s) (fun z c => Shows (E q' z s) c) c) pts vs.
  Proof.
    destruct (composed_any g interp leaf time levels sbc bbc rest q q' ex (fun _ _ _ => false) E pts HT HL HD HC) as (vs & Ev & V).
    - intros ix u d HS. apply (HI ix u d HS).
    - intros ix u d s HS _. right. split; [discriminate|]. apply (HI ix u d HS).
    - exists vs. split; [exact Ev|]. clear - V. induction V as [|s c l l' H _ IH]; constructor; auto. unfold any_sees, AtAnyDepth in *.
      assert (K : forall z c, Sees (Missing (option_map t_data time) levels ex q q' (deep s) z (fun _ _ => false)) (E q' z s) c -> Shows (E q' z s) c).
      { intros z c' [[(u & d & _ & _ & X) _]|[_ X]]; [discriminate X|exact X]. }
      destruct levels; [destruct H as [H1 H2]; split; auto|auto].
  Qed.
End Whole.

Lemma any_impl levels sbc bbc z (P P' : Q -> cell -> Prop) c : (forall z c, P z c -> P' z c) -> AtAnyDepth levels sbc bbc z P c -> AtAnyDepth levels sbc bbc z P' c.
Proof. intros H. unfold AtAnyDepth. destruct levels; [intros [A B]; split; auto|auto]. Qed.
(** Levels listed downwards, answers taken from the first above it and masked at the
    last: every depth can be asked. *)
Lemma downwards_any levels z : LevelsOk levels -> Downwards levels -> Answerable levels default_sbc default_bbc z.
Proof.
  intros L D ls E. destruct (L ls E) as [N _]. specialize (D ls E). destruct (ends_exist ls N) as (a & b & Ha & Hb).
  destruct (Qlt_le_dec z a) as [La|La]; [right; exists a; exists a, b; split; [exact Ha|split; [exact Hb|]]; right; right; left; auto|].
  destruct (Qlt_le_dec z b) as [Lb|Lb]; [right; exists z; exists a, b; split; [exact Ha|split; [exact Hb|]]; left; auto|].
  left. exists a, b. split; [exact Ha|split; [exact Hb|]]. right; left. auto.
Qed.
Lemma downwards_water levels z P c : LevelsOk levels -> Downwards levels -> AtAnyDepth levels default_sbc default_bbc z P c -> InWater levels z P c.
Proof.
  intros L D. unfold AtAnyDepth, InWater. destruct levels as [ls|]; [|auto]. intros [H1 H2] a b Ha Hb. specialize (D ls eq_refl).
  split; [|split]; intros X.
  - apply H2. exists a, b. split; [exact Ha|split; [exact Hb|]]. right; right; left. auto.
  - apply H2. exists a, b. split; [exact Ha|split; [exact Hb|]]. left. auto.
  - apply H1. exists a, b. split; [exact Ha|split; [exact Hb|]]. right; left. auto.
Qed.
