(** Lemmas about data on layers. *)
From Coq Require Import String Lqa.
From Verif Require Import Common CommonProofs TimeModel TimeSpec TimeProofs VariableModel VariableSpec VariableProofs VariableInterpProofs VariableAtProofs
  DepthModel DepthSpec DepthProofs DepthAtProofs WholeModel WholeSpec WholeProofs WMaskSpec WMaskProofs TerrProofs FFMaskProofs SWholeSpec AnyDepthSpec AnyDepthProofs LayerSpec.
Open Scope list_scope.
Open Scope nat_scope.

Lemma layer_asked ls sbc bbc z j : InLayer ls z j -> 2 <= length ls -> DepthAsked ls sbc bbc z z.
Proof.
  intros (x & y & Hx & Hy & C) N. destruct (ends_exist ls N) as (a & b & Ha & Hb). exists a, b. split; [exact Ha|split; [exact Hb|]]. unfold First, Last in *.
  pose proof (nth_error_Some_lt _ _ _ Hy) as Ly.
  destruct C as [(A & B1 & B2)|(D & B1 & B2)].
  - left. split; [exact A|split; [|reflexivity]]. assert (a <= x)%Q. { destruct j; [rewrite Ha in Hx; injection Hx as ->; apply Qle_refl|]. apply Qlt_le_weak. apply (A 0 (S j)); auto; lia. }
    assert (y <= b)%Q. { destruct (Nat.eq_dec (S j) (length ls - 1)) as [E|E]; [rewrite E, Hb in Hy; injection Hy as ->; apply Qle_refl|]. apply Qlt_le_weak. apply (A (S j) (length ls - 1)); auto; lia. }
    split; lra.
  - right; left. split; [exact D|split; [|reflexivity]]. assert (x <= a)%Q. { destruct j; [rewrite Ha in Hx; injection Hx as ->; apply Qle_refl|]. apply Qlt_le_weak. apply (D 0 (S j)); auto; lia. }
    assert (b <= y)%Q. { destruct (Nat.eq_dec (S j) (length ls - 1)) as [E|E]; [rewrite E, Hb in Hy; injection Hy as ->; apply Qle_refl|]. apply Qlt_le_weak. apply (D (S j) (length ls - 1)); auto; lia. }
    split; lra.
Qed.
Lemma layer_not ls sbc bbc z j : 2 <= length ls -> BeyondLevels ls sbc bbc z -> InLayer ls z j -> False.
Proof. intros N B I. eapply beyond_not; [exact N|exact B|]. now apply (layer_asked ls sbc bbc z j). Qed.
Lemma bracket_layer ls z i al j : Monotone ls -> Bracketed ls z i al -> (al < 1)%Q -> InLayer ls z j -> i = j.
Proof.
  intros Mo (x & y & Hx & Hy & Ba & Ez) L1 (x' & y' & Hx' & Hy' & C).
  destruct (Nat.lt_trichotomy i j) as [Lt|[E|Lt]]; [exfalso|exact E|exfalso]; destruct Mo as [A|D].
  - pose proof (A i (S i) x y ltac:(lia) Hx Hy). pose proof (A j (S j) x' y' ltac:(lia) Hx' Hy') as P2. assert (y <= x')%Q.
    { destruct (Nat.eq_dec (S i) j) as [X|X]; [subst j; rewrite Hy in Hx'; injection Hx' as ->; lra|]. pose proof (A (S i) j y x' ltac:(lia) Hy Hx'). lra. }
    destruct C as [(_ & C)|(D & C)]; [nra|]. pose proof (D j (S j) x' y' ltac:(lia) Hx' Hy'). lra.
  - pose proof (D i (S i) x y ltac:(lia) Hx Hy). pose proof (D j (S j) x' y' ltac:(lia) Hx' Hy') as P2. assert (x' <= y)%Q.
    { destruct (Nat.eq_dec (S i) j) as [X|X]; [subst j; rewrite Hy in Hx'; injection Hx' as ->; lra|]. pose proof (D (S i) j y x' ltac:(lia) Hy Hx'). lra. }
    destruct C as [(A & C)|(_ & C)]; [pose proof (A j (S j) x' y' ltac:(lia) Hx' Hy'); lra|nra].
  - pose proof (A i (S i) x y ltac:(lia) Hx Hy). pose proof (A j (S j) x' y' ltac:(lia) Hx' Hy') as P2. assert (y' <= x)%Q.
    { destruct (Nat.eq_dec (S j) i) as [X|X]; [subst i; rewrite Hx in Hy'; injection Hy' as ->; lra|]. pose proof (A (S j) i y' x ltac:(lia) Hy' Hx). lra. }
    destruct C as [(_ & C)|(D & C)]; [nra|]. pose proof (D j (S j) x' y' ltac:(lia) Hx' Hy'). lra.
  - pose proof (D i (S i) x y ltac:(lia) Hx Hy). pose proof (D j (S j) x' y' ltac:(lia) Hx' Hy') as P2. assert (x <= y')%Q.
    { destruct (Nat.eq_dec (S j) i) as [X|X]; [subst i; rewrite Hx in Hy'; injection Hy' as ->; lra|]. pose proof (D (S j) i y' x ltac:(lia) Hy' Hx). lra. }
    destruct C as [(A & C)|(_ & C)]; [pose proof (A j (S j) x' y' ltac:(lia) Hx' Hy'); lra|nra].
Qed.

Section Rows.
  Context {P : Type} (dep : P -> Q) (ls : list Q) (sbc bbc : bcond) (lay : P -> nat) (N : 2 <= length ls) (Mo : Monotone ls).
  Lemma layer_rows pts : (forall p, In p pts -> Layered ls sbc bbc (dep p) (lay p)) ->
    exists rows, l_alphas ls (Some (length ls)) sbc bbc (map dep pts) = Ok rows /\ Forall2 (fun p r =>
      (BeyondLevels ls sbc bbc (dep p) /\ r = (None, None)) \/ (InLayer ls (dep p) (lay p) /\ exists al, r = (Some (Z.of_nat (lay p)), Some al) /\ lay p < length ls - 1)) pts rows.
  Proof.
    intros Q. assert (H1 : Some (length ls) <> Some 1) by (intros X; injection X; lia).
    assert (In_ : forall p i al, Bracketed ls (dep p) i al -> (al < 1)%Q -> InLayer ls (dep p) (lay p) -> exists al', (Some (Z.of_nat i), Some al) = (Some (Z.of_nat (lay p)), Some al') /\ lay p < length ls - 1).
    { intros p i al Br L1 I. rewrite (bracket_layer ls _ i al _ Mo Br L1 I). exists al. split; [reflexivity|]. destruct I as (x & y & _ & Hy & _). apply nth_error_Some_lt in Hy. lia. }
    assert (Ends : forall p, InLayer ls (dep p) (lay p) -> exists a b, First ls a /\ Last ls b /\ ((Ascending ls /\ a <= dep p < b) \/ (Descending ls /\ b < dep p <= a))%Q).
    { intros p I. destruct (layer_asked ls BMask BMask _ _ I N) as (a & b & Ha & Hb & C). exists a, b. split; [exact Ha|split; [exact Hb|]].
      destruct C as [(A & B & _)|[(A & B & _)|[(_ & _ & X & _)|(_ & _ & X & _)]]]; [left; auto|right; auto|discriminate X|discriminate X]. }
    destruct Mo as [A|D].
    - destruct (l_alphas_asc ls (Some (length ls)) sbc bbc (map dep pts) A N H1) as (rows & Er & Lr & K). exists rows. split; [exact Er|]. rewrite map_length in Lr. apply forall2_nth; [exact Lr|].
      intros k p Hp. destruct (K k (dep p)) as (r & Hr & R). { now apply map_nth_error. } exists r. split; [exact Hr|].
      destruct (Q p (nth_error_In _ _ Hp)) as [I|Bd].
      + right. split; [exact I|]. destruct (Ends p I) as (a & b & Ha & Hb & C). destruct (R a b Ha Hb) as (_ & _ & R3).
        destruct C as [(_ & B)|(D & _)]; [|exfalso; eapply asc_desc; eauto]. destruct (R3 B) as (i & al & -> & Br & L1). eapply In_; eauto.
      + left. split; [exact Bd|]. destruct Bd as (a & b & Ha & Hb & C). destruct (R a b Ha Hb) as (R1 & R2 & _).
        destruct C as [(_ & L & B)|[(_ & L & B)|[(D & _)|(D & _)]]]; try (exfalso; eapply asc_desc; eauto; fail); [rewrite (R1 L), B|rewrite (R2 L), B]; reflexivity.
    - destruct (l_alphas_desc ls (Some (length ls)) sbc bbc (map dep pts) D N H1) as (rows & Er & Lr & K). exists rows. split; [exact Er|]. rewrite map_length in Lr. apply forall2_nth; [exact Lr|].
      intros k p Hp. destruct (K k (dep p)) as (r & Hr & R). { now apply map_nth_error. } exists r. split; [exact Hr|].
      destruct (Q p (nth_error_In _ _ Hp)) as [I|Bd].
      + right. split; [exact I|]. destruct (Ends p I) as (a & b & Ha & Hb & C). destruct (R a b Ha Hb) as (_ & _ & R3).
        destruct C as [(A & _)|(_ & B)]; [exfalso; eapply asc_desc; eauto|]. destruct (R3 B) as (i & al & -> & Br & L1). eapply In_; eauto.
      + left. split; [exact Bd|]. destruct Bd as (a & b & Ha & Hb & C). destruct (R a b Ha Hb) as (R1 & R2 & _).
        destruct C as [(A & _)|[(A & _)|[(_ & L & B)|(_ & L & B)]]]; try (exfalso; eapply asc_desc; eauto; fail); [rewrite (R1 L), B|rewrite (R2 L), B]; reflexivity.
  Qed.
  Lemma depth_layers order shape (val : list P -> list Z -> result (list cell)) slices (f : nat -> P -> cell) (M : nat -> P -> Prop) (E : nat -> P -> Q) pts :
    dim_len order shape DDepth = Ok (length ls - 1) -> (forall p, In p pts -> Layered ls sbc bbc (dep p) (lay p)) ->
    (forall j ps, j < length ls - 1 -> val ps (slices ++ [Z.of_nat j]) = Ok (map (f j) ps)) ->
    (forall j p, j < length ls - 1 -> In p pts -> Sees (M j p) (E j p) (f j p)) ->
    exists vs, v_depth order shape (Some (l_view dep ls (Some (length ls)) sbc bbc)) val pts slices = Ok vs /\
      Forall2 (fun p c => Sees (BeyondLevels ls sbc bbc (dep p) \/ M (lay p) p) (E (lay p) p) c) pts vs.
  Proof.
    intros DL Q V Sm. destruct (layer_rows pts Q) as (rows & Er & Fr).
    assert (HL : length rows = length pts) by (clear - Fr; induction Fr; cbn; lia).
    assert (HV : dv_alphas (l_view dep ls (Some (length ls)) sbc bbc) pts = view_rows (Ok rows)). { cbn [l_view dv_alphas]. now rewrite Er. }
    destruct (layers_see order shape (l_view dep ls (Some (length ls)) sbc bbc) val slices f M E (length ls - 1) pts rows HV HL DL) as (vs & Ev & Fv); auto.
    { clear - Fr. induction Fr as [|p r l m R _ IH]; constructor; auto. destruct R as [[_ ->]|[_ (al & -> & Hj)]]; [left; reflexivity|right; eauto]. }
    exists vs. split; [exact Ev|].
    refine (FFvcomProofs.row_pairs _ (fun p r c => Sees (row_missing layer_used (fun k => M k p) r) (layer_value (fun k => E k p) r) c) _ pts _ rows vs Fr Fv).
    intros p r c Ip R H. cbn beta in H. destruct R as [[Bd ->]|[I (al & -> & Hj)]].
    - left. split; [left; exact Bd|]. destruct H as [[_ H]|[H _]]; [exact H|]. exfalso. apply H. left. reflexivity.
    - unfold row_missing, layer_used, layer_value in H. cbn [fst snd row_masked] in H. rewrite Nat2Z.id in H. revert H. apply sees_iff. split.
      + intros [X|(k & -> & X)]; [discriminate X|auto].
      + intros [X|X]; [exfalso; eapply layer_not; eauto|right; eauto].
  Qed.
End Rows.

Section Composed.
  Context (g : grid_kind) (interp : list nat -> list spot -> result (list cell)) (leaf : list nat -> spot -> cell).
  Context (time : option time_obj) (ls : list Q) (sbc bbc : bcond) (rest : list nat) (q q' : Z) (ex : bool).
  Context (M : Z -> nat -> spot -> bool) (E : Z -> nat -> spot -> Q) (lay : spot -> nat) (pts : list spot).
  Let ts := option_map t_data time.
  Context (HT : TimeOk ts ex q q') (N : 2 <= length ls) (Mo : Monotone ls) (HD : forall s, In s pts -> Layered ls sbc bbc (deep s) (lay s)) (HC : LayersChange ts E).
  Context (HI : forall ix u j, SlotAt ts (Some (length ls - 1)) ix u j -> forall ps, interp ix ps = Ok (map (leaf ix) ps)).
  Context (HS : forall ix u j s, SlotAt ts (Some (length ls - 1)) ix u j -> In s pts -> Sees (M u j s = true) (E u j s) (leaf ix s)).
  Lemma composed_layers : exists vs, at_grid interp (order_of (some time) true g) (layer_shape time ls rest) time (Some (l_view deep ls (Some (length ls)) sbc bbc)) q ex pts = Ok vs /\
    Forall2 (fun s => AtLayer ls sbc bbc (deep s) (lay s) (fun c => Sees (exists u, UsesTime ts ex q q' u /\ M u (lay s) s = true) (E q' (lay s) s) c)) pts vs.
  Proof.
    assert (Fin : forall (T : Z -> Prop), (exists u, T u) -> (forall u, UsesTime ts ex q q' u <-> T u) -> forall vs,
      Forall2 (fun s c => Sees (exists u, T u /\ (BeyondLevels ls sbc bbc (deep s) \/ M u (lay s) s = true)) (E q' (lay s) s) c) pts vs ->
      Forall2 (fun s => AtLayer ls sbc bbc (deep s) (lay s) (fun c => Sees (exists u, UsesTime ts ex q q' u /\ M u (lay s) s = true) (E q' (lay s) s) c)) pts vs).
    { intros T [u0 U0] UT vs F. clear - F U0 UT N. induction F as [|s c l l' H _ IH]; constructor; auto. split.
      - intros B. destruct H as [[_ ->]|[H _]]; [reflexivity|]. exfalso. apply H. exists u0. auto.
      - intros I. revert H. apply sees_iff. split.
        + intros (u & Hu & [B|X]); [exfalso; eapply layer_not; eauto|]. exists u. split; [now apply UT|auto].
        + intros (u & Hu & X). exists u. split; [now apply UT|]. auto. }
    unfold ts in *. destruct time as [t|]; cbn [some option_map UsesTime] in *.
    - destruct (HT _ eq_refl) as (SI & Ne & TA). set (n := length (t_data t)).
      assert (Hn : 0 < n) by (unfold n; destruct (t_data t); [congruence|cbn; lia]).
      set (vd := v_depth (order_of true true g) (layer_shape (Some t) ls rest) (Some (l_view deep ls (Some (length ls)) sbc bbc)) (grid_xy interp [n; length ls - 1]) pts).
      assert (at_grid interp (order_of true true g) (layer_shape (Some t) ls rest) (Some t) (Some (l_view deep ls (Some (length ls)) sbc bbc)) q ex pts = time_interp t q ex vd []) as ->.
      { destruct g; reflexivity. }
      destruct (time_sees t q q' ex vd (fun u s => BeyondLevels ls sbc bbc (deep s) \/ M u (lay s) s = true) (fun u s => E u (lay s) s) pts SI Ne TA) as (vs & Ev & V).
      + intros k tk Hk. pose proof (nth_error_Some_lt _ _ _ Hk) as Lk. fold n in Lk.
        apply (depth_layers deep ls sbc bbc lay N Mo (order_of true true g) (layer_shape (Some t) ls rest) (grid_xy interp [n; length ls - 1]) [Z.of_nat k] (fun j => leaf [k; j])
          (fun j s => M tk j s = true) (fun j s => E tk j s) pts); auto.
        * intros j ps Hj. cbn [app]. rewrite grid_ix2 by auto. apply (HI [k; j] tk j). exists k. auto.
        * intros j s Hj Hs. apply (HS [k; j]); auto. exists k. auto.
      + unfold vd, v_depth. destruct (dv_alphas _ pts) as [ia|]; cbn [bind]; [|reflexivity]. destruct (dim_len _ _ _); cbn [bind]; [|reflexivity].
        apply depth_interp_ext. intros ps i. cbn [app]. now apply grid_first_last.
      + intros s Hs. exact (HC _ eq_refl (lay s) s).
      + exists vs. split; [exact Ev|]. apply (Fin (TimeUsed (t_data t) ex q)); [eapply some_used; eauto|intros u; reflexivity|exact V].
    - assert (at_grid interp (order_of false true g) (layer_shape None ls rest) None (Some (l_view deep ls (Some (length ls)) sbc bbc)) q ex pts =
        v_depth (order_of false true g) (layer_shape None ls rest) (Some (l_view deep ls (Some (length ls)) sbc bbc)) (grid_xy interp [length ls - 1]) pts []) as ->.
      { destruct g; reflexivity. }
      destruct (depth_layers deep ls sbc bbc lay N Mo (order_of false true g) (layer_shape None ls rest) (grid_xy interp [length ls - 1]) [] (fun j => leaf [j])
        (fun j s => M q' j s = true) (fun j s => E q' j s) pts) as (vs & Ev & V); auto.
      + intros j ps Hj. cbn [app]. rewrite grid_ix1 by auto. apply (HI [j] q' j). split; auto.
      + intros j s Hj Hs. apply (HS [j]); auto. split; auto.
      + exists vs. split; [exact Ev|]. apply (Fin (fun u => u = q')); [eauto|intros u; reflexivity|]. revert V. clear. induction 1 as [|s c l l' H _ IH]; constructor; auto.
        revert H. apply sees_iff. split; [intros H; exists q'; auto|intros (u & -> & H); exact H].
  Qed.
End Composed.
