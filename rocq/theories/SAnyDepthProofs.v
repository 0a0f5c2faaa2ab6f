(** Lemmas about questions at any depth on staggered grids. *)
From Coq Require Import Reals String Lqa Lra Qreals.
From Verif Require Import Common CommonProofs TimeModel TimeSpec TimeProofs VariableModel VariableSpec VariableProofs VariableInterpProofs VariableAtProofs
  DepthModel DepthSpec DepthProofs WholeModel WholeSpec WholeProofs WholeProps
  MaskModel GridTypeModel SGridModel SGridSpec SGridInterpModel SGridInterpSpec SGridInterpRun SGridInterpProps SWholeModel SWholeSpec SWholeProofs SWholeProps SMaskSpec SMaskProofs SMaskProps
  AnyDepthSpec AnyDepthProofs SAnyDepthSpec.
Open Scope list_scope.
Open Scope nat_scope.

(** What the depth object answers: nothing beyond the levels. *)
Definition in_levels (ls : list Q) (d z : Q) (i : Z) (al : Q) : Prop :=
  (i = -1)%Z /\ (al == 1)%Q /\ First ls z /\ (Ascending ls /\ d < z \/ Descending ls /\ z < d)%Q \/
  exists j, i = Z.of_nat j /\ (S j < length ls) /\ Bracketed ls d j al /\ (al < 1)%Q /\ z = d.
Lemma rows_any ls sbc bbc (pts : list rspot) : 2 <= length ls -> Monotone ls ->
  (forall s, In s pts -> Answerable (Some ls) sbc bbc (snd s)) ->
  exists rows, l_alphas ls (Some (length ls)) sbc bbc (map snd pts) = Ok rows /\ length rows = length pts /\
    forall k s, nth_error pts k = Some s -> (BeyondLevels ls sbc bbc (snd s) /\ nth_error rows k = Some (None, None)) \/
      (~ BeyondLevels ls sbc bbc (snd s) /\ exists i al, nth_error rows k = Some (Some i, Some al) /\ in_levels ls (snd s) (answered ls (snd s)) i al).
Proof.
  intros N Dir Q. assert (H1 : Some (length ls) <> Some 1) by (intros X; injection X; lia).
  assert (Q' : forall p, In p pts -> BeyondLevels ls sbc bbc (snd p) \/ DepthAsked ls sbc bbc (snd p) (answered ls (snd p))).
  { intros p Hp. destruct (Q p Hp ls eq_refl) as [B|(z' & B)]; [left; exact B|right]. now rewrite <- (asked_answered _ _ _ _ _ N B). }
  destruct Dir as [A|D].
  - destruct (l_alphas_asc ls (Some (length ls)) sbc bbc (map snd pts) A N H1) as (rows & Er & Lr & K). exists rows. split; [exact Er|]. rewrite map_length in Lr. split; [exact Lr|].
    intros k p Hp. destruct (K k (snd p)) as (r & Hr & R). { now apply map_nth_error. } rewrite Hr.
    destruct (Q' p (nth_error_In _ _ Hp)) as [Bd|As].
    + left. split; [exact Bd|]. f_equal. destruct Bd as (a & b & Ha & Hb & C). destruct (R a b Ha Hb) as (R1 & R2 & _).
      destruct C as [(_ & L & B)|[(_ & L & B)|[(D & _)|(D & _)]]]; try (exfalso; eapply asc_desc; eauto; fail); [rewrite (R1 L), B|rewrite (R2 L), B]; reflexivity.
    + right. split; [intros Bd; eapply beyond_not; eauto|]. destruct As as (a & b & Ha & Hb & C). destruct (R a b Ha Hb) as (R1 & _ & R3).
      destruct C as [(_ & B & Ez)|[(D & _)|[(_ & B & Mk & Ez)|(D & _)]]]; try (exfalso; eapply asc_desc; eauto; fail).
      * destruct (R3 B) as (i & al & -> & Br & L1). exists (Z.of_nat i), al. split; [reflexivity|]. right. exists i.
        destruct Br as (x & y & Hx & Hy & Br). pose proof (nth_error_Some_lt _ _ _ Hy). repeat split; auto. exists x, y. auto.
      * rewrite (R1 B), Mk. exists (-1)%Z, 1%Q. split; [reflexivity|]. left. rewrite Ez. repeat split; auto.
  - destruct (l_alphas_desc ls (Some (length ls)) sbc bbc (map snd pts) D N H1) as (rows & Er & Lr & K). exists rows. split; [exact Er|]. rewrite map_length in Lr. split; [exact Lr|].
    intros k p Hp. destruct (K k (snd p)) as (r & Hr & R). { now apply map_nth_error. } rewrite Hr.
    destruct (Q' p (nth_error_In _ _ Hp)) as [Bd|As].
    + left. split; [exact Bd|]. f_equal. destruct Bd as (a & b & Ha & Hb & C). destruct (R a b Ha Hb) as (R1 & R2 & _).
      destruct C as [(A & _)|[(A & _)|[(_ & L & B)|(_ & L & B)]]]; try (exfalso; eapply asc_desc; eauto; fail); [rewrite (R1 L), B|rewrite (R2 L), B]; reflexivity.
    + right. split; [intros Bd; eapply beyond_not; eauto|]. destruct As as (a & b & Ha & Hb & C). destruct (R a b Ha Hb) as (R1 & _ & R3).
      destruct C as [(A & _)|[(_ & B & Ez)|[(A & _)|(_ & B & Mk & Ez)]]]; try (exfalso; eapply asc_desc; eauto; fail).
      * destruct (R3 B) as (i & al & -> & Br & L1). exists (Z.of_nat i), al. split; [reflexivity|]. right. exists i.
        destruct Br as (x & y & Hx & Hy & Br). pose proof (nth_error_Some_lt _ _ _ Hy). repeat split; auto. exists x, y. auto.
      * rewrite (R1 B), Mk. exists (-1)%Z, 1%Q. split; [reflexivity|]. left. rewrite Ez. repeat split; auto.
Qed.
Lemma all_masked l ex q e c : (forall u, e u = RMask) -> OverTime l ex q e c -> c = RMask.
Proof.
  intros H O. destruct l as [l|]; cbn [OverTime] in O; [|now rewrite O, H].
  destruct O as [(u & _ & ->)|(t0 & t1 & _ & [[_ ->]|(a & b & X & _)])]; auto. rewrite H in X. discriminate X.
Qed.

Section Levels.
  Context (g : sg) (find : R * R -> option (Z * Z)) (place_of : R * R -> option (nat * nat * (R * R))) (loc : string) (nr nc : nat)
          (col : bool) (expct : arr rd -> located -> rcell) (v : nvar) (time : option time_obj) (ls : list Q)
          (q q' : Z) (ex : bool) (pts : list rspot) (sbc bbc : bcond).
  Context (HS : SameShape g) (St : Sits g loc nr nc col expct) (HF : Finds g find place_of (map fst pts))
          (HT : TimeOk (option_map t_data time) ex q q') (HN : 2 <= length ls) (HM : Monotone ls)
          (HA : forall s, In s pts -> Answerable (Some ls) sbc bbc (snd s)).
  (** The point whose column is shown is that of the question. *)
  Context (Own : forall idxs k s i, length idxs = length pts -> nth_error pts k = Some s -> nth_error idxs k = Some (Some i) -> source pts idxs col i k = Some s).
  Let dv := from_view Q2R (l_view (@snd (R * R) Q) ls (Some (length ls)) sbc bbc).

  Lemma values_any f m :
    Holds v (option_map t_data time) (Some (length ls)) nr nc (fun t j => f t (nth j ls 0%Q)) (fun _ => m) ->
    (forall t r c, m r c = false -> RLinearInDepth ls (fun d => f t d r c)) ->
    exists cs, stag_at g find loc (order_of (some time) true GStructured) v (deep_shape nr nc time (length ls)) time (Some dv) q ex pts = Ok cs /\
    Forall2 (fun s => RAnyDepth ls sbc bbc (snd s) (fun z c => c = expct (snap nr nc (f q' z) m) (fst s, place_of (fst s)))) pts cs.
  Proof.
    intros HV HD. destruct (rows_any ls sbc bbc pts HN HM HA) as (rows & Er & Lr & Kr). unfold drow in *.
    assert (Hli : length (map fst rows) = length pts) by now rewrite map_length.
    assert (Hla : length (map al0 rows) = length pts) by now rewrite map_length.
    eexists. split.
    - apply (levels_composed g find place_of loc nr nc col expct v time (Some (length ls)) (fun t j => f t (nth j ls 0%Q)) (fun _ => m) q q' ex pts HS St HF HV HT (length ls) eq_refl
        dv (map fst rows) (map al0 rows)).
      + unfold dv, from_view, l_view, view_rows. cbn [av_alphas dv_alphas]. rewrite Er. cbn [bind fst snd]. rewrite map_map. reflexivity.
      + exact Hli.
      + exact Hla.
      + unfold dv. cbn [from_view av_layers l_view dv_layers]. lia.
      + intros i Hi. apply in_map_iff in Hi as (r & Hf & Hr). apply In_nth_error in Hr as (k & Hk).
        destruct (nth_error_lt_Some pts k) as [p Hp]; [rewrite <- Lr; eapply nth_error_Some_lt; eauto|]. destruct (Kr k p Hp) as [[_ Hr]|(_ & i' & al & Hr & C)];
          rewrite Hk in Hr; injection Hr as ->; cbn [fst] in Hf; [discriminate Hf|]. injection Hf as <-. destruct C as [(-> & _)|(j & -> & Hj & _)]; lia.
    - apply SMaskProofs.forall2_nth; [symmetry; now apply rows_at_len|]. intros k s c Hs Hc. destruct (Kr k s Hs) as [[Bd Hr]|(Nb & i & al & Hr & C)].
      + rewrite (rows_at_nth (map fst rows) _ k None) in Hc by (now rewrite nth_error_map, Hr). injection Hc as <-. split; [reflexivity|]. intros z' A. exfalso. eapply beyond_not; eauto.
      + rewrite (rows_at_nth (map fst rows) _ k (Some i)) in Hc by (now rewrite nth_error_map, Hr). injection Hc as <-. split; [intros B; contradiction|].
        intros z' A. rewrite (asked_answered _ _ _ _ _ HN A). unfold level_row. rewrite (Own (map fst rows) k s i Hli Hs) by (now rewrite nth_error_map, Hr). rewrite (map_nth_error al0 k rows Hr). cbn [al0 snd].
        eapply (level_value g place_of loc nr nc col expct ls f m q' (fun s => answered ls (snd s)) St HD rows k s s i al Hr).
        destruct C as [(E1 & E2 & E3 & _)|C]; [left; auto|right; exact C].
  Qed.

  Lemma missing_any d : Stores v (option_map t_data time) (Some (length ls)) nr nc d ->
    exists cs, stag_at g find loc (order_of (some time) true GStructured) v (deep_shape nr nc time (length ls)) time (Some dv) q ex pts = Ok cs /\
    Forall2 (fun s => RAnyDepth ls sbc bbc (snd s) (fun _ c => exists e, (forall u, OverDepth ls (snd s) (fun j => expct (d u j) (fst s, place_of (fst s))) (e u)) /\
      OverTime (option_map t_data time) ex q e c)) pts cs.
  Proof.
    intros HV. destruct (rows_any ls sbc bbc pts HN HM HA) as (rows & Er & Lr & Kr). unfold drow in *.
    assert (HA' : av_alphas dv pts = Ok (map fst rows, map al0 rows)).
    { unfold dv, from_view, l_view, view_rows. cbn [av_alphas dv_alphas]. rewrite Er. cbn [bind fst snd]. rewrite map_map. reflexivity. }
    assert (Hli : length (map fst rows) = length pts) by now rewrite map_length.
    assert (Hla : length (map al0 rows) = length pts) by now rewrite map_length.
    assert (Hi : forall i, In (Some i) (map fst rows) -> (-1 <= i < Z.of_nat (length ls) - 1)%Z).
    { intros i Hi. apply in_map_iff in Hi as (r & Hf & Hr). apply In_nth_error in Hr as (k & Hk).
      destruct (nth_error_lt_Some pts k) as [p Hp]; [rewrite <- Lr; eapply nth_error_Some_lt; eauto|]. destruct (Kr k p Hp) as [[_ Hr]|(_ & i' & al & Hr & C)];
        rewrite Hk in Hr; injection Hr as ->; cbn [fst] in Hf; [discriminate Hf|]. injection Hf as <-. destruct C as [(-> & _)|(j & -> & Hj & _)]; lia. }
    assert (Val : forall u k s i al, nth_error pts k = Some s -> nth_error rows k = Some (Some i, Some al) ->
      levels_of place_of expct d pts (length ls) (map fst rows) (map al0 rows) col u i k =
      rmix (cell_at place_of expct d u (py_level (length ls) i) s) (cell_at place_of expct d u (py_level (length ls) (i + 1)) s) (Q2R al)).
    { intros u k s i al Hs Hr. unfold levels_of. rewrite (Own (map fst rows) k s i Hli Hs) by (exact (map_nth_error fst k rows Hr)). rewrite (map_nth_error al0 k rows Hr). reflexivity. }
    destruct (deep_times g find loc nr nc v time _ d q q' ex pts HV HT (length ls) dv (map fst rows) (map al0 rows) HA' (levels_of place_of expct d pts (length ls) (map fst rows) (map al0 rows) col)) as (cs & E & F).
    - intros u i k I. apply in_combine_l in I as Ik. apply in_seq in Ik. destruct (nth_error_lt_Some pts k) as [p Hp]; [lia|].
      assert (Ho : nth_error (map fst rows) k = Some (Some i)).
      { apply In_nth_error in I as (k' & Hk'). assert (k' < length (map fst rows)) by (apply nth_error_Some_lt in Hk'; rewrite combine_length, seq_length in Hk'; lia).
        destruct (nth_error_lt_Some (map fst rows) k') as [o Ho]; [lia|]. rewrite (nth_combine _ _ k' k' o) in Hk'; [|rewrite (nth_error_nth' _ 0) by (rewrite seq_length; lia); now rewrite seq_nth by lia|exact Ho].
        injection Hk' as -> ->. exact Ho. }
      rewrite nth_error_map in Ho. destruct (Kr k p Hp) as [[_ Hr]|(_ & i' & al & Hr & C)]; rewrite Hr in Ho; cbn in Ho; [discriminate Ho|]. injection Ho as ->.
      rewrite (Val u k p i al Hp Hr). apply plain_mix; eapply sits_cells; eauto.
    - intros sl u Sl. apply (slice_levels g find place_of loc nr nc col expct v time (Some (length ls)) d pts HS St HF HV (length ls) eq_refl dv); auto. unfold dv. cbn [from_view av_layers l_view dv_layers]. lia.
    - exists cs. split; [exact E|]. apply (by_points pts (map fst rows) (map al0 rows) Hli Hla _ _ cs F).
      intros k s c o Hs Ho K. rewrite nth_error_map in Ho. destruct (Kr k s Hs) as [[Bd Hr]|(Nb & i & al & Hr & C)]; rewrite Hr in Ho; injection Ho as <-; cbn [fst snd] in K.
      + split; [intros _; now apply (all_masked _ _ _ (fun _ => RMask) _ ltac:(reflexivity) K)|]. intros z' A. exfalso. eapply beyond_not; eauto.
      + split; [intros B; contradiction|]. intros z' A.
        exists (fun u => levels_of place_of expct d pts (length ls) (map fst rows) (map al0 rows) col u i k). split; [|exact K]. intros u. rewrite (Val u k s i al Hs Hr).
        eapply asked_level; eauto. destruct C as [(E1 & E2 & E3 & E4)|(j & E1 & E2 & E3 & E4 & _)]; [left; eauto|right; eauto].
  Qed.
End Levels.
Lemma own_single (s : rspot) col idxs k s' i : length idxs = length [s] -> nth_error [s] k = Some s' -> nth_error idxs k = Some (Some i) -> source [s] idxs col i k = Some s'.
Proof.
  intros L Hs Hi. destruct k as [|[|k]]; try discriminate. injection Hs as <-. destruct idxs as [|o [|]]; try discriminate. cbn in Hi. injection Hi as ->.
  destruct col; [|reflexivity]. unfold source, first. cbn [where_eq]. rewrite Z.eqb_refl. reflexivity.
Qed.
Lemma single {A B} (P : A -> B -> Prop) a l : Forall2 P [a] l -> exists b, l = [b] /\ P a b.
Proof. intros F. inversion F as [|? b ? ? H F']; subst. inversion F'; subst. eauto. Qed.
Lemma downwards_rwater ls z P c : 2 <= length ls -> Ascending ls -> RAnyDepth ls default_sbc default_bbc z P c -> RInWater ls z P c.
Proof.
  intros L D [H1 H2] a b Ha Hb. split; [|split]; intros X.
  - apply H2. exists a, b. split; [exact Ha|split; [exact Hb|]]. right; right; left. auto.
  - apply H2. exists a, b. split; [exact Ha|split; [exact Hb|]]. left. auto.
  - apply H1. exists a, b. split; [exact Ha|split; [exact Hb|]]. right; left. auto.
Qed.
Lemma downwards_ranswer ls z : 2 <= length ls -> Ascending ls -> Answerable (Some ls) default_sbc default_bbc z.
Proof. intros L A. apply downwards_any; intros l E; injection E as <-; auto. split; [exact L|left; exact A]. Qed.
