(** C115: data with missing values on staggered grids. *)
From Coq Require Import Reals String Lqa Lra Qreals.
From Verif Require Import Common CommonProofs TimeModel TimeSpec TimeProofs VariableModel VariableSpec VariableProofs VariableInterpProofs VariableAtProofs
  DepthModel DepthSpec DepthProofs WholeModel WholeSpec WholeProofs WholeProps
  MaskModel GridTypeModel SGridModel SGridSpec SGridInterpModel SGridInterpSpec SGridInterpRun SGridInterpProps SWholeModel SWholeSpec SWholeProofs SWholeProps SMaskSpec SMaskProofs.
Open Scope list_scope.
Open Scope nat_scope.
Open Scope string_scope.
Open Scope list_scope.
Open Scope nat_scope.

(** Over time, on any of the points, whatever is missing at which times: the
    answer is made of the grid's answers for the samples in use, missing when one
    of them is. *)
Theorem c115_times :
  forall g find place_of loc nr nc col expct v time d q q' ex (pts : list rspot) depth,
  SameShape g -> Sits g loc nr nc col expct -> Finds g find place_of (map fst pts) ->
  Stores v (option_map t_data time) None nr nc d -> TimeOk (option_map t_data time) ex q q' ->
  exists cs, stag_at g find loc (order_of (some time) false GStructured) v (lead_shape nr nc time) time depth q ex pts = Ok cs /\
  Forall2 (fun s c => OverTime (option_map t_data time) ex q (fun u => expct (d u 0) (fst s, place_of (fst s))) c) pts cs.
Proof.
  intros g find place_of loc nr nc col expct v time d q q' ex pts depth HS St HF HV HT.
  exact (no_levels g find place_of loc nr nc col expct v time None d q q' ex pts HS St HF HV HT depth eq_refl).
Qed.
Print Assumptions c115_times.

(** Data on layers, on any of the points. *)
Theorem c115_layers :
  forall g find place_of loc nr nc col expct v time ls d q q' ex (pts : list rspot) sbc bbc lay,
  SameShape g -> Sits g loc nr nc col expct -> Finds g find place_of (map fst pts) ->
  Stores v (option_map t_data time) (Some (length ls - 1)) nr nc d ->
  TimeOk (option_map t_data time) ex q q' -> 2 <= length ls -> Monotone ls ->
  (forall s, In s pts -> InLayer ls (snd s) (lay s)) ->
  exists cs, stag_at g find loc (order_of (some time) true GStructured) v (deep_shape nr nc time (length ls - 1)) time (Some (from_view Q2R (l_view snd ls (Some (length ls)) sbc bbc))) q ex pts = Ok cs /\
  Forall2 (fun s c => OverTime (option_map t_data time) ex q (fun u => expct (d u (lay s)) (fst s, place_of (fst s))) c) pts cs.
Proof.
  intros g find place_of loc nr nc col expct v time ls d q q' ex pts sbc bbc lay HS St HF HV HT HN HM HL.
  destruct (rows_layer ls sbc bbc pts lay HN HM HL) as (rows & Er & Lr & Kl). unfold drow in *.
  set (dv := from_view Q2R (l_view snd ls (Some (length ls)) sbc bbc)).
  assert (HA : av_alphas dv pts = Ok (map fst rows, map al0 rows)).
  { unfold dv, from_view, l_view, view_rows. cbn [av_alphas dv_alphas]. rewrite Er. cbn [bind fst snd]. rewrite map_map. reflexivity. }
  assert (Hli : length (map fst rows) = length pts) by now rewrite map_length.
  assert (Hla : length (map al0 rows) = length pts) by now rewrite map_length.
  assert (Hi : forall i, In (Some i) (map fst rows) -> (0 <= i < Z.of_nat (length ls - 1))%Z).
  { intros i Hi. apply in_map_iff in Hi as (r & Hf & Hr). apply In_nth_error in Hr as (k & Hk).
    destruct (nth_error_lt_Some pts k) as [p Hp]; [rewrite <- Lr; eapply nth_error_Some_lt; eauto|]. destruct (Kl k p Hp) as (al & Hr & Lj).
    rewrite Hk in Hr. injection Hr as ->. cbn [fst] in Hf. injection Hf as <-. lia. }
  destruct (deep_times g find loc nr nc v time _ d q q' ex pts HV HT (length ls - 1) dv (map fst rows) (map al0 rows) HA (layer_of place_of expct d pts (length ls - 1))) as (cs & E & F).
  - intros u i k I. apply in_combine_l in I as Ik. apply in_seq in Ik. unfold layer_of. destruct (nth_error_lt_Some pts k) as [p ->]; [lia|]. eapply sits_cells; eauto.
  - intros sl u Sl. apply (slice_layers g find place_of loc nr nc col expct v time (Some (length ls - 1)) d pts HS St HF HV (length ls - 1) eq_refl dv); auto.
  - exists cs. split; [exact E|]. apply (by_points pts (map fst rows) (map al0 rows) Hli Hla _ _ cs F).
    intros k s c o Hs Ho K. destruct (Kl k s Hs) as (al & Hr & Lj). rewrite nth_error_map, Hr in Ho. injection Ho as <-. cbn [fst snd] in K.
    unfold layer_of in K. rewrite Hs in K. unfold cell_at, py_level, spot_in in K. destruct (Z.eqb_spec (Z.of_nat (lay s)) (-1)); [lia|]. rewrite Nat2Z.id in K. exact K.
Qed.
Print Assumptions c115_layers.

(** What the depth object answers for the points of a list of levels. *)
Lemma rows_used ls sbc bbc (pts : list rspot) (z : rspot -> Q) : 2 <= length ls -> Monotone ls ->
  (forall s, In s pts -> DepthAsked ls sbc bbc (snd s) (z s)) ->
  exists rows, l_alphas ls (Some (length ls)) sbc bbc (map snd pts) = Ok rows /\ length rows = length pts /\
    forall k s, nth_error pts k = Some s -> exists i al, nth_error rows k = Some (Some i, Some al) /\
      ((i = -1)%Z /\ (al == 1)%Q /\ (exists a, First ls a /\ (Ascending ls /\ snd s < a \/ Descending ls /\ a < snd s)%Q) \/
       exists j, i = Z.of_nat j /\ (S j < length ls) /\ Bracketed ls (snd s) j al /\ (al < 1)%Q).
Proof.
  intros N Dir Q.
  assert (H1 : Some (length ls) <> Some 1) by (intros X; injection X; lia).
  assert (AD : Ascending ls -> Descending ls -> False).
  { intros A D. destruct (ends_exist ls N) as (a & b & Ha & Hb). pose proof (A 0 (length ls - 1) a b ltac:(lia) Ha Hb). pose proof (D 0 (length ls - 1) a b ltac:(lia) Ha Hb). Lqa.lra. }
  destruct Dir as [A|D].
  - destruct (l_alphas_asc ls (Some (length ls)) sbc bbc (map snd pts) A N H1) as (rows & Er & Lr & K). exists rows. split; [exact Er|]. rewrite map_length in Lr. split; [exact Lr|].
    intros k p Hp. destruct (K k (snd p)) as (r & Hr & R). { now apply map_nth_error. }
    destruct (Q p (nth_error_In _ _ Hp)) as (a & b & Ha & Hb & C). destruct (R a b Ha Hb) as (R1 & _ & R3).
    destruct C as [(_ & B & _)|[(D & _)|[(_ & B & M & _)|(D & _)]]]; try (exfalso; eauto; fail).
    + destruct (R3 B) as (i & al & -> & Br & L1). exists (Z.of_nat i), al. split; [exact Hr|]. right. exists i.
      destruct Br as (x & y & Hx & Hy & Br). pose proof (nth_error_Some_lt _ _ _ Hy). repeat split; auto. exists x, y. auto.
    + rewrite (R1 B), M in Hr. exists (-1)%Z, 1%Q. split; [exact Hr|]. left. split; [reflexivity|]. split; [reflexivity|]. exists a. auto.
  - destruct (l_alphas_desc ls (Some (length ls)) sbc bbc (map snd pts) D N H1) as (rows & Er & Lr & K). exists rows. split; [exact Er|]. rewrite map_length in Lr. split; [exact Lr|].
    intros k p Hp. destruct (K k (snd p)) as (r & Hr & R). { now apply map_nth_error. }
    destruct (Q p (nth_error_In _ _ Hp)) as (a & b & Ha & Hb & C). destruct (R a b Ha Hb) as (R1 & _ & R3).
    destruct C as [(A & _)|[(_ & B & _)|[(A & _)|(_ & B & M & _)]]]; try (exfalso; eauto; fail).
    + destruct (R3 B) as (i & al & -> & Br & L1). exists (Z.of_nat i), al. split; [exact Hr|]. right. exists i.
      destruct Br as (x & y & Hx & Hy & Br). pose proof (nth_error_Some_lt _ _ _ Hy). repeat split; auto. exists x, y. auto.
    + rewrite (R1 B), M in Hr. exists (-1)%Z, 1%Q. split; [exact Hr|]. left. split; [reflexivity|]. split; [reflexivity|]. exists a. auto.
Qed.

Section Levels.
  Context (g : sg) (find : R * R -> option (Z * Z)) (place_of : R * R -> option (nat * nat * (R * R))) (loc : string) (nr nc : nat)
          (col : bool) (expct : arr rd -> located -> rcell) (v : nvar) (time : option time_obj) (ls : list Q)
          (d : Z -> nat -> arr rd) (q q' : Z) (ex : bool) (pts : list rspot) (sbc bbc : bcond) (z : rspot -> Q).
  Context (HS : SameShape g) (St : Sits g loc nr nc col expct) (HF : Finds g find place_of (map fst pts))
          (HV : Stores v (option_map t_data time) (Some (length ls)) nr nc d)
          (HT : TimeOk (option_map t_data time) ex q q') (HN : 2 <= length ls) (HM : Monotone ls)
          (HA : forall s, In s pts -> DepthAsked ls sbc bbc (snd s) (z s)).
  (** The point whose column is shown is that of the question. *)
  Context (Own : forall idxs k s i, length idxs = length pts -> nth_error pts k = Some s -> nth_error idxs k = Some (Some i) -> source pts idxs col i k = Some s).
  Lemma asked_level s i al :
    ((i = -1)%Z /\ (al == 1)%Q /\ (exists a, First ls a /\ (Ascending ls /\ snd s < a \/ Descending ls /\ a < snd s)%Q) \/
       exists j, i = Z.of_nat j /\ (S j < length ls) /\ Bracketed ls (snd s) j al /\ (al < 1)%Q) ->
    forall u, OverDepth ls (snd s) (fun j => expct (d u j) (fst s, place_of (fst s)))
      (rmix (cell_at place_of expct d u (py_level (length ls) i) s) (cell_at place_of expct d u (py_level (length ls) (i + 1)) s) (Q2R al)).
  Proof.
    intros C u. assert (Pl : forall j, Plain (cell_at place_of expct d u j s)) by (intros; eapply sits_cells; eauto).
    destruct C as [(-> & E1 & a & Fa & Di)|(j & -> & Lj & (x & y & Hx & Hy & Ba & Ez) & L1)].
    - right. exists a. split; [exact Fa|]. split; [exact Di|]. unfold py_level. cbn [Z.eqb Pos.eqb Z.add Z.pos_sub Z.to_nat].
      apply blend_mix; [apply Pl|apply Pl|]. apply Qeq_eqR in E1. rewrite E1. unfold Q2R. cbn. field.
    - left. exists j, x, y. split; [exact Hx|]. split; [exact Hy|].
      assert (N : ((Ascending ls -> x < y) /\ (Descending ls -> y < x))%Q) by (split; intros D; apply (D j (S j)); auto).
      split.
      + rewrite Ez. destruct HM as [A|D]; [apply (proj1 N) in A; left|apply (proj2 N) in D; right].
        * assert (0 <= al * (y - x))%Q by (apply Qmult_le_0_compat; Lqa.lra). assert (0 < (1 - al) * (y - x))%Q by (apply Qmult_lt_0_compat; Lqa.lra). split; Lqa.lra.
        * assert (0 <= al * (x - y))%Q by (apply Qmult_le_0_compat; Lqa.lra). assert (0 < (1 - al) * (x - y))%Q by (apply Qmult_lt_0_compat; Lqa.lra). split; Lqa.lra.
      + unfold py_level. destruct (Z.eqb_spec (Z.of_nat j) (-1)); [lia|]. destruct (Z.eqb_spec (Z.of_nat j + 1) (-1)); [lia|].
        replace (Z.of_nat j + 1)%Z with (Z.of_nat (S j)) by lia. rewrite !Nat2Z.id. apply blend_mix; [apply Pl|apply Pl|]. apply share_depth; [|exact Ez].
        destruct HM as [A|D]; [apply (proj1 N) in A|apply (proj2 N) in D]; intros X; Lqa.lra.
  Qed.
  Lemma on_levels : exists cs,
    stag_at g find loc (order_of (some time) true GStructured) v (deep_shape nr nc time (length ls)) time (Some (from_view Q2R (l_view snd ls (Some (length ls)) sbc bbc))) q ex pts = Ok cs /\
    Forall2 (fun s c => exists e, (forall u, OverDepth ls (snd s) (fun j => expct (d u j) (fst s, place_of (fst s))) (e u)) /\ OverTime (option_map t_data time) ex q e c) pts cs.
  Proof.
    destruct (rows_used ls sbc bbc pts z HN HM HA) as (rows & Er & Lr & Kr). unfold drow in *.
    set (dv := from_view Q2R (l_view snd ls (Some (length ls)) sbc bbc)).
    assert (HA' : av_alphas dv pts = Ok (map fst rows, map al0 rows)).
    { unfold dv, from_view, l_view, view_rows. cbn [av_alphas dv_alphas]. rewrite Er. cbn [bind fst snd]. rewrite map_map. reflexivity. }
    assert (Hli : length (map fst rows) = length pts) by now rewrite map_length.
    assert (Hla : length (map al0 rows) = length pts) by now rewrite map_length.
    assert (Hi : forall i, In (Some i) (map fst rows) -> (-1 <= i < Z.of_nat (length ls) - 1)%Z).
    { intros i Hi. apply in_map_iff in Hi as (r & Hf & Hr). apply In_nth_error in Hr as (k & Hk).
      destruct (nth_error_lt_Some pts k) as [p Hp]; [rewrite <- Lr; eapply nth_error_Some_lt; eauto|]. destruct (Kr k p Hp) as (i' & al & Hr & C).
      rewrite Hk in Hr. injection Hr as ->. cbn [fst] in Hf. injection Hf as <-. destruct C as [(-> & _)|(j & -> & Hj & _)]; lia. }
    assert (Val : forall u k s i al, nth_error pts k = Some s -> nth_error rows k = Some (Some i, Some al) ->
      levels_of place_of expct d pts (length ls) (map fst rows) (map al0 rows) col u i k =
      rmix (cell_at place_of expct d u (py_level (length ls) i) s) (cell_at place_of expct d u (py_level (length ls) (i + 1)) s) (Q2R al)).
    { intros u k s i al Hs Hr. unfold levels_of. rewrite (Own (map fst rows) k s i Hli Hs) by (exact (map_nth_error fst k rows Hr)). rewrite (map_nth_error al0 k rows Hr). reflexivity. }
    destruct (deep_times g find loc nr nc v time _ d q q' ex pts HV HT (length ls) dv (map fst rows) (map al0 rows) HA' (levels_of place_of expct d pts (length ls) (map fst rows) (map al0 rows) col)) as (cs & E & F).
    - intros u i k I. apply in_combine_l in I as Ik. apply in_seq in Ik. destruct (nth_error_lt_Some pts k) as [p Hp]; [lia|]. destruct (Kr k p Hp) as (i' & al & Hr & _).
      assert (i' = i) as <-.
      { apply In_nth_error in I as (k' & Hk'). assert (k' < length (map fst rows)) by (apply nth_error_Some_lt in Hk'; rewrite combine_length, seq_length in Hk'; lia).
        destruct (nth_error_lt_Some (map fst rows) k') as [o Ho]; [lia|]. rewrite (nth_combine _ _ k' k' o) in Hk'; [|rewrite (nth_error_nth' _ 0) by (rewrite seq_length; lia); now rewrite seq_nth by lia|exact Ho].
        injection Hk' as -> ->. rewrite nth_error_map, Hr in Ho. cbn in Ho. congruence. }
      rewrite (Val u k p i' al Hp Hr). apply plain_mix; eapply sits_cells; eauto.
    - intros sl u Sl. apply (slice_levels g find place_of loc nr nc col expct v time (Some (length ls)) d pts HS St HF HV (length ls) eq_refl dv); auto. unfold dv. cbn [from_view av_layers l_view dv_layers]. lia.
    - exists cs. split; [exact E|]. apply (by_points pts (map fst rows) (map al0 rows) Hli Hla _ _ cs F).
      intros k s c o Hs Ho K. destruct (Kr k s Hs) as (i & al & Hr & C). rewrite nth_error_map, Hr in Ho. injection Ho as <-. cbn [fst snd] in K.
      exists (fun u => levels_of place_of expct d pts (length ls) (map fst rows) (map al0 rows) col u i k). split; [|exact K]. intros u. rewrite (Val u k s i al Hs Hr). now apply asked_level.
  Qed.
End Levels.
(** On levels, at nodes and edges: between the levels around the depth first, then
    over time. *)
Theorem c115_levels_partial :
  forall g find place_of loc nr nc expct v time ls d q q' ex (pts : list rspot) sbc bbc z,
  SameShape g -> Sits g loc nr nc false expct -> Finds g find place_of (map fst pts) ->
  Stores v (option_map t_data time) (Some (length ls)) nr nc d -> TimeOk (option_map t_data time) ex q q' -> 2 <= length ls -> Monotone ls ->
  (forall s, In s pts -> DepthAsked ls sbc bbc (snd s) (z s)) ->
  exists cs, stag_at g find loc (order_of (some time) true GStructured) v (deep_shape nr nc time (length ls)) time (Some (from_view Q2R (l_view snd ls (Some (length ls)) sbc bbc))) q ex pts = Ok cs /\
  Forall2 (fun s c => exists e, (forall u, OverDepth ls (snd s) (fun j => expct (d u j) (fst s, place_of (fst s))) (e u)) /\ OverTime (option_map t_data time) ex q e c) pts cs.
Proof.
  intros g find place_of loc nr nc expct v time ls d q q' ex pts sbc bbc z HS St HF HV HT HN HM HA.
  apply (on_levels g find place_of loc nr nc false expct v time ls d q q' ex pts sbc bbc z); auto.
Qed.
Print Assumptions c115_levels_partial.
(** At any of the points, one point at a time (several at the centers: C98). *)
Theorem c115_one_point_partial :
  forall g find place_of loc nr nc col expct v time ls d q q' ex (s : rspot) sbc bbc z,
  SameShape g -> Sits g loc nr nc col expct -> Finds g find place_of [fst s] ->
  Stores v (option_map t_data time) (Some (length ls)) nr nc d -> TimeOk (option_map t_data time) ex q q' -> 2 <= length ls -> Monotone ls ->
  DepthAsked ls sbc bbc (snd s) z ->
  exists c e, stag_at g find loc (order_of (some time) true GStructured) v (deep_shape nr nc time (length ls)) time (Some (from_view Q2R (l_view snd ls (Some (length ls)) sbc bbc))) q ex [s] = Ok [c] /\
  (forall u, OverDepth ls (snd s) (fun j => expct (d u j) (fst s, place_of (fst s))) (e u)) /\ OverTime (option_map t_data time) ex q e c.
Proof.
  intros g find place_of loc nr nc col expct v time ls d q q' ex s sbc bbc z HS St HF HV HT HN HM HA.
  destruct (on_levels g find place_of loc nr nc col expct v time ls d q q' ex [s] sbc bbc (fun _ => z)) as (cs & E & F); auto.
  - intros s' [<-|[]]. exact HA.
  - intros idxs k s' i L Hs Hi. destruct k as [|[|k]]; try discriminate. injection Hs as <-. destruct idxs as [|o [|]]; try discriminate. cbn in Hi. injection Hi as ->.
    destruct col; [|reflexivity]. unfold source, first. cbn [where_eq]. rewrite Z.eqb_refl. reflexivity.
  - inversion F as [|? c ? ? (e & A & B) F' E1]; subst. inversion F'; subst. eauto.
Qed.
Print Assumptions c115_one_point_partial.

(** What that means.  Over time, data at the centers: missing outside, and when
    one of the samples in use is missing in the cell. *)
Lemma over_time_missing l ex q e c : (forall u, Plain (e u)) -> OverTime (Some l) ex q e c -> (exists q', TimeOk (Some l) ex q q') ->
  (c = RMask <-> exists u, TakesPart l ex q u /\ e u = RMask) /\ Plain c.
Proof.
  intros Pl O (q' & T). destruct (T l eq_refl) as (SI & Ne & _). cbn [OverTime] in O.
  assert (NN : forall a b, nth_error l 0 = Some a -> nth_error l (length l - 1) = Some b -> (a <= b)%Z).
  { intros a b Ha Hb. destruct (Nat.eq_dec (length l - 1) 0) as [E|E]; [rewrite E in Hb; assert (a = b) by congruence; lia|]. pose proof (SI 0 (length l - 1) a b ltac:(lia) Ha Hb). lia. }
  assert (Inc : forall i j x y, nth_error l i = Some x -> nth_error l j = Some y -> (i <= j)%nat -> (x <= y)%Z).
  { intros i j x y Hx Hy L. destruct (Nat.eq_dec i j) as [->|]; [assert (x = y) by congruence; lia|]. pose proof (SI i j x y ltac:(lia) Hx Hy). lia. }
  (* alone: unique, and nothing around *)
  assert (AU : forall u w, Alone l ex q u -> Alone l ex q w -> u = w).
  { intros u w Hu Hw. assert (D : forall u, Alone l ex q u -> (length l = 1 /\ nth_error l 0 = Some u) \/ (2 <= length l /\ nth_error l 0 = Some u /\ (q <= u)%Z) \/ (2 <= length l /\ nth_error l (length l - 1) = Some u /\ (u <= q)%Z)).
    { intros x Hx. destruct (Nat.eq_dec (length l) 1) as [E|E]; [left; split; [exact E|]; destruct Hx as [(_ & H)|[(H & _)|(H & _)]]; auto; rewrite E in H; exact H|].
      assert (L0 : length l <> 0) by (destruct l; [congruence|discriminate]). destruct Hx as [(H & _)|[(H & B)|(H & B)]]; [contradiction| |]; right; [left|right]; (split; [lia|split; [exact H|destruct B as [->|(_ & B)]; lia]]). }
    apply D in Hu, Hw. destruct Hu as [(A & B)|[(A & B & C)|(A & B & C)]], Hw as [(A' & B')|[(A' & B' & C')|(A' & B' & C')]]; try lia; try congruence.
    - pose proof (SI 0 (length l - 1) u w ltac:(lia) B B'). lia.
    - pose proof (SI 0 (length l - 1) w u ltac:(lia) B' B). lia. }
  assert (AR : forall u t0 t1, Alone l ex q u -> Around l q t0 t1 -> False).
  { intros u t0 t1 Hu (k & H0 & H1 & B & NL). pose proof (nth_error_Some_lt _ _ _ H1) as L1.
    destruct Hu as [(E & _)|[(Hf & C)|(Hl & C)]]; [lia| |].
    - pose proof (Inc 0 k u t0 Hf H0 ltac:(lia)). destruct C as [->|(_ & C)]; lia.
    - pose proof (Inc (S k) (length l - 1) t1 u H1 Hl ltac:(lia)). destruct C as [->|(_ & C)]; [contradiction|lia]. }
  assert (RR : forall t0 t1 u0 u1, Around l q t0 t1 -> Around l q u0 u1 -> t0 = u0 /\ t1 = u1).
  { intros t0 t1 u0 u1 (k & H0 & H1 & B & _) (j & G0 & G1 & B' & _). destruct (Nat.lt_trichotomy k j) as [L|[->|L]]; [|split; congruence|].
    - pose proof (Inc (S k) j t1 u0 H1 G0 ltac:(lia)). lia.
    - pose proof (Inc (S j) k u1 t0 G1 H0 ltac:(lia)). lia. }
  destruct O as [(u & Al & ->)|(t0 & t1 & Ar & Bl)].
  - split; [|apply Pl]. split; [intros E; exists u; split; [left; exact Al|exact E]|]. intros (w & [A|[(t & A)|(t & A)]] & E); [rewrite (AU u w Al A); exact E|exfalso; eauto|exfalso; eauto].
  - destruct Bl as [(M & ->)|(a & b & E0 & E1 & ->)].
    + split; [|now left]. split; [intros _|reflexivity]. destruct M as [M|M]; [exists t0|exists t1]; (split; [|exact M]); right; [left; exists t1|right; exists t0]; exact Ar.
    + split; [|right; eauto]. split; [discriminate|]. intros (w & [A|[(t & A)|(t & A)]] & E); [exfalso; eauto| |].
      * destruct (RR _ _ _ _ Ar A) as (<- & _). congruence.
      * destruct (RR _ _ _ _ Ar A) as (_ & <-). congruence.
Qed.
Theorem c115_centers_missing :
  forall g find place_of loc nr nc v t d p q q' ex (pts : list rspot) depth,
  SameShape g -> isin loc center_names = true -> face_padding (g_pads g) = Ok p -> known2 p ->
  nr >= low_extra (fst p) + (a_r (g_lon g) - 1) -> nc >= low_extra (snd p) + (a_c (g_lon g) - 1) ->
  Finds g find place_of (map fst pts) -> Stores v (Some (t_data t)) None nr nc d -> TimeOk (Some (t_data t)) ex q q' ->
  exists cs, stag_at g find loc [DTime; DLon; DLat] v [length (t_data t); nr; nc] (Some t) depth q ex pts = Ok cs /\
  Forall2 (fun s c => match place_of (fst s) with
     | None => c = RMask
     | Some (i, j, _) => c = RMask <-> exists u, TakesPart (t_data t) ex q u /\ d_mask (a_at (d u 0) (low_extra (fst p) + i) (low_extra (snd p) + j)) = true
     end) pts cs.
Proof.
  intros g find place_of loc nr nc v t d p q q' ex pts depth HS Hl Hp Kp R1 R2 HF HV HT.
  assert (St : Sits g loc nr nc true (fun var => center_expected var p)) by (apply OnCenters; auto).
  destruct (c115_times g find place_of loc nr nc true _ v (Some t) d q q' ex pts depth HS St HF HV HT) as (cs & E & F). exists cs. split; [exact E|].
  revert F. apply Forall2_impl'. intros s c O. cbn [option_map] in O.
  destruct (over_time_missing (t_data t) ex q _ c (fun u => sits_cells g loc nr nc true _ (d u 0) _ St) O (ex_intro _ q' HT)) as (M & _).
  destruct (place_of (fst s)) as [[[i j] lm]|] eqn:Ep.
  - rewrite M. unfold center_expected. cbn [snd]. split; intros (u & A & B); exists u; (split; [exact A|]); destruct (d_mask _); auto; discriminate.
  - apply M. destruct (HT (t_data t) eq_refl) as (_ & Ne & _). unfold center_expected. cbn [snd]. cbn [OverTime] in O.
    destruct O as [(u & A & _)|(t0 & t1 & A & _)]; [exists u|exists t0]; (split; [|reflexivity]); [left; exact A|right; left; eauto].
Qed.
Print Assumptions c115_centers_missing.
(** At the nodes: missing when all four corners are, in one of the samples in use;
    a corner that is missing alone counts as zero. *)
Theorem c115_nodes_missing :
  forall g find place_of loc v t d q q' ex (pts : list rspot) depth,
  let nr := a_r (g_lon g) in let nc := a_c (g_lon g) in
  SameShape g -> isin loc node_names = true -> node_padding (g_pads g) = (PadNone, PadNone) ->
  Finds g find place_of (map fst pts) -> Stores v (Some (t_data t)) None nr nc d -> TimeOk (Some (t_data t)) ex q q' ->
  exists cs, stag_at g find loc [DTime; DLon; DLat] v [length (t_data t); nr; nc] (Some t) depth q ex pts = Ok cs /\
  Forall2 (fun s c => match place_of (fst s) with
     | None => c = RMask
     | Some (i, j, _) => c = RMask <-> exists u, TakesPart (t_data t) ex q u /\
         forall i' j', In i' [i; S i] -> In j' [j; S j] -> d_mask (a_at (d u 0) i' j') = true
     end) pts cs.
Proof.
  intros g find place_of loc v t d q q' ex pts depth nr nc HS Hl Hp HF HV HT.
  assert (St : Sits g loc nr nc false node_expected) by (apply OnNodes; auto).
  destruct (c115_times g find place_of loc nr nc false _ v (Some t) d q q' ex pts depth HS St HF HV HT) as (cs & E & F). exists cs. split; [exact E|].
  revert F. apply Forall2_impl'. intros s c O. cbn [option_map] in O.
  destruct (over_time_missing (t_data t) ex q _ c (fun u => sits_cells g loc nr nc false _ (d u 0) _ St) O (ex_intro _ q' HT)) as (M & _).
  destruct (place_of (fst s)) as [[[i j] [l m]]|] eqn:Ep.
  - rewrite M. unfold node_expected. cbn [snd]. split; intros (u & A & B); exists u; (split; [exact A|]).
    + destruct (_ && _) eqn:X in B; [|discriminate]. repeat (apply andb_true_iff in X as (X & ?)). intros i' j' [<-|[<-|[]]] [<-|[<-|[]]]; auto.
    + rewrite !B by (cbn; auto). reflexivity.
  - apply M. unfold node_expected. cbn [snd]. cbn [OverTime] in O. destruct O as [(u & A & _)|(t0 & t1 & A & _)]; [exists u|exists t0]; (split; [|reflexivity]); [left; exact A|right; left; eauto].
Qed.
Print Assumptions c115_nodes_missing.

(** ** Examples: values at the cells of a grid of 3 x 3 nodes, at four times; the
    cell of the first point is missing at time 0, no other ever is. *)
Definition c115_times_ : list Z := [0; 10; 20; 30]%Z.
Definition c115_data (t : Z) (_ : nat) : arr rd := mkArr 2 2 (fun r c => mkRd (1 + IZR t)%R (Z.eqb t 0 && Nat.eqb r 0 && Nat.eqb c 0)).
Definition c115_var : nvar := mkNvar [4] (fun ix => c115_data (nth (nth 0 ix 0) c115_times_ 0%Z) 0).
Definition c115_time : time_obj := mkTime c115_times_ None None.
Definition c115_ask (q : Z) : result (list rcell) := stag_at ex_g c98_find "center" [DTime; DLon; DLat] c115_var [4; 2; 2] (Some c115_time) None q false c98_pts.
Lemma c115_increasing : StrictlyIncreasing c115_times_.
Proof.
  intros i j a b Hij Ha Hb. destruct i as [|[|[|[|i]]]], j as [|[|[|[|[|j]]]]]; cbn in Ha, Hb; try discriminate; try lia; try (destruct i; discriminate); injection Ha as <-; injection Hb as <-; lia.
Qed.
Lemma c115_ok q : (0 <= q <= 30)%Z -> TimeOk (Some c115_times_) false q q.
Proof. intros B l E. injection E as <-. split; [exact c115_increasing|]. split; [discriminate|]. left. split; [|reflexivity]. exists 0%Z, 30%Z. repeat split; lia. Qed.
Lemma c115_stores : Stores c115_var (Some c115_times_) None 2 2 c115_data.
Proof. split; [reflexivity|]. intros ix t j (i & -> & Hi). cbn [c115_var nv_at nth]. rewrite (nth_error_nth _ _ 0%Z Hi). repeat split. Qed.
Lemma c115_answer q : (0 <= q <= 30)%Z -> exists c1 c2 c3, c115_ask q = Ok [c1; c2; c3] /\
  OverTime (Some c115_times_) false q (fun u => if Z.eqb u 0 then RMask else RVal (1 + IZR u)) c1 /\ OverTime (Some c115_times_) false q (fun _ => RMask) c2 /\
  OverTime (Some c115_times_) false q (fun u => RVal (1 + IZR u)) c3.
Proof.
  intros B. assert (St : Sits ex_g "center" 2 2 true (fun var => center_expected var (PadNone, PadNone))) by (apply OnCenters; [reflexivity|reflexivity|split; discriminate|cbn; lia|cbn; lia]).
  destruct (c115_times ex_g c98_find c98_place "center" 2 2 true _ c115_var (Some c115_time) c115_data q q false c98_pts None (conj eq_refl eq_refl) St c98_found c115_stores (c115_ok q B)) as (cs & E & F).
  unfold c98_pts in F. inversion F as [|? c1 ? r1 F1 F1']; subst. inversion F1' as [|? c2 ? r2 F2 F2']; subst. inversion F2' as [|? c3 ? r3 F3 F3']; subst. inversion F3'; subst.
  exists c1, c2, c3. split; [exact E|]. clear E F F1' F2' F3'. unfold c98_place, center_expected in F1, F2, F3. cbn [fst snd] in F1, F2, F3.
  destruct (Req_EM_T (9/10) (9/10)) as [_|NN]; [|exfalso; apply NN; reflexivity].
  destruct (Req_EM_T 100 (9/10)) as [?|_]; [exfalso; Lra.lra|]. destruct (Req_EM_T 100 (11/4)) as [?|_]; [exfalso; Lra.lra|].
  destruct (Req_EM_T (11/4) (9/10)) as [?|_]; [exfalso; Lra.lra|]. destruct (Req_EM_T (11/4) (11/4)) as [_|NN]; [|exfalso; apply NN; reflexivity].
  cbn [c115_data a_at d_mask d_val low_extra fst snd Nat.add Nat.eqb] in F1, F2, F3.
  split; [|split; [exact F2|]].
  - revert F1. cbn [option_map OverTime c115_time t_data]. intros F1. destruct F1 as [(u & A & ->)|(t0 & t1 & A & Bl)]; [left; exists u; split; [exact A|]; rewrite !andb_true_r; reflexivity|right; exists t0, t1; split; [exact A|]]. rewrite !andb_true_r in Bl. exact Bl.
  - revert F3. cbn [option_map OverTime c115_time t_data]. intros F3. destruct F3 as [(u & A & ->)|(t0 & t1 & A & Bl)]; [left; exists u; split; [exact A|]; rewrite !andb_false_r; reflexivity|right; exists t0, t1; split; [exact A|]]. rewrite !andb_false_r in Bl. exact Bl.
Qed.
(** At 15, between complete samples. *)
Example c115_example : c115_ask 15 = Ok [RVal 16; RMask; RVal 16].
Proof.
  destruct (c115_answer 15 ltac:(lia)) as (c1 & c2 & c3 & -> & O1 & O2 & O3).
  assert (P : forall e c, OverTime (Some c115_times_) false 15 e c -> Blend (e 10%Z) (e 20%Z) (1 / 2) c).
  { intros e c [(u & A & _)|(t0 & t1 & (k & H0 & H1 & B & _) & Bl)].
    - exfalso. destruct A as [(E & _)|[(E & C)|(E & C)]]; [discriminate|injection E as <-; destruct C as [C|(C & _)]; discriminate..].
    - destruct k as [|[|[|[|k]]]]; cbn in H0, H1; try discriminate; injection H0 as <-; injection H1 as <-; try lia. replace (1 / 2)%R with ((15 - 10) / (20 - 10))%R by field. exact Bl. }
  apply P in O1, O2, O3. cbn in O1, O3.
  destruct O2 as [(_ & ->)|(a & b & E & _)]; [|discriminate].
  destruct O1 as [([E|E] & _)|(a & b & Ea & Eb & ->)]; try discriminate. destruct O3 as [([E|E] & _)|(a' & b' & Ea' & Eb' & ->)]; try discriminate.
  injection Ea as <-. injection Eb as <-. injection Ea' as <-. injection Eb' as <-. repeat f_equal; Lra.lra.
Qed.
(** Refuted as users expect it: at the instant 10 of a sample that is complete the
    answer is missing, because the sample before is. *)
Theorem c115_instant_refuted :
  exists g find place_of v t d (s : rspot) i j lm, SameShape g /\ Finds g find place_of [fst s] /\ Stores v (Some (t_data t)) None 2 2 d /\
  place_of (fst s) = Some (i, j, lm) /\ In 10%Z (t_data t) /\ d_mask (a_at (d 10%Z 0) i j) = false /\
  stag_at g find "center" [DTime; DLon; DLat] v [4; 2; 2] (Some t) None 10%Z false [s] = Ok [RMask].
Proof.
  exists ex_g, c98_find, c98_place, c115_var, c115_time, c115_data, ((9/10, 1/5)%R, 2%Q). eexists _, _, _. split; [split; reflexivity|].
  assert (Fs : Finds ex_g c98_find c98_place [(9/10, 1/5)%R]) by (intros p [<-|[]]; apply c98_found; left; reflexivity).
  split; [exact Fs|]. split; [exact c115_stores|].
  assert (Pl : c98_place (9/10, 1/5)%R = Some (0, 0, (18/39, 1/5)%R)).
  { unfold c98_place. cbn [fst]. destruct (Req_EM_T (9/10) (9/10)) as [_|NN]; [reflexivity|exfalso; apply NN; reflexivity]. }
  split; [exact Pl|]. split; [right; left; reflexivity|]. split; [reflexivity|].
  assert (R1 : 2 >= low_extra PadNone + (a_r (g_lon ex_g) - 1)) by (cbn; lia). assert (R2 : 2 >= low_extra PadNone + (a_c (g_lon ex_g) - 1)) by (cbn; lia).
  assert (K : known2 (PadNone, PadNone)) by (split; discriminate). assert (T : TimeOk (Some (t_data c115_time)) false 10 10) by (apply c115_ok; lia).
  assert (Sh : SameShape ex_g) by (split; reflexivity). assert (Fp : face_padding (g_pads ex_g) = Ok (PadNone, PadNone)) by reflexivity.
  assert (L : isin "center" center_names = true) by reflexivity.
  pose proof (c115_centers_missing ex_g c98_find c98_place "center" 2 2 c115_var c115_time c115_data (PadNone, PadNone) 10%Z 10%Z false [((9/10, 1/5)%R, 2%Q)] None Sh L Fp K R1 R2 Fs c115_stores T) as X.
  destruct X as (cs & E & F).
  inversion F as [|? c ? r F1 F1']; subst. inversion F1'; subst. change (length (t_data c115_time)) with 4 in E. refine (eq_trans E _). f_equal. f_equal. cbn [fst] in F1. rewrite Pl in F1. apply F1. exists 0%Z. split; [|reflexivity].
  right. left. exists 10%Z, 0. repeat split; try lia. discriminate.
Qed.
Print Assumptions c115_instant_refuted.
(** And at the nodes: ones everywhere, one corner missing, and the answer is less
    than one. *)
Theorem c115_corner_refuted :
  exists g find place_of v d (s : rspot) x, SameShape g /\ Finds g find place_of [fst s] /\ Stores v None None 3 3 d /\
  (forall t j r c, d_mask (a_at (d t j) r c) = false -> d_val (a_at (d t j) r c) = 1%R) /\
  stag_at g find "node" [DLon; DLat] v [3; 3] None None 0%Z false [s] = Ok [RVal x] /\ (x < 1)%R.
Proof.
  exists ex_g, c98_find, c98_place, (mkNvar [] (fun _ => mkArr 3 3 (fun r c => mkRd 1 (Nat.eqb r 0 && Nat.eqb c 0)))), (fun _ _ => mkArr 3 3 (fun r c => mkRd 1 (Nat.eqb r 0 && Nat.eqb c 0))), ((9/10, 1/5)%R, 2%Q).
  eexists. split; [split; reflexivity|].
  assert (Fs : Finds ex_g c98_find c98_place [(9/10, 1/5)%R]) by (intros p [<-|[]]; apply c98_found; left; reflexivity).
  assert (Ss : Stores (mkNvar [] (fun _ => mkArr 3 3 (fun r c => mkRd 1 (Nat.eqb r 0 && Nat.eqb c 0)))) None None 3 3 (fun _ _ => mkArr 3 3 (fun r c => mkRd 1 (Nat.eqb r 0 && Nat.eqb c 0)))) by (split; [reflexivity|]; intros; repeat split).
  split; [exact Fs|]. split; [exact Ss|]. split; [reflexivity|].
  assert (St : Sits ex_g "node" 3 3 false node_expected) by (apply OnNodes; reflexivity).
  assert (TO : TimeOk None false 0 0) by (intros l X; discriminate).
  destruct (c115_times ex_g c98_find c98_place "node" 3 3 false node_expected _ None _ 0%Z 0%Z false [((9/10, 1/5)%R, 2%Q)] None (conj eq_refl eq_refl) St Fs Ss TO) as (cs & E & F).
  inversion F as [|? c ? r F1 F1']; subst. inversion F1'; subst. change (order_of (some (@None time_obj)) false GStructured) with [DLon; DLat] in E. change (lead_shape 3 3 None) with [3; 3] in E.
  cbn [option_map OverTime] in F1.
  assert (Pl : c98_place (9/10, 1/5)%R = Some (0, 0, (18/39, 1/5)%R)).
  { unfold c98_place. cbn [fst]. destruct (Req_EM_T (9/10) (9/10)) as [_|NN]; [reflexivity|exfalso; apply NN; reflexivity]. }
  cbn [fst] in F1. rewrite Pl in F1. unfold node_expected, or0 in F1. cbn [snd a_at d_mask d_val Nat.eqb andb] in F1. subst c. split; [exact E|]. unfold bilin. Lra.lra.
Qed.
Print Assumptions c115_corner_refuted.
