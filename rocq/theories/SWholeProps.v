(** C98. *)
From Coq Require Import Reals String Lqa Lra Qreals.
From Verif Require Import Common CommonProofs TimeModel TimeSpec VariableModel VariableProofs VariableInterpProofs DepthModel DepthSpec DepthProofs WholeModel WholeSpec WholeProofs
  MaskModel GridTypeModel SGridModel SGridSpec SGridInterpModel SGridInterpSpec SGridInterpRun SGridInterpProps SWholeModel SWholeSpec SWholeProofs.
Open Scope list_scope.
Open Scope nat_scope.

(** With grids that answer vectors this is the interpolation of VariableModel and
    WholeModel. *)
Theorem c98_same_program {P} (interp : list nat -> list P -> result (list cell)) order shape time (depth : option (depth_view (P := P))) q ex pts :
  a_value cell_lerp cell_lerp CMasked CNaN order shape time (option_map (from_view (fun x => x)) depth) q ex (fun ps sl => do v <- grid_xy interp (lead_dims order shape) ps sl; Ok (Vec v)) pts =
  at_grid interp order shape time depth q ex pts.
Proof. exact (same_value order shape time depth q ex (grid_xy interp (lead_dims order shape)) pts). Qed.
Print Assumptions c98_same_program.

(** Without a depth axis, for every location: the grid's answer for the data of
    the time asked. *)
Theorem c98_times_partial :
  forall g find place_of loc nr nc col expct v time f m q q' ex (pts : list rspot) depth,
  SameShape g -> Sits g loc nr nc col expct -> Finds g find place_of (map fst pts) ->
  Holds v (option_map t_data time) None nr nc (fun t _ => f t) (fun _ => m) -> TimeOk (option_map t_data time) ex q q' ->
  stag_at g find loc (order_of (some time) false GStructured) v (lead_shape nr nc time) time depth q ex pts =
  Ok (map (fun s => expct (snap nr nc (f q') m) (fst s, place_of (fst s))) pts).
Proof.
  intros g find place_of loc nr nc col expct v time f m q q' ex pts depth HS St HF HV HT.
  exact (no_depth g find place_of loc nr nc col expct v time None (fun t _ => f t) (fun _ => m) q q' ex pts HS St HF HV HT eq_refl depth).
Qed.
Print Assumptions c98_times_partial.

(** What the depth object answers for the points of a list of levels. *)
Lemma rows_asked ls sbc bbc (pts : list rspot) (z : rspot -> Q) : 2 <= length ls -> Monotone ls ->
  (forall s, In s pts -> DepthAsked ls sbc bbc (snd s) (z s)) ->
  exists rows, l_alphas ls (Some (length ls)) sbc bbc (map snd pts) = Ok rows /\ length rows = length pts /\
    forall k s, nth_error pts k = Some s -> exists i al, nth_error rows k = Some (Some i, Some al) /\
      ((i = -1)%Z /\ (al == 1)%Q /\ First ls (z s) \/ exists j, i = Z.of_nat j /\ (S j < length ls) /\ Bracketed ls (snd s) j al /\ (al < 1)%Q /\ z s = snd s).
Proof.
  intros N Dir Q.
  assert (H1 : Some (length ls) <> Some 1) by (intros X; injection X; lia).
  assert (NB : forall a b, First ls a -> Last ls b -> (Ascending ls -> (a < b)%Q) /\ (Descending ls -> (b < a)%Q)).
  { intros a b Ha Hb. split; intros D; (eapply D; [|exact Ha|exact Hb]); lia. }
  assert (AD : Ascending ls -> Descending ls -> False).
  { intros A D. destruct (ends_exist ls N) as (a & b & Ha & Hb). destruct (NB a b Ha Hb) as (X & Y). specialize (X A). specialize (Y D). Lqa.lra. }
  destruct Dir as [A|D].
  - destruct (l_alphas_asc ls (Some (length ls)) sbc bbc (map snd pts) A N H1) as (rows & Er & Lr & K). exists rows. split; [exact Er|]. rewrite map_length in Lr. split; [exact Lr|].
    intros k p Hp. destruct (K k (snd p)) as (r & Hr & R). { now apply map_nth_error. }
    destruct (Q p (nth_error_In _ _ Hp)) as (a & b & Ha & Hb & C). destruct (R a b Ha Hb) as (R1 & _ & R3).
    destruct C as [(_ & B & Ez)|[(D & _)|[(_ & B & M & Ez)|(D & _)]]]; try (exfalso; eauto; fail).
    + destruct (R3 B) as (i & al & -> & Br & L1). exists (Z.of_nat i), al. split; [exact Hr|]. right. exists i.
      destruct Br as (x & y & Hx & Hy & Br). pose proof (nth_error_Some_lt _ _ _ Hy). repeat split; auto. exists x, y. auto.
    + rewrite (R1 B), M in Hr. exists (-1)%Z, 1%Q. split; [exact Hr|]. left. rewrite Ez. repeat split; auto.
  - destruct (l_alphas_desc ls (Some (length ls)) sbc bbc (map snd pts) D N H1) as (rows & Er & Lr & K). exists rows. split; [exact Er|]. rewrite map_length in Lr. split; [exact Lr|].
    intros k p Hp. destruct (K k (snd p)) as (r & Hr & R). { now apply map_nth_error. }
    destruct (Q p (nth_error_In _ _ Hp)) as (a & b & Ha & Hb & C). destruct (R a b Ha Hb) as (R1 & _ & R3).
    destruct C as [(A & _)|[(_ & B & Ez)|[(A & _)|(_ & B & M & Ez)]]]; try (exfalso; eauto; fail).
    + destruct (R3 B) as (i & al & -> & Br & L1). exists (Z.of_nat i), al. split; [exact Hr|]. right. exists i.
      destruct Br as (x & y & Hx & Hy & Br). pose proof (nth_error_Some_lt _ _ _ Hy). repeat split; auto. exists x, y. auto.
    + rewrite (R1 B), M in Hr. exists (-1)%Z, 1%Q. split; [exact Hr|]. left. rewrite Ez. repeat split; auto.
Qed.
Definition al0 (x : drow) : R := Q2R (match snd x with Some a => a | None => 0%Q end).

Section Levels.
  Context (g : sg) (find : R * R -> option (Z * Z)) (place_of : R * R -> option (nat * nat * (R * R))) (loc : string) (nr nc : nat)
          (col : bool) (expct : arr rd -> located -> rcell) (v : nvar) (time : option time_obj) (ls : list Q)
          (f : Z -> Q -> nat -> nat -> R) (m : nat -> nat -> bool) (q q' : Z) (ex : bool) (pts : list rspot) (sbc bbc : bcond) (z : rspot -> Q).
  Context (HS : SameShape g) (St : Sits g loc nr nc col expct) (HF : Finds g find place_of (map fst pts))
          (HV : Holds v (option_map t_data time) (Some (length ls)) nr nc (fun t j => f t (nth j ls 0%Q)) (fun _ => m))
          (HD : forall t r c, m r c = false -> RLinearInDepth ls (fun d => f t d r c))
          (HT : TimeOk (option_map t_data time) ex q q') (HN : 2 <= length ls) (HM : Monotone ls)
          (HA : forall s, In s pts -> DepthAsked ls sbc bbc (snd s) (z s)).
  Let at_level (d : Q) (s : rspot) := expct (snap nr nc (f q' d) m) (fst s, place_of (fst s)).
  (** Place [s0], depth of [s]. *)
  Lemma level_value rows k s s0 i al : nth_error rows k = Some (Some i, Some al) ->
    ((i = -1)%Z /\ (al == 1)%Q /\ First ls (z s) \/ exists j, i = Z.of_nat j /\ (S j < length ls) /\ Bracketed ls (snd s) j al /\ (al < 1)%Q /\ z s = snd s) ->
    rmix (val_at place_of nr nc expct (fun t j => f t (nth j ls 0%Q)) (fun _ => m) q' (py_level (length ls) i) s0)
          (val_at place_of nr nc expct (fun t j => f t (nth j ls 0%Q)) (fun _ => m) q' (py_level (length ls) (i + 1)) s0) (Q2R al) = at_level (z s) s0.
  Proof.
    clear HS HF HV HT HN HM HA. intros Hr C. unfold at_level, val_at, spot_in. symmetry. apply (sits_mix g loc nr nc col expct); [exact St|].
    apply snap_mix. intros r c Hm. destruct C as [(-> & Ha & F1)|(j & -> & Hj & (x & y & Hx & Hy & Ba & Ez') & _ & Ez)].
    - unfold py_level. cbn [Z.eqb Pos.eqb Z.add Z.pos_sub Z.to_nat]. rewrite (nth_error_nth ls 0 0%Q F1). apply Qeq_eqR in Ha. rewrite Ha. replace (Q2R 1) with 1%R by (unfold Q2R; cbn; field). ring.
    - unfold py_level. destruct (Z.eqb_spec (Z.of_nat j) (-1)); [lia|]. destruct (Z.eqb_spec (Z.of_nat j + 1) (-1)); [lia|].
      replace (Z.of_nat j + 1)%Z with (Z.of_nat (S j)) by lia. rewrite !Nat2Z.id, (nth_error_nth ls j 0%Q Hx), (nth_error_nth ls (S j) 0%Q Hy).
      rewrite (HD q' r c Hm j x y al Hx Hy Ba (z s)); [ring|]. now rewrite Ez.
  Qed.
  Lemma levels_rows : exists rows, l_alphas ls (Some (length ls)) sbc bbc (map snd pts) = Ok rows /\ length rows = length pts /\
    (forall k s, nth_error pts k = Some s -> exists i al, nth_error rows k = Some (Some i, Some al) /\
      ((i = -1)%Z /\ (al == 1)%Q /\ First ls (z s) \/ exists j, i = Z.of_nat j /\ (S j < length ls) /\ Bracketed ls (snd s) j al /\ (al < 1)%Q /\ z s = snd s)) /\
    stag_at g find loc (order_of (some time) true GStructured) v (deep_shape nr nc time (length ls)) time (Some (from_view Q2R (l_view snd ls (Some (length ls)) sbc bbc))) q ex pts =
      Ok (rows_at (map fst rows) (level_row place_of nr nc expct (fun t j => f t (nth j ls 0%Q)) (fun _ => m) pts (length ls) (map fst rows) (map al0 rows) col q')).
  Proof.
    destruct (rows_asked ls sbc bbc pts z HN HM HA) as (rows & Er & Lr & Kr). exists rows. split; [exact Er|]. split; [exact Lr|]. split; [exact Kr|].
    apply (levels_composed g find place_of loc nr nc col expct v time (Some (length ls)) (fun t j => f t (nth j ls 0%Q)) (fun _ => m) q q' ex pts HS St HF HV HT (length ls) eq_refl
      (from_view Q2R (l_view snd ls (Some (length ls)) sbc bbc)) (map fst rows) (map al0 rows)).
    - unfold from_view, l_view, view_rows. cbn [av_alphas dv_alphas]. rewrite Er. cbn [bind fst snd]. rewrite map_map. reflexivity.
    - now rewrite map_length.
    - now rewrite map_length.
    - cbn [from_view av_layers l_view dv_layers]. lia.
    - intros i Hi. unfold drow in *. apply in_map_iff in Hi as (r & Hf & Hr). apply In_nth_error in Hr as (k & Hk).
      destruct (nth_error_lt_Some pts k) as [p Hp]; [rewrite <- Lr; eapply nth_error_Some_lt; eauto|]. destruct (Kr k p Hp) as (i' & al & Hr & C).
      rewrite Hk in Hr. injection Hr as ->. cbn [fst] in Hf. injection Hf as <-. destruct C as [(-> & _)|(j & -> & Hj & _)]; lia.
  Qed.
End Levels.

(** With levels: node and edge data, all points; the answer is the grid's for the
    data of the time and depth asked.  Land masks do not change with time or depth. *)
Theorem c98_levels_partial :
  forall g find place_of loc nr nc expct v time ls f m q q' ex (pts : list rspot) sbc bbc z,
  SameShape g -> Sits g loc nr nc false expct -> Finds g find place_of (map fst pts) ->
  Holds v (option_map t_data time) (Some (length ls)) nr nc (fun t j => f t (nth j ls 0%Q)) (fun _ => m) ->
  (forall t r c, m r c = false -> RLinearInDepth ls (fun d => f t d r c)) ->
  TimeOk (option_map t_data time) ex q q' -> 2 <= length ls -> Monotone ls ->
  (forall s, In s pts -> DepthAsked ls sbc bbc (snd s) (z s)) ->
  stag_at g find loc (order_of (some time) true GStructured) v (deep_shape nr nc time (length ls)) time (Some (from_view Q2R (l_view snd ls (Some (length ls)) sbc bbc))) q ex pts =
  Ok (map (fun s => expct (snap nr nc (f q' (z s)) m) (fst s, place_of (fst s))) pts).
Proof.
  intros g find place_of loc nr nc expct v time ls f m q q' ex pts sbc bbc z HS St HF HV HD HT HN HM HA.
  destruct (levels_rows g find place_of loc nr nc false expct v time ls f m q q' ex pts sbc bbc z HS St HF HV HT HN HM HA) as (rows & _ & Lr & Kr & ->).
  f_equal. apply nth_ext'. intros k. rewrite nth_error_map. unfold drow in *. destruct (nth_error pts k) as [s|] eqn:Ep.
  - destruct (Kr k s Ep) as (i & al & Hr & C). rewrite (rows_at_nth (map fst rows) _ k (Some i)) by (rewrite nth_error_map, Hr; reflexivity).
    cbn [option_map]. f_equal. unfold level_row. cbn [source]. unfold own. rewrite Ep, nth_error_map, Hr. cbn [option_map al0 snd].
    eapply level_value; eauto.
  - cbn [option_map]. apply nth_error_None. rewrite (rows_at_len pts (map fst rows)) by (now rewrite map_length). now apply nth_error_None.
Qed.
Print Assumptions c98_levels_partial.

(** Fields over the plane: node data bilinear in the cells are answered at every
    point that the tree finds, without distortion; other points are masked. *)
Theorem c98_node_fields_partial :
  forall g find place_of loc v time ls (f : Z -> Q -> R * R -> R) q q' ex (pts : list rspot) sbc bbc z,
  let nr := a_r (g_lon g) in let nc := a_c (g_lon g) in let at_node i j := (a_at (g_lon g) i j, a_at (g_lat g) i j) in
  SameShape g -> isin loc node_names = true -> node_padding (g_pads g) = (PadNone, PadNone) -> Finds g find place_of (map fst pts) ->
  Holds v (option_map t_data time) (Some (length ls)) nr nc (fun t k i j => f t (nth k ls 0%Q) (at_node i j)) (fun _ _ _ => false) ->
  (forall t p, RLinearInDepth ls (fun d => f t d p)) -> (forall t d, BilinearInCells g (f t d)) ->
  TimeOk (option_map t_data time) ex q q' -> 2 <= length ls -> Monotone ls ->
  (forall s, In s pts -> DepthAsked ls sbc bbc (snd s) (z s)) ->
  stag_at g find loc (order_of (some time) true GStructured) v (deep_shape nr nc time (length ls)) time (Some (from_view Q2R (l_view snd ls (Some (length ls)) sbc bbc))) q ex pts =
  Ok (map (fun s => match place_of (fst s) with Some _ => RVal (f q' (z s) (fst s)) | None => RMask end) pts).
Proof.
  intros g find place_of loc v time ls f q q' ex pts sbc bbc z nr nc at_node HS Hl Hn HF HV HD HB HT HN HM HA.
  rewrite (c98_levels_partial g find place_of loc nr nc node_expected v time ls (fun t d i j => f t d (at_node i j)) (fun _ _ => false) q q' ex pts sbc bbc z); auto.
  - f_equal. apply map_ext_in. intros s Hs. destruct (HF (fst s)) as (_ & W); [now apply in_map|]. destruct (place_of (fst s)) as [[[r c] [l mm]]|]; [|reflexivity].
    unfold node_expected. cbn [snd snap a_at d_mask andb]. f_equal. unfold or0. cbn [d_mask d_val].
    unfold WellPlaced in W. cbn [snd fst] in W. destruct W as (Cell & U & Pl & _). rewrite <- Pl. symmetry. apply (HB q' (z s) r c l mm Cell U).
  - apply OnNodes; auto.
Qed.
Print Assumptions c98_node_fields_partial.

(** Which layer a depth lies in. *)
Lemma layer_unique ls d i j al : Monotone ls -> Bracketed ls d i al -> (al < 1)%Q -> InLayer ls d j -> i = j.
Proof.
  intros M (x & y & Hx & Hy & Ba & E) L1 (a & b & Ha & Hb & C).
  assert (N : 2 <= length ls) by (pose proof (nth_error_Some_lt _ _ _ Hy); lia).
  destruct C as [(A & B)|(D & B)].
  - assert (X : (x < y)%Q) by (eapply A; [|exact Hx|exact Hy]; lia).
    assert (Ix : (x <= d < y)%Q).
    { rewrite E. assert (0 <= al * (y - x))%Q by (apply Qmult_le_0_compat; Lqa.lra). assert (0 < (1 - al) * (y - x))%Q by (apply Qmult_lt_0_compat; Lqa.lra). Lqa.lra. }
    destruct (Nat.lt_trichotomy i j) as [L|[?|L]]; auto; exfalso.
    + destruct (Nat.eq_dec (S i) j) as [<-|]; [rewrite Hy in Ha; injection Ha as <-; Lqa.lra|]. specialize (A (S i) j y a ltac:(lia) Hy Ha). Lqa.lra.
    + destruct (Nat.eq_dec (S j) i) as [<-|]; [rewrite Hb in Hx; injection Hx as <-; Lqa.lra|]. specialize (A (S j) i b x ltac:(lia) Hb Hx). Lqa.lra.
  - assert (X : (y < x)%Q) by (eapply D; [|exact Hx|exact Hy]; lia).
    assert (Ix : (y < d <= x)%Q).
    { rewrite E. assert (0 <= al * (x - y))%Q by (apply Qmult_le_0_compat; Lqa.lra). assert (0 < (1 - al) * (x - y))%Q by (apply Qmult_lt_0_compat; Lqa.lra). Lqa.lra. }
    destruct (Nat.lt_trichotomy i j) as [L|[?|L]]; auto; exfalso.
    + destruct (Nat.eq_dec (S i) j) as [<-|]; [rewrite Hy in Ha; injection Ha as <-; Lqa.lra|]. specialize (D (S i) j y a ltac:(lia) Hy Ha). Lqa.lra.
    + destruct (Nat.eq_dec (S j) i) as [<-|]; [rewrite Hb in Hx; injection Hx as <-; Lqa.lra|]. specialize (D (S j) i b x ltac:(lia) Hb Hx). Lqa.lra.
Qed.
Lemma in_layer_asked ls sbc bbc d j : 2 <= length ls -> InLayer ls d j -> DepthAsked ls sbc bbc d d.
Proof.
  intros N (a & b & Ha & Hb & C). destruct (ends_exist ls N) as (x & y & Hx & Hy). exists x, y. split; [exact Hx|]. split; [exact Hy|].
  pose proof (nth_error_Some_lt _ _ _ Hb) as Lj. unfold First in Hx. unfold Last in Hy.
  destruct C as [(A & B)|(D & B)].
  - left. split; [auto|]. split; [|auto]. split.
    + destruct (Nat.eq_dec j 0) as [->|]; [rewrite Ha in Hx; injection Hx as <-; Lqa.lra|]. specialize (A 0 j x a ltac:(lia) Hx Ha). Lqa.lra.
    + destruct (Nat.eq_dec (S j) (length ls - 1)) as [E|]; [rewrite <- E, Hb in Hy; injection Hy as <-; Lqa.lra|]. specialize (A (S j) (length ls - 1) b y ltac:(lia) Hb Hy). Lqa.lra.
  - right. left. split; [auto|]. split; [|auto]. split.
    + destruct (Nat.eq_dec (S j) (length ls - 1)) as [E|]; [rewrite <- E, Hb in Hy; injection Hy as <-; Lqa.lra|]. specialize (D (S j) (length ls - 1) b y ltac:(lia) Hb Hy). Lqa.lra.
    + destruct (Nat.eq_dec j 0) as [->|]; [rewrite Ha in Hx; injection Hx as <-; Lqa.lra|]. specialize (D 0 j x a ltac:(lia) Hx Ha). Lqa.lra.
Qed.
Lemma monotone_layer ls d j : InLayer ls d j -> Monotone ls.
Proof. intros (a & b & _ & _ & [(A & _)|(D & _)]); [left|right]; auto. Qed.

Lemma rows_layer ls sbc bbc (pts : list rspot) (lay : rspot -> nat) : 2 <= length ls -> Monotone ls ->
  (forall s, In s pts -> InLayer ls (snd s) (lay s)) ->
  exists rows, l_alphas ls (Some (length ls)) sbc bbc (map snd pts) = Ok rows /\ length rows = length pts /\
    forall k s, nth_error pts k = Some s -> exists al, nth_error rows k = Some (Some (Z.of_nat (lay s)), Some al) /\ lay s < length ls - 1.
Proof.
  intros HN HM HL.
  destruct (rows_asked ls sbc bbc pts snd HN HM) as (rows & Er & Lr & Kr). { intros s Hs. eapply in_layer_asked; eauto. }
  exists rows. split; [exact Er|]. split; [exact Lr|].
  intros k s Hs. pose proof (nth_error_In _ _ Hs) as Is. destruct (HL s Is) as (a & b & Ha & Hb & B). pose proof (nth_error_Some_lt _ _ _ Hb).
    destruct (Kr k s Hs) as (i & al & Hr & [(-> & _ & F1)|(j & -> & Hj & Br & L1 & _)]).
    - (* not above the first level, unless at it; but there the layer is 0 *)
      exfalso. unfold First in F1.
      assert (Q0 : exists r, nth_error rows k = Some r /\ forall i', fst r = Some i' -> (0 <= i')%Z).
      { assert (H1 : Some (length ls) <> Some 1) by (intros X; injection X; lia).
        destruct (in_layer_asked ls sbc bbc (snd s) (lay s) HN (HL s Is)) as (x & y & Hx & Hy & C).
        assert (AD : Ascending ls -> Descending ls -> False).
        { intros A D. pose proof (A 0 (length ls - 1) x y ltac:(lia) Hx Hy). pose proof (D 0 (length ls - 1) x y ltac:(lia) Hx Hy). Lqa.lra. }
        destruct B as [(A & _)|(D & _)].
        - destruct (l_alphas_asc ls (Some (length ls)) sbc bbc (map snd pts) A HN H1) as (rows' & Er' & _ & K). rewrite Er in Er'. injection Er' as <-.
          destruct (K k (snd s)) as (r & Hr' & R). { now apply map_nth_error. } exists r. split; [exact Hr'|]. destruct (R x y Hx Hy) as (_ & _ & R3).
          destruct C as [(_ & B & _)|[(D & _)|[(_ & B & _ & Ez)|(D & _)]]]; try (exfalso; eauto; fail).
          + destruct (R3 B) as (i & al' & -> & _). cbn. intros i' E. injection E as <-. lia.
          + exfalso. rewrite Ez in B. Lqa.lra.
        - destruct (l_alphas_desc ls (Some (length ls)) sbc bbc (map snd pts) D HN H1) as (rows' & Er' & _ & K). rewrite Er in Er'. injection Er' as <-.
          destruct (K k (snd s)) as (r & Hr' & R). { now apply map_nth_error. } exists r. split; [exact Hr'|]. destruct (R x y Hx Hy) as (_ & _ & R3).
          destruct C as [(A & _)|[(_ & B & _)|[(A & _)|(_ & B & _ & Ez)]]]; try (exfalso; eauto; fail).
          + destruct (R3 B) as (i & al' & -> & _). cbn. intros i' E. injection E as <-. lia.
          + exfalso. rewrite Ez in B. Lqa.lra. }
      destruct Q0 as (r & Hr' & Q0). rewrite Hr in Hr'. injection Hr' as <-. specialize (Q0 _ eq_refl). lia.
    - exists al. rewrite <- (layer_unique ls (snd s) j (lay s) al HM Br L1 (HL s Is)). split; [exact Hr|lia].
Qed.

(** Data on layers (one value between each two levels), for every location: the
    answer is the grid's for the layer of the point. *)
Theorem c98_layers_partial :
  forall g find place_of loc nr nc col expct v time ls f m q q' ex (pts : list rspot) sbc bbc lay,
  SameShape g -> Sits g loc nr nc col expct -> Finds g find place_of (map fst pts) ->
  Holds v (option_map t_data time) (Some (length ls - 1)) nr nc f m ->
  TimeOk (option_map t_data time) ex q q' -> 2 <= length ls -> Monotone ls ->
  (forall s, In s pts -> InLayer ls (snd s) (lay s)) ->
  stag_at g find loc (order_of (some time) true GStructured) v (deep_shape nr nc time (length ls - 1)) time (Some (from_view Q2R (l_view snd ls (Some (length ls)) sbc bbc))) q ex pts =
  Ok (map (fun s => expct (snap nr nc (f q' (lay s)) (m (lay s))) (fst s, place_of (fst s))) pts).
Proof.
  intros g find place_of loc nr nc col expct v time ls f m q q' ex pts sbc bbc lay HS St HF HV HT HN HM HL.
  destruct (rows_layer ls sbc bbc pts lay HN HM HL) as (rows & Er & Lr & Kl).
  etransitivity; [apply (layers_composed g find place_of loc nr nc col expct v time (Some (length ls - 1)) f m q q' ex pts HS St HF HV HT (length ls - 1) eq_refl
      (from_view Q2R (l_view snd ls (Some (length ls)) sbc bbc)) (map fst rows) (map al0 rows))|].
  - unfold from_view, l_view, view_rows. cbn [av_alphas dv_alphas]. rewrite Er. cbn [bind fst snd]. rewrite map_map. reflexivity.
  - now rewrite map_length.
  - now rewrite map_length.
  - reflexivity.
  - intros i Hi. unfold drow in *. apply in_map_iff in Hi as (r & Hf & Hr). apply In_nth_error in Hr as (k & Hk).
    destruct (nth_error_lt_Some pts k) as [p Hp]; [rewrite <- Lr; eapply nth_error_Some_lt; eauto|]. destruct (Kl k p Hp) as (al & Hr & Lj).
    rewrite Hk in Hr. injection Hr as ->. cbn [fst] in Hf. injection Hf as <-. lia.
  - f_equal. apply nth_ext'. intros k. rewrite nth_error_map. unfold drow in *. destruct (nth_error pts k) as [s|] eqn:Ep.
    + destruct (Kl k s Ep) as (al & Hr & Lj). rewrite (rows_at_nth (map fst rows) _ k (Some (Z.of_nat (lay s)))) by (rewrite nth_error_map, Hr; reflexivity).
      cbn [option_map]. f_equal. unfold layer_row. rewrite Ep. unfold val_at, py_level, spot_in. destruct (Z.eqb_spec (Z.of_nat (lay s)) (-1)); [lia|]. now rewrite Nat2Z.id.
    + cbn [option_map]. apply nth_error_None. rewrite (rows_at_len pts (map fst rows)) by (now rewrite map_length). now apply nth_error_None.
Qed.
Print Assumptions c98_layers_partial.

(** ** One value per cell, on levels *)
Lemma find_first (lay : rspot -> nat) j : forall l pre,
  hd_error (gather (pre ++ l) (where_eq (length pre) (map (fun s => Some (Z.of_nat (lay s))) l) (Z.of_nat j))) = List.find (fun s => Nat.eqb (lay s) j) l.
Proof.
  induction l as [|s l IH]; intros pre; [reflexivity|]. cbn [map where_eq List.find].
  assert (E : gather (pre ++ s :: l) (where_eq (S (length pre)) (map (fun s => Some (Z.of_nat (lay s))) l) (Z.of_nat j)) =
              gather ((pre ++ [s]) ++ l) (where_eq (length (pre ++ [s])) (map (fun s => Some (Z.of_nat (lay s))) l) (Z.of_nat j))).
  { rewrite app_length, <- app_assoc. cbn [app length]. now rewrite Nat.add_1_r. }
  destruct (Nat.eqb_spec (lay s) j) as [->|N].
  - rewrite Z.eqb_refl. cbn [gather flat_map]. rewrite nth_error_app2, Nat.sub_diag by lia. reflexivity.
  - destruct (Z.eqb_spec (Z.of_nat (lay s)) (Z.of_nat j)); [lia|]. rewrite E. apply IH.
Qed.
(** What the code answers: at each point the column of the first point of the
    question that lies in the same layer. *)
Theorem c98_centers_on_levels :
  forall g find place_of loc nr nc expct v time ls f m q q' ex (pts : list rspot) sbc bbc lay,
  SameShape g -> Sits g loc nr nc true expct -> Finds g find place_of (map fst pts) ->
  Holds v (option_map t_data time) (Some (length ls)) nr nc (fun t j => f t (nth j ls 0%Q)) (fun _ => m) ->
  (forall t r c, m r c = false -> RLinearInDepth ls (fun d => f t d r c)) ->
  TimeOk (option_map t_data time) ex q q' -> 2 <= length ls -> Monotone ls ->
  (forall s, In s pts -> InLayer ls (snd s) (lay s)) ->
  stag_at g find loc (order_of (some time) true GStructured) v (deep_shape nr nc time (length ls)) time (Some (from_view Q2R (l_view snd ls (Some (length ls)) sbc bbc))) q ex pts =
  Ok (map (fun s => match List.find (fun s' => Nat.eqb (lay s') (lay s)) pts with
                    | Some s0 => expct (snap nr nc (f q' (snd s)) m) (fst s0, place_of (fst s0))
                    | None => RNaN end) pts).
Proof.
  intros g find place_of loc nr nc expct v time ls f m q q' ex pts sbc bbc lay HS St HF HV HD HT HN HM HL.
  assert (HA : forall s, In s pts -> DepthAsked ls sbc bbc (snd s) (snd s)) by (intros; eapply in_layer_asked; eauto).
  destruct (rows_layer ls sbc bbc pts lay HN HM HL) as (rows' & Er' & _ & Kl).
  destruct (levels_rows g find place_of loc nr nc true expct v time ls f m q q' ex pts sbc bbc snd HS St HF HV HT HN HM HA) as (rows & Er & Lr & Kr & ->).
  rewrite Er' in Er. injection Er as ->. unfold drow in *.
  assert (EI : map fst rows = map (fun s => Some (Z.of_nat (lay s))) pts).
  { apply nth_ext'. intros k. rewrite !nth_error_map. destruct (nth_error pts k) as [s|] eqn:Ep.
    - destruct (Kl k s Ep) as (al & -> & _). reflexivity.
    - cbn. rewrite (proj2 (nth_error_None rows k)); [reflexivity|]. rewrite Lr. now apply nth_error_None. }
  f_equal. apply nth_ext'. intros k. rewrite nth_error_map. destruct (nth_error pts k) as [s|] eqn:Ep.
  - destruct (Kr k s Ep) as (i & al & Hr & C). destruct (Kl k s Ep) as (al' & Hr' & _). rewrite Hr in Hr'. injection Hr' as -> <-.
    rewrite (rows_at_nth (map fst rows) _ k (Some (Z.of_nat (lay s)))) by (rewrite nth_error_map, Hr; reflexivity).
    cbn [option_map]. f_equal. unfold level_row. cbn [source]. unfold first. rewrite EI. pose proof (find_first lay (lay s) pts []) as FF. cbn [app length] in FF. rewrite FF.
    rewrite nth_error_map, Hr. cbn [option_map al0 snd]. destruct (List.find _ pts) as [s0|]; [|reflexivity].
    eapply level_value; eauto.
  - cbn [option_map]. apply nth_error_None. rewrite (rows_at_len pts (map fst rows)) by (now rewrite map_length). now apply nth_error_None.
Qed.
Print Assumptions c98_centers_on_levels.
(** Asked one point at a time the answer is right. *)
Theorem c98_one_point_partial :
  forall g find place_of loc nr nc col expct v time ls f m q q' ex (s : rspot) sbc bbc z,
  SameShape g -> Sits g loc nr nc col expct -> Finds g find place_of [fst s] ->
  Holds v (option_map t_data time) (Some (length ls)) nr nc (fun t j => f t (nth j ls 0%Q)) (fun _ => m) ->
  (forall t r c, m r c = false -> RLinearInDepth ls (fun d => f t d r c)) ->
  TimeOk (option_map t_data time) ex q q' -> 2 <= length ls -> Monotone ls -> DepthAsked ls sbc bbc (snd s) z ->
  stag_at g find loc (order_of (some time) true GStructured) v (deep_shape nr nc time (length ls)) time (Some (from_view Q2R (l_view snd ls (Some (length ls)) sbc bbc))) q ex [s] =
  Ok [expct (snap nr nc (f q' z) m) (fst s, place_of (fst s))].
Proof.
  intros g find place_of loc nr nc col expct v time ls f m q q' ex s sbc bbc z HS St HF HV HD HT HN HM HA.
  assert (HA' : forall s', In s' [s] -> DepthAsked ls sbc bbc (snd s') z) by (intros s' [<-|[]]; exact HA).
  destruct (levels_rows g find place_of loc nr nc col expct v time ls f m q q' ex [s] sbc bbc (fun _ => z) HS St HF HV HT HN HM HA') as (rows & _ & Lr & Kr & ->).
  unfold drow in *. destruct rows as [|r [|]]; try discriminate. destruct (Kr 0 s eq_refl) as (i & al & Hr & C). injection Hr as ->.
  f_equal. unfold rows_at, level_row. cbn [map fst snd length seq combine nth_error al0]. f_equal.
  assert (E : source [s] [Some i] col i 0 = Some s).
  { unfold source. destruct col; [|reflexivity]. unfold first. cbn [where_eq]. rewrite Z.eqb_refl. reflexivity. }
  rewrite E. apply (level_value g place_of loc nr nc col expct ls f m q' (fun _ => z) St HD [(Some i, Some al)] 0 s s i al); auto.
Qed.
Print Assumptions c98_one_point_partial.

(** ** A grid of 3 x 3 nodes (SGridInterpProps), two points in different cells and one outside. *)
Definition c98_place (p : R * R) : option (nat * nat * (R * R)) :=
  if Req_EM_T (fst p) (9/10)%R then Some (0, 0, (18/39, 1/5)%R) else if Req_EM_T (fst p) (11/4)%R then Some (1, 1, (1/2, 0)%R) else None.
Definition c98_find (p : R * R) : option (Z * Z) := where_ (p, c98_place p).
Definition c98_pts : list rspot := [((9/10, 1/5)%R, 2%Q); ((100, 100)%R, 2%Q); ((11/4, 1)%R, 3%Q)].
Definition c98_levels : list Q := [0; 4; 10]%Q.
Lemma c98_found : Finds ex_g c98_find c98_place (map fst c98_pts).
Proof.
  intros p Hp. split; [reflexivity|]. pose proof ex_placed as W. unfold ex_ps in W. inversion W as [|? ? W1 W2]; subst. inversion W2 as [|? ? _ W3]; subst. inversion W3 as [|? ? W4 _]; subst.
  cbn [map c98_pts fst] in Hp. destruct Hp as [<-|[<-|[<-|[]]]]; unfold c98_place; cbn [fst].
  - destruct (Req_EM_T (9/10) (9/10)) as [_|NN]; [exact W1|exfalso; apply NN; reflexivity].
  - destruct (Req_EM_T 100 (9/10)) as [?|?]; [exfalso; Lra.lra|]. destruct (Req_EM_T 100 (11/4)) as [?|?]; [exfalso; Lra.lra|]. exact I.
  - destruct (Req_EM_T (11/4) (9/10)) as [?|?]; [exfalso; Lra.lra|]. destruct (Req_EM_T (11/4) (11/4)) as [_|NN]; [exact W4|exfalso; apply NN; reflexivity].
Qed.
Lemma c98_layer s : In s c98_pts -> InLayer c98_levels (snd s) 0.
Proof.
  intros Hs. exists 0%Q, 4%Q. split; [reflexivity|]. split; [reflexivity|]. left. split.
  - intros i j x y L Hx Hy. destruct i as [|[|[|i]]], j as [|[|[|j]]]; cbn in Hx, Hy; try lia; try (destruct i; discriminate); try (destruct j; discriminate);
      injection Hx as <-; injection Hy as <-; reflexivity.
  - cbn in Hs. destruct Hs as [<-|[<-|[<-|[]]]]; cbn [snd]; split; Lqa.lra.
Qed.
(** Node data x + 2 y + 3 z + t at times 0 and 10, asked at time 5. *)
Definition c98_field (t : Z) (d : Q) (p : R * R) : R := (IZR t + 3 * Q2R d + fst p + 2 * snd p)%R.
Definition c98_var (at_ : Z -> Q -> nat -> nat -> R) : nvar :=
  mkNvar [2; 3] (fun ix => mkArr 3 3 (fun i j => mkRd (at_ (nth (nth 0 ix 0) [0; 10]%Z 0%Z) (nth (nth 1 ix 0) c98_levels 0%Q) i j) false)).
Definition c98_time : time_obj := mkTime [0; 10]%Z None None.
Lemma c98_asc : Ascending c98_levels.
Proof. destruct (c98_layer ((9/10, 1/5)%R, 2%Q)) as (a & b & _ & _ & [(A & _)|(D & _)]); [now left|exact A|]. specialize (D 0 1 0%Q 4%Q ltac:(lia) eq_refl eq_refl). Lqa.lra. Qed.
Lemma c98_asked s : In s c98_pts -> DepthAsked c98_levels DepthModel.BMask DepthModel.BMask (snd s) (snd s).
Proof. intros Hs. apply (in_layer_asked _ _ _ _ 0); [cbn; lia|]. now apply c98_layer. Qed.
Lemma c98_time_ok : TimeOk (Some [0; 10]%Z) false 5 5.
Proof.
  intros l E. injection E as <-. split; [|split; [discriminate|]].
  - intros i j x y L Hx Hy. destruct i as [|[|i]], j as [|[|j]]; cbn in Hx, Hy; try lia; try (destruct i; discriminate); try (destruct j; discriminate).
    injection Hx as <-. injection Hy as <-. lia.
  - left. split; [|reflexivity]. exists 0%Z, 10%Z. repeat split; lia.
Qed.
Lemma c98_holds (at_ : Z -> Q -> nat -> nat -> R) : (forall d i j, exists k, forall t, at_ t d i j = (k + IZR t)%R) ->
  Holds (c98_var at_) (Some [0; 10]%Z) (Some 3) 3 3 (fun t j => at_ t (nth j c98_levels 0%Q)) (fun _ _ _ => false).
Proof.
  intros H. split; [reflexivity|]. split.
  - intros ix t j (i & -> & Hi & Hj). split; [reflexivity|]. split; [reflexivity|]. intros r c. split; [reflexivity|]. intros _.
    destruct i as [|[|i]]; [injection Hi as <-; reflexivity|injection Hi as <-; reflexivity|destruct i; discriminate].
  - intros l r c k E _. injection E as <-. intros i t0 t1 q _ _ _. destruct (H (nth k c98_levels 0%Q) r c) as (x & Hx). rewrite !Hx. ring.
Qed.
Lemma c98_linear (h : Q -> R) c k : (forall d, h d = c + k * Q2R d)%R -> forall ls, RLinearInDepth ls h.
Proof.
  intros H ls i a b s _ _ _ z Hz. apply Qeq_eqR in Hz. rewrite !H, Hz, Q2R_plus, Q2R_mult, Q2R_minus. ring.
Qed.
Example c98_example :
  stag_at ex_g c98_find "node" [DTime; DDepth; DLon; DLat]
    (c98_var (fun t d i j => c98_field t d (ex_lon i j, ex_lat i j))) [2; 3; 3; 3] (Some c98_time)
    (Some (from_view Q2R (l_view snd c98_levels (Some 3) DepthModel.BMask DepthModel.BMask))) 5 false c98_pts
  = Ok [RVal (123 / 10)%R; RMask; RVal (75 / 4)%R].
Proof.
  pose proof (c98_node_fields_partial ex_g c98_find c98_place "node" (c98_var (fun t d i j => c98_field t d (ex_lon i j, ex_lat i j))) (Some c98_time) c98_levels
    c98_field 5 5 false c98_pts DepthModel.BMask DepthModel.BMask snd) as T. cbn zeta in T.
  assert (E : order_of (some (Some c98_time)) true GStructured = [DTime; DDepth; DLon; DLat]) by reflexivity. rewrite E in T. etransitivity; [apply T|]; clear T E.
  - split; reflexivity.
  - reflexivity.
  - reflexivity.
  - apply c98_found.
  - apply (c98_holds (fun t d i j => c98_field t d (ex_lon i j, ex_lat i j))). intros d i j. unfold c98_field. cbn [fst snd]. exists (3 * Q2R d + ex_lon i j + 2 * ex_lat i j)%R. intros t. ring.
  - intros t p. apply (c98_linear _ (IZR t + fst p + 2 * snd p)%R 3%R). intros d. unfold c98_field. ring.
  - intros t d r c l m _ _. unfold c98_field, place, cell_quad, bilin. cbn [q00 q01 q10 q11 fst snd]. ring.
  - apply c98_time_ok.
  - cbn. lia.
  - left. apply c98_asc.
  - apply c98_asked.
  - cbn [map c98_pts fst snd]. unfold c98_place. cbn [fst].
    destruct (Req_EM_T (9/10) (9/10)) as [_|NN]; [|exfalso; apply NN; reflexivity].
    destruct (Req_EM_T 100 (9/10)) as [?|?]; [exfalso; Lra.lra|]. destruct (Req_EM_T 100 (11/4)) as [?|?]; [exfalso; Lra.lra|].
    destruct (Req_EM_T (11/4) (9/10)) as [?|?]; [exfalso; Lra.lra|]. destruct (Req_EM_T (11/4) (11/4)) as [_|NN]; [|exfalso; apply NN; reflexivity].
    unfold c98_field. cbn [fst snd]. assert (E2 : Q2R 2 = 2%R) by (unfold Q2R; cbn; field). assert (E3 : Q2R 3 = 3%R) by (unfold Q2R; cbn; field). rewrite E2, E3.
    repeat (f_equal; try Lra.lra).
Qed.

(** The value of a cell, on levels, asked at two points of one layer in different
    cells: the second answer is not that of its own cell. *)
Theorem c98_centers_on_levels_refuted :
  exists g find place_of expct v ls f (pts : list rspot),
  SameShape g /\ Sits g "center" 2 2 true expct /\ Finds g find place_of (map fst pts) /\
  Holds v None (Some (length ls)) 2 2 (fun _ j => f (nth j ls 0%Q)) (fun _ _ _ => false) /\
  (forall r c, RLinearInDepth ls (fun d => f d r c)) /\ 2 <= length ls /\ Monotone ls /\ (forall s, In s pts -> InLayer ls (snd s) 0) /\
  stag_at g find "center" [DDepth; DLon; DLat] v [length ls; 2; 2] None (Some (from_view Q2R (l_view snd ls (Some (length ls)) DepthModel.BMask DepthModel.BMask))) 0 false pts <>
  Ok (map (fun s => expct (snap 2 2 (f (snd s)) (fun _ _ => false)) (fst s, place_of (fst s))) pts).
Proof.
  set (f := fun (d : Q) (r c : nat) => (INR r + Q2R d)%R).
  assert (HV : Holds (mkNvar [3] (fun ix => mkArr 2 2 (fun r c => mkRd (f (nth (nth 0 ix 0) c98_levels 0%Q) r c) false))) None (Some 3) 2 2 (fun _ j => f (nth j c98_levels 0%Q)) (fun _ _ _ => false)).
  { split; [reflexivity|]. split; [|discriminate]. intros ix t j (-> & Hj). repeat split; reflexivity. }
  assert (HL : forall r c, RLinearInDepth c98_levels (fun d => f d r c)).
  { intros r c. apply (c98_linear _ (INR r) 1%R). intros d. unfold f. ring. }
  assert (St : Sits ex_g "center" 2 2 true (fun var => center_expected var (PadNone, PadNone))).
  { apply OnCenters; [reflexivity|reflexivity|split; discriminate|cbn; lia|cbn; lia]. }
  exists ex_g, c98_find, c98_place, (fun var => center_expected var (PadNone, PadNone)), (mkNvar [3] (fun ix => mkArr 2 2 (fun r c => mkRd (f (nth (nth 0 ix 0) c98_levels 0%Q) r c) false))), c98_levels, f, c98_pts.
  split; [split; reflexivity|]. split; [exact St|]. split; [apply c98_found|]. split; [exact HV|]. split; [exact HL|]. split; [cbn; lia|]. split; [left; apply c98_asc|]. split; [apply c98_layer|].
  pose proof (c98_centers_on_levels ex_g c98_find c98_place "center" 2 2 (fun var => center_expected var (PadNone, PadNone))
    (mkNvar [3] (fun ix => mkArr 2 2 (fun r c => mkRd (f (nth (nth 0 ix 0) c98_levels 0%Q) r c) false))) None c98_levels (fun _ => f) (fun _ _ => false) 0 0 false c98_pts DepthModel.BMask DepthModel.BMask (fun _ => 0)
    (conj eq_refl eq_refl) St c98_found HV (fun _ r c _ => HL r c)) as T.
  change (order_of (some (@None time_obj)) true GStructured) with [DDepth; DLon; DLat] in T. change (deep_shape 2 2 None (length c98_levels)) with [length c98_levels; 2; 2] in T.
  rewrite T; clear T; [|intros l E; discriminate|cbn; lia|left; apply c98_asc|apply c98_layer].
  cbn [map c98_pts fst snd List.find Nat.eqb]. intros E. assert (E1 := f_equal (fun r => match r with Ok l => nth 2 l RNaN | _ => RNaN end) E). cbn [nth] in E1. clear E. rename E1 into E. unfold center_expected, c98_place in E. cbn [fst snd] in E.
  destruct (Req_EM_T (9/10) (9/10)) as [_|NN]; [|exfalso; apply NN; reflexivity].
  destruct (Req_EM_T (11/4) (9/10)) as [?|?]; [exfalso; Lra.lra|]. destruct (Req_EM_T (11/4) (11/4)) as [_|NN]; [|exfalso; apply NN; reflexivity].
  cbn [snap a_at d_mask d_val low_extra Nat.add] in E. injection E as E. unfold f in E. cbn [INR] in E. Lra.lra.
Qed.
Print Assumptions c98_centers_on_levels_refuted.
(** One value per cell and layer, no time. *)
Example c98_layers_example :
  stag_at ex_g c98_find "face" [DDepth; DLon; DLat]
    (mkNvar [2] (fun ix => mkArr 2 2 (fun r c => mkRd (7 * INR (nth 0%nat ix 0%nat) + INR r + 1)%R false))) [2; 2; 2] None
    (Some (from_view Q2R (l_view snd c98_levels (Some 3) DepthModel.BMask DepthModel.BMask))) 0 false c98_pts
  = Ok [RVal 1%R; RMask; RVal 2%R].
Proof.
  pose proof (c98_layers_partial ex_g c98_find c98_place "face" 2 2 true (fun var => center_expected var (PadNone, PadNone))
    (mkNvar [2] (fun ix => mkArr 2 2 (fun r c => mkRd (7 * INR (nth 0%nat ix 0%nat) + INR r + 1)%R false))) None c98_levels
    (fun _ k r _ => 7 * INR k + INR r + 1)%R (fun _ _ _ => false) 0 0 false c98_pts DepthModel.BMask DepthModel.BMask (fun _ => 0)) as T.
  etransitivity; [apply T|]; clear T.
  - split; reflexivity.
  - apply OnCenters; [reflexivity|reflexivity|split; discriminate|cbn; lia|cbn; lia].
  - apply c98_found.
  - split; [reflexivity|]. split; [|discriminate]. intros ix t j (-> & Hj). repeat split; reflexivity.
  - intros l E. discriminate.
  - cbn. lia.
  - left. apply c98_asc.
  - apply c98_layer.
  - cbn [map c98_pts fst snd]. unfold center_expected, c98_place. cbn [fst snd].
    destruct (Req_EM_T (9/10) (9/10)) as [_|NN]; [|exfalso; apply NN; reflexivity].
    destruct (Req_EM_T 100 (9/10)) as [?|?]; [exfalso; Lra.lra|]. destruct (Req_EM_T 100 (11/4)) as [?|?]; [exfalso; Lra.lra|].
    destruct (Req_EM_T (11/4) (9/10)) as [?|?]; [exfalso; Lra.lra|]. destruct (Req_EM_T (11/4) (11/4)) as [_|NN]; [|exfalso; apply NN; reflexivity].
    cbn [snap a_at d_mask d_val low_extra Nat.add fst snd INR]. repeat (f_equal; try Lra.lra).
Qed.
