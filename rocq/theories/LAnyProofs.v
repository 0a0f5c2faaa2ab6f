(** Lemmas about data on layers asked above the first level. *)
From Coq Require Import String Lqa.
From Verif Require Import Common CommonProofs TimeModel TimeSpec TimeProofs VariableModel VariableSpec VariableProofs VariableInterpProofs VariableAtProofs
  DepthModel DepthSpec DepthProofs DepthAtProofs WholeModel WholeSpec WholeProofs WMaskSpec WMaskProofs SWholeSpec AnyDepthSpec LayerSpec LayerProofs UpProofs LAboveProps.
Open Scope list_scope.
Open Scope nat_scope.

(** [v] is [v0], except for the points above [a]: these are NaN. *)
Definition Above (a : Q) (pts : list spot) (v0 v : list cell) : Prop :=
  length v0 = length pts /\ length v = length pts /\
  forall k s, nth_error pts k = Some s -> ((deep s < a)%Q -> nth_error v k = Some CNaN) /\ (~ (deep s < a)%Q -> nth_error v k = nth_error v0 k).

Section Loop.
  Context {P : Type} (val : list P -> list Z -> result (list cell)) (slices : list Z) (pts : list P) (idxs : list (option Z)) (f : Z -> P -> cell).
  Context (HL : length idxs = length pts) (V0 : forall ps, val ps (slices ++ [0%Z]) = Ok (map (f 0%Z) ps)).
  Lemma layer_loop_above us : forall values, (forall i ps, In i us -> i <> (-1)%Z -> val ps (slices ++ [i]) = Ok (map (f i) ps)) -> length values = length pts ->
    exists vs, layer_loop val slices pts idxs us values = Ok vs /\ length vs = length pts /\
      (forall k, nth_error idxs k = Some None -> nth_error vs k = nth_error values k) /\
      forall k i p, nth_error idxs k = Some (Some i) -> nth_error pts k = Some p -> i <> (-1)%Z -> In i us \/ nth_error values k = Some (f i p) -> nth_error vs k = Some (f i p).
  Proof.
    induction us as [|u us IH]; intros values V L; cbn [layer_loop]. { exists values. repeat split; auto. intros k i p _ _ _ [[]|H]; exact H. }
    set (x := if (u =? -1)%Z then 0%Z else u). assert (Vx : forall ps, val ps (slices ++ [x]) = Ok (map (f x) ps)).
    { intros ps. unfold x. destruct (Z.eqb_spec u (-1)); [apply V0|apply V; [left; reflexivity|auto]]. }
    rewrite Vx. cbn [bind]. set (l := where_eq 0 idxs x).
    assert (B : forall j, In j l -> j < length pts). { intros j Hj. apply where_eq_in in Hj as (m & -> & Hm). apply nth_error_Some_lt in Hm. cbn. lia. }
    rewrite (gather_map _ _ CNaN) by auto. set (g := fun k => match nth_error pts k with Some a => f x a | None => CNaN end).
    destruct (IH (put_all values l (map g l))) as (vs & E & Lv & K1 & K2). { intros i ps Hi. apply V. right. exact Hi. } { now rewrite put_all_len. }
    exists vs. split; [exact E|]. split; [exact Lv|].
    assert (Hput : forall k, nth_error (put_all values l (map g l)) k = if in_dec Nat.eq_dec k l then Some (g k) else nth_error values k).
    { intros k. apply put_all_spec; [apply where_eq_nodup|]. intros j Hj. rewrite L. auto. }
    split.
    - intros k Hk. rewrite (K1 k Hk), Hput. destruct (in_dec Nat.eq_dec k l) as [X|]; [|reflexivity]. apply where_eq_in in X as (m & -> & Hm). cbn [Nat.add] in Hk. congruence.
    - intros k i p Hk Hp Ni C. apply (K2 k i p Hk Hp Ni). rewrite Hput. destruct (in_dec Nat.eq_dec k l) as [X|X].
      + right. apply where_eq_in in X as (m & -> & Hm). cbn [Nat.add] in *. rewrite Hk in Hm. injection Hm as Hm. unfold g. rewrite Hp, Hm. reflexivity.
      + destruct C as [[C|C]|C]; [exfalso|left; exact C|right; exact C]. apply X. apply where_eq_in. exists k. split; [reflexivity|]. rewrite Hk, <- C. unfold x. rewrite (proj2 (Z.eqb_neq _ _)); [reflexivity|]. congruence.
  Qed.
  Lemma depth_layer_above n alphas : (forall i ps, In (Some i) idxs -> i <> (-1)%Z -> val ps (slices ++ [i]) = Ok (map (f i) ps)) ->
    exists vs, depth_interp n val slices pts idxs alphas n = Ok vs /\ length vs = length pts /\
      forall k o p, nth_error idxs k = Some o -> nth_error pts k = Some p ->
        nth_error vs k = Some (match o with None => CMasked | Some i => if (i =? -1)%Z then CNaN else f i p end).
  Proof.
    intros V. unfold depth_interp. destruct (forallb _ idxs) eqn:Em.
    { exists (map (fun _ => CMasked) pts). split; [reflexivity|]. split; [apply map_length|]. intros k o p Ho Hp. rewrite (map_nth_error _ _ _ Hp).
      rewrite forallb_forall in Em. specialize (Em o (nth_error_In _ _ Ho)). destruct o; [discriminate Em|reflexivity]. }
    rewrite Nat.eqb_refl. set (v := map (fun o : option Z => match o with None => CMasked | Some _ => CNaN end) idxs).
    destruct (layer_loop_above (unique_unmasked idxs) v) as (vs & E & L & K1 & K2).
    { intros i ps Hi. apply V. now apply unique_unmasked_in. } { unfold v. now rewrite map_length. }
    exists vs. split; [exact E|]. split; [exact L|]. intros k [i|] p Ho Hp.
    - destruct (Z.eqb_spec i (-1)) as [->|Ni].
      + rewrite (layer_loop_keeps val slices pts idxs k _ _ _ Ho E). unfold v. now rewrite (map_nth_error _ _ _ Ho).
      + apply (K2 k i p Ho Hp Ni). left. apply unique_unmasked_in. eapply nth_error_In; eauto.
    - rewrite (K1 k Ho). unfold v. now rewrite (map_nth_error _ _ _ Ho).
  Qed.
End Loop.

Section Rows.
  Context (ls : list Q) (a : Q) (A : Ascending ls) (N : 2 <= length ls) (Ha : First ls a).
  Lemma above_rows (pts : list spot) : exists r0 r, l_alphas ls (Some (length ls)) BMask BMask (map deep pts) = Ok r0 /\ l_alphas ls (Some (length ls)) BExtrapolate BMask (map deep pts) = Ok r /\
    length r0 = length pts /\ length r = length pts /\
    forall k s, nth_error pts k = Some s ->
      ((deep s < a)%Q -> nth_error r0 k = Some (None, None) /\ nth_error r k = Some (Some (-1)%Z, Some 1%Q)) /\
      (~ (deep s < a)%Q -> exists x, nth_error r0 k = Some x /\ nth_error r k = Some x /\ (x = (None, None) \/ exists j al, x = (Some (Z.of_nat j), Some al) /\ j < length ls - 1)).
  Proof.
    destruct (ends_exist ls N) as (_ & b & _ & Hb). assert (H1 : Some (length ls) <> Some 1) by (intros X; injection X; lia).
    rewrite !(l_alphas_unfold ls _ _ _ _ a b) by auto. assert (Qlt_bool a b = true) as ->. { apply Qlt_bool_iff. eapply A; [|exact Ha|exact Hb]. lia. }
    induction pts as [|s pts (r0 & r & E0 & E & L0 & L & K)]. { exists [], []. repeat split; auto; destruct k; discriminate. }
    destruct (digitize_asc ls (deep s) false A) as (k & D & Hk & K1 & K2).
    assert (S : exists x0 x, l_point ls true BMask BMask (deep s) = Ok x0 /\ l_point ls true BExtrapolate BMask (deep s) = Ok x /\
      ((deep s < a)%Q -> x0 = (None, None) /\ x = (Some (-1)%Z, Some 1%Q)) /\
      (~ (deep s < a)%Q -> x0 = x /\ (x = (None, None) \/ exists j al, x = (Some (Z.of_nat j), Some al) /\ j < length ls - 1))).
    { destruct (l_point_asc ls BExtrapolate BMask (deep s) A N) as (x & Ex & R). destruct (l_point_asc ls BMask BMask (deep s) A N) as (x0 & Ex0 & R0).
      exists x0, x. split; [exact Ex0|split; [exact Ex|]]. destruct (R a b Ha Hb) as (R1 & R2 & R3). destruct (R0 a b Ha Hb) as (Q1 & _ & _). split.
      - intros X. rewrite (Q1 X), (R1 X). split; reflexivity.
      - intros X. split.
        + rewrite (l_point_row ls true _ _ _ k N D Hk) in Ex0. rewrite (l_point_row ls true _ _ _ k N D Hk) in Ex. destruct (Nat.eqb_spec k 0) as [->|_].
          * exfalso. apply X. specialize (K2 0 a ltac:(lia) Ha). apply Qle_bool_false in K2. exact K2.
          * cbn [bmask] in *. congruence.
        + destruct (Qlt_le_dec (deep s) b) as [Lb|Lb]; [right|left; now rewrite (R2 Lb)]. destruct R3 as (i & al & -> & Br & _). { split; [|exact Lb]. now apply Qnot_lt_le. }
          exists i, al. split; [reflexivity|]. destruct Br as (x1 & y1 & _ & Hy & _). apply nth_error_Some_lt in Hy. lia. }
    destruct S as (x0 & x & Ex0 & Ex & S1 & S2). exists (x0 :: r0), (x :: r). cbn [map mapM]. rewrite Ex0, Ex. cbn [bind]. rewrite E0, E. cbn [bind]. split; [reflexivity|split; [reflexivity|]].
    split; [cbn; lia|split; [cbn; lia|]]. intros [|m] s' Hs; cbn [nth_error] in *; [|now apply K]. injection Hs as <-. split.
    - intros X. destruct (S1 X) as [-> ->]. split; reflexivity.
    - intros X. destruct (S2 X) as [-> S]. eauto.
  Qed.
  Lemma v_depth_above order shape (val : list spot -> list Z -> result (list cell)) slices (f : nat -> spot -> cell) pts :
    dim_len order shape DDepth = Ok (length ls - 1) -> (forall j ps, j < length ls - 1 -> val ps (slices ++ [Z.of_nat j]) = Ok (map (f j) ps)) ->
    exists v0 v, v_depth order shape (Some (l_view deep ls (Some (length ls)) BMask BMask)) val pts slices = Ok v0 /\
      v_depth order shape (Some (l_view deep ls (Some (length ls)) BExtrapolate BMask)) val pts slices = Ok v /\ Above a pts v0 v.
  Proof.
    intros DL V. destruct (above_rows pts) as (r0 & r & E0 & E & L0 & L & K).
    assert (W : forall rows, length rows = length pts -> (forall k x, nth_error rows k = Some x -> x = (None, None) \/ x = (Some (-1)%Z, Some 1%Q) \/ exists j al, x = (Some (Z.of_nat j), Some al) /\ j < length ls - 1) ->
      forall i ps, In (Some i) (map fst rows) -> i <> (-1)%Z -> val ps (slices ++ [i]) = Ok (map (f (Z.to_nat i)) ps)).
    { intros rows Lr F i ps Hi Ni. apply in_map_iff in Hi. destruct Hi as (x & Hx & Ix). destruct (In_nth_error _ _ Ix) as (k & Hk).
      destruct (F k x Hk) as [->|[->|(j & al & -> & Hj)]]; cbn [fst] in Hx; [discriminate Hx|injection Hx as <-; congruence|]. injection Hx as <-. rewrite Nat2Z.id. now apply V. }
    assert (F : forall rows, length rows = length pts -> (rows = r0 \/ rows = r) -> forall k x, nth_error rows k = Some x -> x = (None, None) \/ x = (Some (-1)%Z, Some 1%Q) \/ exists j al, x = (Some (Z.of_nat j), Some al) /\ j < length ls - 1).
    { intros rows Lr C k x Hx. destruct (nth_error_lt_Some pts k) as [s Hs]. { rewrite <- Lr. now apply nth_error_Some_lt in Hx. } destruct (K k s Hs) as [K1 K2].
      destruct (Qlt_le_dec (deep s) a) as [X|X].
      - destruct (K1 X) as [Z0 Z1]. destruct C as [-> | ->]; [rewrite Z0 in Hx|rewrite Z1 in Hx]; injection Hx as <-; auto.
      - destruct (K2 (Qle_not_lt _ _ X)) as (y & Y0 & Y1 & Y). assert (x = y) as -> by (destruct C as [-> | ->]; congruence). destruct Y; auto. }
    assert (V0 : forall ps, val ps (slices ++ [0%Z]) = Ok (map (f (Z.to_nat 0)) ps)). { intros ps. apply (V 0 ps). lia. }
    unfold v_depth. cbn [l_view dv_alphas dv_layers]. rewrite E0, E. unfold view_rows. cbn [bind]. rewrite DL. cbn [bind fst snd].
    destruct (depth_layer_above val slices pts (map fst r0) (fun i => f (Z.to_nat i)) ltac:(now rewrite map_length) V0 (length ls - 1) (map (fun x : drow => match snd x with Some q => q | None => 0%Q end) r0)) as (v0 & Ev0 & Lv0 & C0).
    { exact (W r0 L0 (F r0 L0 (or_introl eq_refl))). }
    destruct (depth_layer_above val slices pts (map fst r) (fun i => f (Z.to_nat i)) ltac:(now rewrite map_length) V0 (length ls - 1) (map (fun x : drow => match snd x with Some q => q | None => 0%Q end) r)) as (v & Ev & Lv & C).
    { exact (W r L (F r L (or_intror eq_refl))). }
    exists v0, v. split; [exact Ev0|split; [exact Ev|]]. split; [exact Lv0|split; [exact Lv|]]. intros k s Hs. destruct (K k s Hs) as [K1 K2]. split.
    - intros X. destruct (K1 X) as [_ Z1]. rewrite (C k _ s (map_nth_error fst _ _ Z1) Hs). reflexivity.
    - intros X. destruct (K2 X) as (y & Y0 & Y1 & _). rewrite (C k _ s (map_nth_error fst _ _ Y1) Hs), (C0 k _ s (map_nth_error fst _ _ Y0) Hs). reflexivity.
  Qed.
End Rows.

Lemma lerp_nth w k : forall v0 v1, nth_error (cells_lerp v0 v1 w) k = match nth_error v0 k, nth_error v1 k with Some x, Some y => Some (cell_lerp x y w) | _, _ => None end.
Proof. induction k as [|k IH]; intros [|x v0] [|y v1]; cbn [cells_lerp nth_error]; auto. now destruct (nth_error v0 k). Qed.
Lemma lerp_length w : forall v0 v1, length v0 = length v1 -> length (cells_lerp v0 v1 w) = length v0.
Proof. induction v0 as [|x v0 IH]; intros [|y v1] H; cbn in *; auto; try discriminate. Qed.
Lemma above_lerp a pts w v0 v v0' v' : Above a pts v0 v -> Above a pts v0' v' -> Above a pts (cells_lerp v0 v0' w) (cells_lerp v v' w).
Proof.
  intros (L0 & L & K) (L0' & L' & K'). split; [rewrite lerp_length; congruence|]. split; [rewrite lerp_length; congruence|]. intros k s Hs. destruct (K k s Hs) as [A B]. destruct (K' k s Hs) as [A' B'].
  split; intros X; rewrite !lerp_nth; [now rewrite (A X), (A' X)|now rewrite (B X), (B' X)].
Qed.
Lemma time_above t q ex (val0 val : list Z -> result (list cell)) a pts r0 : StrictlyIncreasing (t_data t) -> t_data t <> [] ->
  (forall k, k < length (t_data t) -> exists v0 v, val0 [Z.of_nat k] = Ok v0 /\ val [Z.of_nat k] = Ok v /\ Above a pts v0 v) ->
  val0 [-1]%Z = val0 [Z.of_nat (length (t_data t) - 1)] -> val [-1]%Z = val [Z.of_nat (length (t_data t) - 1)] ->
  time_interp t q ex val0 [] = Ok r0 -> exists r, time_interp t q ex val [] = Ok r /\ Above a pts r0 r.
Proof.
  intros SI Ne V M0 M H. assert (Hn : 0 < length (t_data t)) by (destruct (t_data t); [congruence|cbn; lia]).
  assert (V1 : forall z v0, (-1 <= z < Z.of_nat (length (t_data t)))%Z -> val0 [z] = Ok v0 -> exists v, val [z] = Ok v /\ Above a pts v0 v).
  { intros z v0 Hz E. assert (exists k, k < length (t_data t) /\ val0 [z] = val0 [Z.of_nat k] /\ val [z] = val [Z.of_nat k]) as (k & Hk & E0 & E1).
    { destruct (Z.eq_dec z (-1)) as [->|Nz]; [exists (length (t_data t) - 1); repeat split; auto; lia|]. exists (Z.to_nat z). rewrite Z2Nat.id by lia. repeat split; auto; lia. }
    destruct (V k Hk) as (w0 & w & W0 & W & Ab). exists w. rewrite E1. split; [exact W|]. rewrite E0, W0 in E. injection E as <-. exact Ab. }
  unfold time_interp in *. apply bind_ok in H. destruct H as (lo & -> & H). cbn [bind]. destruct (_ || _)%bool. { apply (V1 0%Z); auto; lia. }
  apply bind_ok in H. destruct H as (hi & -> & H). cbn [bind]. destruct (_ || _)%bool. { apply (V1 (-1)%Z); auto; lia. }
  apply bind_ok in H. destruct H as (i & Ei & H). rewrite Ei. cbn [bind app] in *.
  assert (Hi : i < length (t_data t)).
  { destruct (Nat.eq_dec (length (t_data t)) 1) as [E1|N1]. { rewrite (index_of_single t q false E1) in Ei. injection Ei as <-. lia. }
    destruct (nonempty_ends _ Ne) as (x & y & Hx & Hy). destruct (Z_le_dec x q) as [L1|L1]; [destruct (Z_le_dec q y) as [L2|L2]|].
    - destruct (index_of_ok t q false SI N1) as (i' & E' & C & C1 & C2). { right. exists x, y. auto. } rewrite E' in Ei. injection Ei as ->.
      destruct (Nat.eq_dec i (length (t_data t))) as [->|]; [|lia]. specialize (C1 (length (t_data t) - 1) y ltac:(lia) Hy). lia.
    - rewrite index_of_err in Ei; auto; [discriminate Ei|]. intros (x' & y' & _ & Hy' & B). rewrite Hy in Hy'. injection Hy' as <-. lia.
    - rewrite index_of_err in Ei; auto; [discriminate Ei|]. intros (x' & y' & Hx' & _ & B). rewrite Hx in Hx'. injection Hx' as <-. lia. }
  apply bind_ok in H. destruct H as (v0 & E0 & H). apply bind_ok in H. destruct H as (v1 & E1 & H). apply bind_ok in H. destruct H as (w & Ew & H). injection H as <-.
  destruct (V1 (Z.of_nat i - 1)%Z _ ltac:(lia) E0) as (w0 & -> & A0). destruct (V1 (Z.of_nat i) _ ltac:(lia) E1) as (w1 & -> & A1). cbn [bind]. rewrite Ew. cbn [bind]. eexists. split; [reflexivity|]. now apply above_lerp.
Qed.

Section Composed.
  Context (g : grid_kind) (interp : list nat -> list spot -> result (list cell)) (leaf : list nat -> spot -> cell).
  Context (time : option time_obj) (ls : list Q) (rest : list nat) (q q' : Z) (ex : bool) (a : Q) (pts : list spot).
  Let ts := option_map t_data time.
  Context (HT : TimeOk ts ex q q') (N : 2 <= length ls) (A : Ascending ls) (Ha : First ls a).
  Context (HI : forall ix u j, SlotAt ts (Some (length ls - 1)) ix u j -> forall ps, interp ix ps = Ok (map (leaf ix) ps)).
  Let ask sbc := at_grid interp (order_of (some time) true g) (layer_shape time ls rest) time (Some (l_view deep ls (Some (length ls)) sbc BMask)) q ex pts.
  Lemma composed_above v0 : ask BMask = Ok v0 -> exists v, ask BExtrapolate = Ok v /\ Above a pts v0 v.
  Proof.
    unfold ask, ts in *. destruct time as [t|]; cbn [some option_map] in *.
    - destruct (HT _ eq_refl) as (SI & Ne & _). set (n := length (t_data t)).
      assert (Hn : 0 < n) by (unfold n; destruct (t_data t); [congruence|cbn; lia]).
      set (vd := fun sbc => v_depth (order_of true true g) (layer_shape (Some t) ls rest) (Some (l_view deep ls (Some (length ls)) sbc BMask)) (grid_xy interp [n; length ls - 1]) pts).
      assert (Q : forall sbc, at_grid interp (order_of true true g) (layer_shape (Some t) ls rest) (Some t) (Some (l_view deep ls (Some (length ls)) sbc BMask)) q ex pts = time_interp t q ex (vd sbc) []).
      { intros sbc. destruct g; reflexivity. }
      rewrite !Q. assert (La : forall sbc, vd sbc [-1]%Z = vd sbc [Z.of_nat (n - 1)]).
      { intros sbc. unfold vd, v_depth. destruct (dv_alphas _ pts) as [ia|]; cbn [bind]; [|reflexivity]. destruct (dim_len _ _ _); cbn [bind]; [|reflexivity].
        apply depth_interp_ext. intros ps i. cbn [app]. now apply grid_first_last. }
      intros E0. refine (time_above t q ex (vd BMask) (vd BExtrapolate) a pts v0 SI Ne _ (La BMask) (La BExtrapolate) E0). intros k Hk. destruct (nth_error_lt_Some (t_data t) k Hk) as [tk Hk'].
      apply (v_depth_above ls a A N Ha _ _ (grid_xy interp [n; length ls - 1]) [Z.of_nat k] (fun j => leaf [k; j])); [destruct g; reflexivity|].
      intros j ps Hj. cbn [app]. rewrite grid_ix2 by auto. apply (HI [k; j] tk j). exists k. auto.
    - assert (Q : forall sbc, at_grid interp (order_of false true g) (layer_shape None ls rest) None (Some (l_view deep ls (Some (length ls)) sbc BMask)) q ex pts =
        v_depth (order_of false true g) (layer_shape None ls rest) (Some (l_view deep ls (Some (length ls)) sbc BMask)) (grid_xy interp [length ls - 1]) pts []).
      { intros sbc. destruct g; reflexivity. }
      rewrite !Q. intros E0. destruct (v_depth_above ls a A N Ha (order_of false true g) (layer_shape None ls rest) (grid_xy interp [length ls - 1]) [] (fun j => leaf [j]) pts) as (w0 & w & W0 & W & Ab).
      { destruct g; reflexivity. } { intros j ps Hj. cbn [app]. rewrite grid_ix1 by auto. apply (HI [j] q' j). split; auto. }
      exists w. split; [exact W|]. rewrite W0 in E0. injection E0 as <-. exact Ab.
  Qed.
End Composed.
