From Coq Require Import Lqa.
From Verif Require Import Common CommonProofs TimeModel TimeSpec TimeProofs TimeHeapProofs
  VariableModel VariableSpec VariableProofs VariableInterpProofs.
Open Scope Z_scope.

Lemma py_index_nat n k : (k < n)%nat -> py_index n (Z.of_nat k) = Some k.
Proof.
  intros H. unfold py_index.
  destruct (Z.leb_spec 0 (Z.of_nat k)); [|lia].
  destruct (Z.ltb_spec (Z.of_nat k) (Z.of_nat n)); [|lia]. rewrite Nat2Z.id. reflexivity.
Qed.
Lemma py_index_last n : (0 < n)%nat -> py_index n (-1) = Some (n - 1)%nat.
Proof.
  intros H. unfold py_index. cbn [Z.leb Z.compare].
  destruct (Z.leb_spec 0 (-1 + Z.of_nat n)); [|lia]. f_equal. lia.
Qed.

Section At.
  Context {P : Type} (g : grid_kind) (leaf : list nat -> P -> cell).

  (** Data with a time and no depth dimension. *)
  Lemma at_time_only n rest t depth q ex pts :
    at_nomem (DTime :: horizontal g) (n :: rest) leaf (Some t) depth q ex pts =
    time_interp t q ex (xy_interp [n] leaf pts) [].
  Proof. destruct g; reflexivity. Qed.
  Lemma xy_one n pts k : (k < n)%nat -> xy_interp [n] leaf pts [Z.of_nat k] = Ok (map (leaf [k]) pts).
  Proof. intros H. unfold xy_interp, resolve. rewrite py_index_nat by auto. reflexivity. Qed.
  Lemma xy_one_last n pts : (0 < n)%nat -> xy_interp [n] leaf pts [-1] = Ok (map (leaf [(n - 1)%nat]) pts).
  Proof. intros H. unfold xy_interp, resolve. rewrite py_index_last by auto. reflexivity. Qed.

  (** Data with a depth and no time dimension. *)
  Lemma at_depth_only n rest time dv q ex pts idxs alphas :
    dv_alphas dv pts = Ok (idxs, alphas) ->
    at_nomem (DDepth :: horizontal g) (n :: rest) leaf time (Some dv) q ex pts =
    depth_interp n (xy_interp [n] leaf) [] pts idxs alphas (dv_layers dv).
  Proof.
    intros H. assert (E : at_nomem (DDepth :: horizontal g) (n :: rest) leaf time (Some dv) q ex pts =
      do ia <- dv_alphas dv pts; depth_interp n (xy_interp [n] leaf) [] pts (fst ia) (snd ia) (dv_layers dv)).
    { destruct g; reflexivity. }
    rewrite E, H. reflexivity.
  Qed.

  (** Both, time first. *)
  Lemma at_time_depth nt nd rest t dv q ex pts idxs alphas :
    dv_alphas dv pts = Ok (idxs, alphas) ->
    at_nomem ([DTime; DDepth] ++ horizontal g) (nt :: nd :: rest) leaf (Some t) (Some dv) q ex pts =
    time_interp t q ex
      (fun sl => depth_interp nd (xy_interp [nt; nd] leaf) sl pts idxs alphas (dv_layers dv)) [].
  Proof.
    intros H. assert (E : at_nomem ([DTime; DDepth] ++ horizontal g) (nt :: nd :: rest) leaf (Some t) (Some dv) q ex pts =
      time_interp t q ex
      (fun sl => do ia <- dv_alphas dv pts; depth_interp nd (xy_interp [nt; nd] leaf) sl pts (fst ia) (snd ia) (dv_layers dv)) []).
    { destruct g; reflexivity. }
    rewrite E, H. reflexivity.
  Qed.
End At.

Lemma level_loop_ext {P} ndim (val val' : list P -> list Z -> result (list cell)) s s' pts idxs alphas :
  (forall ps i, val ps (s ++ [i]) = val' ps (s' ++ [i])) -> forall us lay values,
  level_loop ndim val s pts idxs alphas us lay values = level_loop ndim val' s' pts idxs alphas us lay values.
Proof.
  intros H. induction us as [|u us IH]; intros lay values; cbn [level_loop]; auto.
  destruct (u =? Z.of_nat ndim - 1).
  - destruct lay; auto. rewrite H. destruct (val' _ (s' ++ [u])); cbn [bind]; auto.
  - rewrite !H. destruct (val' _ (s' ++ [u + 1])); cbn [bind]; auto.
    destruct (val' _ (s' ++ [u])); cbn [bind]; auto.
Qed.
Lemma layer_loop_ext {P} (val val' : list P -> list Z -> result (list cell)) s s' pts idxs :
  (forall ps i, val ps (s ++ [i]) = val' ps (s' ++ [i])) -> forall us values,
  layer_loop val s pts idxs us values = layer_loop val' s' pts idxs us values.
Proof.
  intros H. induction us as [|u us IH]; intros values; cbn [layer_loop]; auto.
  rewrite H. destruct (val' _ _); cbn [bind]; auto.
Qed.
Lemma depth_interp_ext {P} ndim (val val' : list P -> list Z -> result (list cell)) s s' pts idxs alphas layers :
  (forall ps i, val ps (s ++ [i]) = val' ps (s' ++ [i])) ->
  depth_interp ndim val s pts idxs alphas layers = depth_interp ndim val' s' pts idxs alphas layers.
Proof.
  intros H. unfold depth_interp. destruct (forallb _ idxs); auto.
  destruct (Nat.eqb ndim layers); [apply layer_loop_ext|apply level_loop_ext]; auto.
Qed.

(** ** C10 *)
Section TimeOnly.
  Context {P : Type} (g : grid_kind) (leaf : list nat -> P -> cell) (t : time_obj)
          (rest : list nat) (depth : option (depth_view (P := P))) (pts : list P).
  Context (HSI : StrictlyIncreasing (t_data t)) (Hne : t_data t <> []).
  Let n := length (t_data t).
  Definition at_time q ex := at_nomem (DTime :: horizontal g) (n :: rest) leaf (Some t) depth q ex pts.
  Definition field (k : nat) : list cell := map (leaf [k]) pts.
  Let Hv : forall k, (k < n)%nat -> xy_interp [n] leaf pts [Z.of_nat k] = Ok (field k).
  Proof. intros. apply xy_one; auto. Qed.
  Let Hl : xy_interp [n] leaf pts [-1] = Ok (field (n - 1)).
  Proof. apply xy_one_last. unfold n. destruct (t_data t); [congruence|simpl; lia]. Qed.

  Lemma at_time_sample q ex k : nth_error (t_data t) k = Some q ->
    (forall j, Forall numeric (field j)) ->
    exists vs, at_time q ex = Ok vs /\ ceqs vs (field k).
  Proof.
    intros Hk Hnum. unfold at_time. rewrite at_time_only.
    apply (ti_sample t _ field HSI Hne Hv Hl); auto.
    intros j Hj. split; auto. unfold field. rewrite !map_length. reflexivity.
  Qed.
  Lemma at_time_between q ex k t0 t1 : nth_error (t_data t) k = Some t0 ->
    nth_error (t_data t) (S k) = Some t1 -> t0 < q < t1 ->
    exists alpha, (inject_Z t0 + alpha * (inject_Z t1 - inject_Z t0) == inject_Z q)%Q /\
      (0 <= alpha <= 1)%Q /\
      at_time q ex = Ok (map (fun p => cell_lerp (leaf [k] p) (leaf [S k] p) alpha) pts).
  Proof.
    intros H0 H1 Hq. unfold at_time. rewrite at_time_only.
    destruct (ti_between t _ field HSI Hne Hv q ex k t0 t1 H0 H1 ltac:(lia)) as (al & E & B & _ & ->).
    { right. lia. }
    exists al. split; [auto|]. split; [auto|]. f_equal. apply cells_lerp_map.
  Qed.
  Lemma at_time_constant q ex c : (forall k p, leaf [k] p = c) ->
    (ex = true \/ n = 1%nat \/ InRange (t_data t) q) ->
    exists vs, at_time q ex = Ok vs /\ ceqs vs (map (fun _ => c) pts).
  Proof.
    intros Hc Hr. unfold at_time. rewrite at_time_only.
    apply (ti_constant t _ field HSI Hne Hv Hl); auto.
    intros j Hj. unfold field. apply map_ext. auto.
  Qed.
  Lemma at_time_before q a : nth_error (t_data t) 0 = Some a -> q <= a -> at_time q true = Ok (field 0).
  Proof.
    intros Ha Hq. unfold at_time. rewrite at_time_only.
    apply (ti_first t _ field HSI Hne Hv Hl q true a); auto. destruct (Z.eq_dec q a); [left; auto|right; split; [auto|lia]].
  Qed.
  Lemma at_time_after q b : nth_error (t_data t) (n - 1) = Some b -> b <= q -> at_time q true = Ok (field (n - 1)).
  Proof.
    intros Ha Hq. unfold at_time. rewrite at_time_only.
    apply (ti_last t _ field HSI Hne Hv Hl q true b); auto. destruct (Z.eq_dec q b); [left; auto|right; split; [auto|lia]].
  Qed.
  Lemma at_time_out q : n <> 1%nat -> ~ InRange (t_data t) q -> at_time q false = Err OutOfTimeRangeError.
  Proof. intros H1 H2. unfold at_time. rewrite at_time_only. apply (ti_out_of_range t _ field HSI Hne Hv Hl); auto. Qed.
  Lemma at_time_single q ex : n = 1%nat -> exists vs, at_time q ex = Ok vs /\ ceqs vs (field 0).
  Proof. intros H. unfold at_time. rewrite at_time_only. apply (ti_single t _ field Hne Hv Hl); auto. Qed.
End TimeOnly.

(** ** C13 *)
Definition level_value {P} (leaf : list nat -> P -> cell) (pre : list nat) (nd : nat) (i : Z) (p : P) : cell :=
  match py_index nd i with Some j => leaf (pre ++ [j]) p | None => CNaN end.

Lemma py_index_some nd i : -1 <= i < Z.of_nat nd -> (0 < nd)%nat -> exists j, py_index nd i = Some j.
Proof.
  intros H Hn. destruct (Z.eq_dec i (-1)) as [->|].
  - rewrite py_index_last by auto. eauto.
  - replace i with (Z.of_nat (Z.to_nat i)) by lia. rewrite py_index_nat by lia. eauto.
Qed.

Lemma at_depth_levels {P} g (leaf : list nat -> P -> cell) nd rest time dv q ex pts idxs alphas :
  dv_alphas dv pts = Ok (idxs, alphas) -> length idxs = length pts -> length alphas = length pts ->
  nd <> dv_layers dv -> (forall i, In (Some i) idxs -> -1 <= i < Z.of_nat nd - 1) ->
  exists vs, at_nomem (DDepth :: horizontal g) (nd :: rest) leaf time (Some dv) q ex pts = Ok vs /\
    length vs = length pts /\
    forall k p o a, nth_error pts k = Some p -> nth_error idxs k = Some o -> nth_error alphas k = Some a ->
      nth_error vs k = Some (match o with
                             | None => CMasked
                             | Some i => cell_lerp (level_value leaf [] nd i p) (level_value leaf [] nd (i + 1) p) a end).
Proof.
  intros Ha Hli Hla Hnl Hr. rewrite (at_depth_only g leaf nd rest time dv q ex pts idxs alphas Ha).
  apply (depth_level nd _ [] pts idxs alphas (level_value leaf [] nd)); auto.
  - intros i Hi. specialize (Hr i Hi). lia.
  - intros i ps Hi. assert (B : -1 <= i < Z.of_nat nd /\ (0 < nd)%nat).
    { destruct Hi as [Hi|Hi]; specialize (Hr _ Hi); lia. }
    destruct B as [B1 B2]. destruct (py_index_some nd i B1 B2) as [j Hj].
    unfold level_value, xy_interp. cbn [app]. cbn [resolve]. rewrite Hj. reflexivity.
Qed.

Lemma at_depth_layers {P} g (leaf : list nat -> P -> cell) nd rest time dv q ex pts idxs alphas :
  dv_alphas dv pts = Ok (idxs, alphas) -> length idxs = length pts -> length alphas = length pts ->
  nd = dv_layers dv -> (forall i, In (Some i) idxs -> 0 <= i < Z.of_nat nd) ->
  exists vs, at_nomem (DDepth :: horizontal g) (nd :: rest) leaf time (Some dv) q ex pts = Ok vs /\
    length vs = length pts /\
    forall k p o, nth_error pts k = Some p -> nth_error idxs k = Some o ->
      nth_error vs k = Some (match o with None => CMasked | Some i => leaf [Z.to_nat i] p end).
Proof.
  intros Ha Hli Hla Hnl Hr. rewrite (at_depth_only g leaf nd rest time dv q ex pts idxs alphas Ha).
  apply (depth_layer nd _ [] pts idxs alphas (fun i p => leaf [Z.to_nat i] p)); auto.
  - intros i Hi. specialize (Hr i Hi). lia.
  - intros i ps Hi. specialize (Hr _ Hi). unfold xy_interp. cbn [app resolve].
    rewrite <- (Z2Nat.id i) at 1 by lia. rewrite py_index_nat by lia. reflexivity.
Qed.

Lemma at_depth_last_only {P} g (leaf : list nat -> P -> cell) nd rest time dv q ex pts idxs alphas :
  dv_alphas dv pts = Ok (idxs, alphas) -> nd <> dv_layers dv -> (exists i, In (Some i) idxs) ->
  (forall i, In (Some i) idxs -> i = Z.of_nat nd - 1) ->
  at_nomem (DDepth :: horizontal g) (nd :: rest) leaf time (Some dv) q ex pts = Err UnboundLocalError.
Proof.
  intros Ha Hnl He Hall. rewrite (at_depth_only g leaf nd rest time dv q ex pts idxs alphas Ha).
  apply depth_last_only; auto.
Qed.

(** Time and depth together: interpolate in depth at the two bracketing
    times, then in time. *)
Lemma at_time_depth_levels {P} g (leaf : list nat -> P -> cell) nd rest t dv q ex pts idxs alphas k t0 t1 :
  StrictlyIncreasing (t_data t) ->
  dv_alphas dv pts = Ok (idxs, alphas) -> length idxs = length pts -> length alphas = length pts ->
  nd <> dv_layers dv -> (forall i, In (Some i) idxs -> -1 <= i < Z.of_nat nd - 1) ->
  nth_error (t_data t) k = Some t0 -> nth_error (t_data t) (S k) = Some t1 -> t0 < q < t1 ->
  exists alpha vs,
    (inject_Z t0 + alpha * (inject_Z t1 - inject_Z t0) == inject_Z q)%Q /\ (0 <= alpha <= 1)%Q /\
    at_nomem ([DTime; DDepth] ++ horizontal g) (length (t_data t) :: nd :: rest) leaf (Some t) (Some dv) q ex pts = Ok vs /\
    length vs = length pts /\
    forall j p o a, nth_error pts j = Some p -> nth_error idxs j = Some o -> nth_error alphas j = Some a ->
      nth_error vs j = Some (match o with
        | None => CMasked
        | Some i => cell_lerp
            (cell_lerp (level_value leaf [k] nd i p) (level_value leaf [k] nd (i + 1) p) a)
            (cell_lerp (level_value leaf [S k] nd i p) (level_value leaf [S k] nd (i + 1) p) a) alpha end).
Proof.
  intros HSI Ha Hli Hla Hnl Hr H0 H1 Hq.
  set (n := length (t_data t)).
  assert (Hne : t_data t <> []) by (intros E; rewrite E in H0; destruct k; discriminate).
  rewrite (at_time_depth g leaf n nd rest t dv q ex pts idxs alphas Ha).
  set (val := fun sl => depth_interp nd (xy_interp [n; nd] leaf) sl pts idxs alphas (dv_layers dv)).
  assert (HD : forall m, (m < n)%nat -> exists vs, val [Z.of_nat m] = Ok vs /\ length vs = length pts /\
    forall j p o a, nth_error pts j = Some p -> nth_error idxs j = Some o -> nth_error alphas j = Some a ->
      nth_error vs j = Some (match o with
        | None => CMasked
        | Some i => cell_lerp (level_value leaf [m] nd i p) (level_value leaf [m] nd (i + 1) p) a end)).
  { intros m Hm. apply (depth_level nd _ [Z.of_nat m] pts idxs alphas (level_value leaf [m] nd)); auto.
    - intros i Hi. specialize (Hr i Hi). lia.
    - intros i ps Hi. assert (B : -1 <= i < Z.of_nat nd /\ (0 < nd)%nat).
      { destruct Hi as [Hi|Hi]; specialize (Hr _ Hi); lia. }
      destruct B as [B1 B2]. destruct (py_index_some nd i B1 B2) as [j Hj].
      unfold level_value, xy_interp. cbn [app resolve]. rewrite py_index_nat by auto.
      rewrite Hj. reflexivity. }
  set (F := fun m => match val [Z.of_nat m] with Ok vs => vs | Err _ => [] end).
  assert (HF : forall m, (m < n)%nat -> val [Z.of_nat m] = Ok (F m)).
  { intros m Hm. destruct (HD m Hm) as (vs & E & _). unfold F. rewrite E. reflexivity. }
  pose proof (nth_error_Some_lt _ _ _ H1) as Hlt. fold n in Hlt.
  destruct (ti_between t val F HSI Hne HF q ex k t0 t1 H0 H1 ltac:(lia)) as (al & E & B & _ & ->).
  { right. lia. }
  destruct (HD k ltac:(lia)) as (v0 & E0 & L0 & K0). destruct (HD (S k) ltac:(lia)) as (v1 & E1 & L1 & K1).
  assert (F k = v0) as -> by (unfold F; rewrite E0; auto).
  assert (F (S k) = v1) as -> by (unfold F; rewrite E1; auto).
  exists al, (cells_lerp v0 v1 al). split; [auto|]. split; [auto|]. split; [auto|].
  split; [rewrite cells_lerp_length; congruence|].
  intros j p o a Hp Ho Haa. specialize (K0 j p o a Hp Ho Haa). specialize (K1 j p o a Hp Ho Haa).
  assert (NL : forall u0 u1 x y, nth_error u0 j = Some x -> nth_error u1 j = Some y ->
             nth_error (cells_lerp u0 u1 al) j = Some (cell_lerp x y al)).
  { clear. revert j. induction j as [|j IH]; intros [|b u0] [|c u1] x y Hx Hy; simpl in *; try discriminate.
    - congruence.
    - auto. }
  rewrite (NL _ _ _ _ K0 K1). destruct o; reflexivity.
Qed.
