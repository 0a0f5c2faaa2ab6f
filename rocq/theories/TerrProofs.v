From Coq Require Import String Lqa.
From Verif Require Import Common CommonProofs TimeModel TimeSpec TimeProofs VariableModel VariableSpec VariableProofs VariableInterpProofs VariableAtProofs
  DepthModel DepthSpec DepthProofs DepthSigmaProofs DepthAtProofs UGridGeomModel UGridGeomSpec UGridLocProofs WholeModel WholeSpec WholeProofs TerrModel TerrSpec.
Open Scope list_scope.
Open Scope nat_scope.

Definition Holds (m : bool) (x : Q) (c : cell) : Prop := if m then c = CMasked else Shows x c.
Lemma holds_lerp m x y a r c d : Holds m x c -> Holds m y d -> (r == x + (y - x) * a)%Q -> Holds m r (cell_lerp c d a).
Proof. destruct m; cbn [Holds]; [intros -> -> _; reflexivity|apply shows_lerp]. Qed.

(** In time, when some points are masked at every sample. *)
Lemma time_holds {P} (m : P -> bool) t q q' ex (val : list Z -> result (list cell)) (E : Z -> P -> Q) pts :
  StrictlyIncreasing (t_data t) -> t_data t <> [] -> TimeAsked (t_data t) ex q q' ->
  (forall k tk, nth_error (t_data t) k = Some tk -> exists vs, val [Z.of_nat k] = Ok vs /\ Forall2 (fun p c => Holds (m p) (E tk p) c) pts vs) ->
  val [-1]%Z = val [Z.of_nat (length (t_data t) - 1)] ->
  (forall p, In p pts -> LinearInTime (t_data t) (fun u => E u p)) ->
  exists vs, time_interp t q ex val [] = Ok vs /\ Forall2 (fun p c => Holds (m p) (E q' p) c) pts vs.
Proof.
  intros SI Ne Q V L Lin. set (n := length (t_data t)).
  set (F := fun k => match val [Z.of_nat k] with Ok vs => vs | Err _ => [] end).
  assert (HF : forall k, k < n -> val [Z.of_nat k] = Ok (F k)).
  { intros k Hk. destruct (nth_error_lt_Some (t_data t) k Hk) as [tk Hk']. destruct (V k tk Hk') as (vs & Ev & _). unfold F. now rewrite Ev. }
  assert (HS : forall k tk, nth_error (t_data t) k = Some tk -> Forall2 (fun p c => Holds (m p) (E tk p) c) pts (F k)).
  { intros k tk Hk. destruct (V k tk Hk) as (vs & Ev & H). unfold F. now rewrite Ev. }
  assert (Hn : 0 < n) by (unfold n; destruct (t_data t); [congruence|cbn; lia]).
  assert (HL : val [-1]%Z = Ok (F (n - 1))) by (rewrite L; apply HF; lia).
  destruct (nonempty_ends _ Ne) as (a & b & Ha & Hb). fold n in Hb.
  assert (Single : n = 1 -> exists vs, time_interp t q ex val [] = Ok vs /\ Forall2 (fun p c => Holds (m p) (E a p) c) pts vs).
  { intros E1. destruct (ti_single t val F Ne HF HL q ex E1) as (vs & Ev & C). exists vs. split; [exact Ev|]. specialize (HS _ _ Ha).
    clear - C HS. revert pts HS. induction C as [|c d l l' K _ IH]; intros ps H; inversion H as [|p ? ? ? Hp]; subst; constructor; auto.
    unfold Holds in *. destruct (m p); [subst d; destruct c; cbn in K; tauto|]. destruct Hp as (v & -> & Ev).
    destruct c; cbn in K; try contradiction. exists q. split; [reflexivity|]. now rewrite K. }
  destruct Q as [((a' & b' & Ha' & Hb' & B) & ->)|[(a' & -> & Ha' & Lt & ->)|[(b' & -> & Hb' & Lt & ->)|(E1 & H1)]]].
  - fold n in Hb'. rewrite Ha in Ha'. injection Ha' as <-. rewrite Hb in Hb'. injection Hb' as <-.
    destruct (Nat.eq_dec n 1) as [E1|N1].
    { assert (q = a) as ->. { rewrite E1 in Hb. cbn [Nat.sub] in Hb. rewrite Ha in Hb. injection Hb as <-. lia. } auto. }
    destruct (Z.eq_dec q a) as [->|Na].
    { exists (F 0). split; [apply (ti_first t val F SI Ne HF HL a ex a); auto|auto]. }
    destruct (Z.eq_dec q b) as [->|Nb].
    { exists (F (n - 1)). split; [apply (ti_last t val F SI Ne HF HL b ex b); auto|auto]. }
    assert (exists k t0 t1, nth_error (t_data t) k = Some t0 /\ nth_error (t_data t) (S k) = Some t1 /\ (t0 < q <= t1)%Z) as (k & t0 & t1 & H0 & H1 & Hq).
    { destruct (interp_alpha_bracket t q ex SI N1) as (i & al & _ & _ & _ & [(-> & H0 & _)|(k & t0 & t1 & -> & H0 & H1 & Hq & _)]).
      - exists a, b. auto.
      - rewrite Ha in H0. congruence.
      - eauto 6. }
    destruct (ti_between t val F SI Ne HF q ex k t0 t1 H0 H1 Hq) as (al & Al & _ & _ & Ev).
    { destruct (Nat.lt_ge_cases (S k) (n - 1)) as [|G]; [auto|]. right. intros ->. pose proof (nth_error_Some_lt _ _ _ H1). fold n in H.
      assert (S k = n - 1) as X by lia. rewrite X, Hb in H1. congruence. }
    exists (cells_lerp (F k) (F (S k)) al). split; [exact Ev|]. clear Ev. pose proof (HS _ _ H0) as S0. pose proof (HS _ _ H1) as S1.
    assert (Lt : (inject_Z t0 < inject_Z t1)%Q). { rewrite <- Zlt_Qlt. apply (SI k (S k)); auto. }
    generalize dependent (F k). generalize dependent (F (S k)). clear - Lin H0 H1 Hq Al Lt. revert Lin.
    induction pts as [|p ps IH]; intros Lin l1 S1 l0 S0; inversion S0; inversion S1; subst; cbn [cells_lerp]; constructor.
    + eapply holds_lerp; eauto. pose proof (Lin p (or_introl eq_refl) k t0 t1 q H0 H1 ltac:(lia)) as X. cbn beta in X.
      assert (Y : ((E q p - E t0 p - (E t1 p - E t0 p) * al) * (inject_Z t1 - inject_Z t0) == 0)%Q).
      { rewrite <- Al in X. nra. }
      apply Qmult_integral in Y as [Y|Y]; lra.
    + apply IH; auto. intros; apply Lin; right; auto.
  - rewrite Ha in Ha'. injection Ha' as <-. exists (F 0). split; [apply (ti_first t val F SI Ne HF HL q true a); auto|auto].
  - fold n in Hb'. rewrite Hb in Hb'. injection Hb' as <-. exists (F (n - 1)). split; [apply (ti_last t val F SI Ne HF HL q true b); auto|auto].
  - rewrite Ha in H1. injection H1 as <-. auto.
Qed.

(** Rows of a depth axis that stay off the last-level path. *)
Definition fine_row (n : nat) (r : drow) : Prop :=
  r = (None, None) \/ (exists al, r = (Some (-1)%Z, Some al) /\ (al == 1)%Q) \/ exists j al, r = (Some (Z.of_nat j), Some al) /\ S j < n.
(** The value a row asks for, from the values [g] of the levels. *)
Definition row_masked (r : drow) : bool := match fst r with None => true | Some _ => false end.
Definition row_value (g : nat -> Q) (r : drow) : Q :=
  match r with
  | (Some i, Some al) => if (i =? -1)%Z then g 0 else (g (Z.to_nat i) + (g (S (Z.to_nat i)) - g (Z.to_nat i)) * al)%Q
  | _ => 0%Q
  end.
Lemma forall2_nth {A B} (R : A -> B -> Prop) : forall l m, length m = length l -> (forall k a, nth_error l k = Some a -> exists b, nth_error m k = Some b /\ R a b) -> Forall2 R l m.
Proof.
  induction l as [|a l IH]; intros [|b m] L H; try discriminate; constructor.
  - destruct (H 0 a eq_refl) as (b' & Hb & ?). injection Hb as ->. auto.
  - apply IH; [cbn in L; lia|]. intros k x Hx. exact (H (S k) x Hx).
Qed.
Lemma view_length rows : (fst (map fst rows, map (fun x : drow => match snd x with Some a => a | None => 0%Q end) rows)) = map fst rows.
Proof. reflexivity. Qed.

Section Rows.
  Context {P : Type} (order : list dim) (shape : list nat) (dv : depth_view (P := P)) (val : list P -> list Z -> result (list cell))
          (slices : list Z) (f : nat -> P -> cell) (E : nat -> P -> Q) (n : nat) (pts : list P) (rows : list drow).
  Context (HV : dv_alphas dv pts = view_rows (Ok rows)) (HL : length rows = length pts) (HN : 2 <= n) (DL : dim_len order shape DDepth = Ok n).
  Lemma levels_hold : n <> dv_layers dv -> Forall (fine_row n) rows ->
    (forall j ps, j < n -> val ps (slices ++ [Z.of_nat j]) = Ok (map (f j) ps)) ->
    (forall ps, val ps (slices ++ [-1]%Z) = Ok (map (f (n - 1)) ps)) ->
    (forall j p, j < n -> In p pts -> Shows (E j p) (f j p)) ->
    exists vs, v_depth order shape (Some dv) val pts slices = Ok vs /\
      Forall2 (fun x c => Holds (row_masked (snd x)) (row_value (fun k => E k (fst x)) (snd x)) c) (combine pts rows) vs.
  Proof.
    intros NL FR V V1 Sm. unfold drow in *. unfold v_depth. rewrite HV. unfold view_rows. cbn [bind]. rewrite DL. cbn [bind fst snd].
    set (g := fun (i : Z) (p : P) => f (if (i =? -1)%Z then n - 1 else Z.to_nat i) p).
    assert (Rng : forall i, In (Some i) (map fst rows) -> i = (-1)%Z \/ exists j, i = Z.of_nat j /\ S j < n).
    { intros i Hi. apply in_map_iff in Hi as (r & Hf & Hr). rewrite Forall_forall in FR. destruct (FR r Hr) as [->|[(al & -> & _)|(j & al & -> & Hj)]]; cbn in Hf; try discriminate; injection Hf as <-; eauto. }
    destruct (depth_level n val slices pts (map fst rows) (map (fun x => match snd x with Some a => a | None => 0%Q end) rows) g) with (layers := dv_layers dv) as (vs & Ev & Lv & Kv); auto.
    - now rewrite map_length.
    - now rewrite map_length.
    - intros i Hi. destruct (Rng i Hi) as [->|(j & -> & Hj)]; lia.
    - intros i ps Hi. assert (C : i = (-1)%Z \/ exists j, i = Z.of_nat j /\ j < n).
      { destruct Hi as [Hi|Hi]; destruct (Rng _ Hi) as [X|(j & X & Hj)]; [left; auto|right; exists j; split; [auto|lia]|right; exists 0; lia|right; exists (S j); lia]. }
      unfold g. destruct C as [->|(j & -> & Hj)].
      + cbn [Z.eqb Pos.eqb]. apply V1.
      + rewrite V by auto. destruct (Z.eqb_spec (Z.of_nat j) (-1)); [lia|]. now rewrite Nat2Z.id.
    - exists vs. split; [exact Ev|]. apply forall2_nth; [rewrite combine_length, HL; lia|].
      intros k [p r] Hk. assert (Hp : nth_error pts k = Some p /\ nth_error rows k = Some r).
      { clear - Hk. revert rows k Hk. induction pts as [|a l IH]; intros [|b m] [|k] H; try discriminate; cbn in *; [injection H as -> ->; auto|apply IH; auto]. }
      destruct Hp as [Hp Hr]. specialize (Kv k p (fst r) (match snd r with Some a => a | None => 0%Q end) Hp). rewrite !nth_error_map, Hr in Kv. specialize (Kv eq_refl eq_refl).
      eexists. split; [exact Kv|]. cbn [fst snd]. rewrite Forall_forall in FR. destruct (FR r (nth_error_In _ _ Hr)) as [->|[(al & -> & Ha)|(j & al & -> & Hj)]]; cbn [fst snd row_masked row_value Holds].
      + reflexivity.
      + unfold g. cbn [Z.eqb Pos.eqb Z.add Z.pos_sub Z.to_nat]. pose proof (nth_error_In _ _ Hp) as Ip.
        eapply shows_lerp; [apply (Sm (n - 1) p); [lia|auto]|apply (Sm 0 p); [lia|auto]|]. rewrite Ha. ring.
      + unfold g. pose proof (nth_error_In _ _ Hp) as Ip. destruct (Z.eqb_spec (Z.of_nat j) (-1)); [lia|]. destruct (Z.eqb_spec (Z.of_nat j + 1) (-1)); [lia|].
        replace (Z.of_nat j + 1)%Z with (Z.of_nat (S j)) by lia. rewrite !Nat2Z.id.
        eapply shows_lerp; [apply (Sm j p); [lia|auto]|apply (Sm (S j) p); [lia|auto]|reflexivity].
  Qed.
  (** Layers: the index is the layer. *)
  Definition layer_value (g : nat -> Q) (r : drow) : Q := match fst r with Some i => g (Z.to_nat i) | None => 0%Q end.
  Lemma layers_hold : n = dv_layers dv -> Forall (fun r => r = (None, None) \/ exists j al, r = (Some (Z.of_nat j), Some al) /\ j < n) rows ->
    (forall j ps, j < n -> val ps (slices ++ [Z.of_nat j]) = Ok (map (f j) ps)) ->
    (forall j p, j < n -> In p pts -> Shows (E j p) (f j p)) ->
    exists vs, v_depth order shape (Some dv) val pts slices = Ok vs /\
      Forall2 (fun x c => Holds (row_masked (snd x)) (layer_value (fun k => E k (fst x)) (snd x)) c) (combine pts rows) vs.
  Proof.
    clear HN. intros NL FR V Sm. unfold drow in *. unfold v_depth. rewrite HV. unfold view_rows. cbn [bind]. rewrite DL. cbn [bind fst snd].
    set (g := fun (i : Z) (p : P) => f (Z.to_nat i) p).
    assert (Rng : forall i, In (Some i) (map fst rows) -> exists j, i = Z.of_nat j /\ j < n).
    { intros i Hi. apply in_map_iff in Hi as (r & Hf & Hr). rewrite Forall_forall in FR. destruct (FR r Hr) as [->|(j & al & -> & Hj)]; cbn in Hf; try discriminate; injection Hf as <-; eauto. }
    destruct (depth_layer n val slices pts (map fst rows) (map (fun x => match snd x with Some a => a | None => 0%Q end) rows) g) with (layers := dv_layers dv) as (vs & Ev & Lv & Kv); auto.
    - now rewrite map_length.
    - now rewrite map_length.
    - intros i Hi. destruct (Rng i Hi) as (j & -> & Hj); lia.
    - intros i ps Hi. destruct (Rng i Hi) as (j & -> & Hj). unfold g. rewrite Nat2Z.id. now apply V.
    - exists vs. split; [exact Ev|]. apply forall2_nth; [rewrite combine_length, HL; lia|].
      intros k [p r] Hk. assert (Hp : nth_error pts k = Some p /\ nth_error rows k = Some r).
      { clear - Hk. revert rows k Hk. induction pts as [|a l IH]; intros [|b m] [|k] H; try discriminate; cbn in *; [injection H as -> ->; auto|apply IH; auto]. }
      destruct Hp as [Hp Hr]. specialize (Kv k p (fst r) Hp). rewrite !nth_error_map, Hr in Kv. specialize (Kv eq_refl).
      eexists. split; [exact Kv|]. cbn [fst snd]. rewrite Forall_forall in FR. destruct (FR r (nth_error_In _ _ Hr)) as [->|(j & al & -> & Hj)]; unfold layer_value; cbn [fst snd row_masked Holds].
      + reflexivity.
      + unfold g. rewrite Nat2Z.id. apply Sm; eauto using nth_error_In.
  Qed.
End Rows.

(** ** The water columns *)
Lemma digitize_flat prof d : (forall x, In x prof -> (x == 0)%Q) ->
  digitize d prof false = Ok (if Qlt_le_dec d 0 then 0 else length prof).
Proof.
  intros H. unfold digitize. assert (nondecreasingb prof = true) as ->.
  { induction prof as [|x [|y r] IH]; auto. cbn [nondecreasingb]. apply andb_true_iff. split; [apply Qle_bool_iff; rewrite (H x), (H y) by (cbn; auto); lra|]. apply IH. intros; apply H; now right. }
  f_equal. unfold searchsortedQ. cbn [negb].
  assert (SP : split_point (fun b => Qle_bool b d) prof (searchsorted (fun b => Qle_bool b d) prof)).
  { apply searchsorted_spec. intros i j x y _ Hx Hy Hp. apply nth_error_In in Hx, Hy. apply Qle_bool_iff in Hp. apply Qle_bool_iff. rewrite (H x Hx) in *. rewrite (H y Hy) in *. auto. }
  eapply split_point_unique; [exact SP|]. destruct (Qlt_le_dec d 0) as [L|L]; (split; [lia|split; intros i x Hi Hx]).
  - lia.
  - apply nth_error_In in Hx. destruct (Qle_bool x d) eqn:E; auto. apply Qle_bool_iff in E. rewrite (H x Hx) in E. lra.
  - apply nth_error_In in Hx. apply Qle_bool_iff. now rewrite (H x Hx).
  - apply nth_error_Some_lt in Hx. lia.
Qed.
Lemma s_point_strict prof sbc bbc d i al y : Ascending prof -> 2 <= length prof ->
  s_point 0 (Z.of_nat (length prof - 1)) sbc bbc (d, Some prof) = Ok (Some (Z.of_nat i), al) -> nth_error prof (S i) = Some y -> (d < y)%Q.
Proof.
  intros HA Hn. destruct (digitize_asc prof d false HA) as (k & E & Hk & K1 & K2).
  destruct (s_boundary_spec 0 (Z.of_nat (length prof - 1)) sbc bbc (Z.of_nat k - 1)) as (HB & _). specialize (HB eq_refl ltac:(lia)).
  intros Hs Hy. pose proof (nth_error_Some_lt _ _ _ Hy) as Ly.
  destruct (Nat.eq_dec k 0) as [->|Hk0]; [|destruct (Nat.eq_dec k (length prof)) as [->|Hkn]].
  - specialize (K2 (S i) y ltac:(lia) Hy). now apply Qle_bool_false in K2.
  - exfalso. destruct (Z.ltb_spec (Z.of_nat (length prof) - 1) 0); [lia|]. destruct (Z.leb_spec (Z.of_nat (length prof - 1)) (Z.of_nat (length prof) - 1)); [|lia].
    unfold s_point in Hs. cbn [snd fst] in Hs. rewrite E in Hs. cbn [bind] in Hs. cbv zeta in Hs. rewrite HB in Hs. destruct (bextrap bbc); [|discriminate]. injection Hs as X _. lia.
  - destruct (Z.ltb_spec (Z.of_nat k - 1) 0); [lia|]. destruct (Z.leb_spec (Z.of_nat (length prof - 1)) (Z.of_nat k - 1)); [lia|].
    destruct (nth_error_lt_Some prof (k - 1)) as [x Hx]; [lia|]. destruct (nth_error_lt_Some prof k) as [y' Hy']; [lia|].
    assert (x <= d)%Q. { specialize (K1 (k - 1) x ltac:(lia) Hx). apply Qle_bool_iff in K1. auto. }
    assert (d < y')%Q. { specialize (K2 k y' ltac:(lia) Hy'). apply Qle_bool_false in K2. auto. }
    destruct (s_point_inner 0 (Z.of_nat (length prof - 1)) sbc bbc d prof k x y') as (E1 & E2); auto; try lia; try lra.
    rewrite E1 in Hs. injection Hs as X _. assert (S i = k) by lia. subst k. rewrite Hy in Hy'. now injection Hy' as ->.
Qed.
Definition FlatRow (n : nat) (sbc bbc : bcond) (d : Q) (r : drow) : Prop :=
  (d < 0 -> r = if bextrap sbc then (Some (-1)%Z, Some 1) else (None, None))%Q /\
  (0 <= d -> r = if bextrap bbc then (Some (Z.of_nat n - 1)%Z, Some 0) else (None, None))%Q.
Lemma s_point_flat prof sbc bbc d : 2 <= length prof -> (forall x, In x prof -> (x == 0)%Q) ->
  exists r, s_point 0 (Z.of_nat (length prof - 1)) sbc bbc (d, Some prof) = Ok r /\ FlatRow (length prof) sbc bbc d r.
Proof.
  intros N H. unfold s_point. cbn [fst snd]. rewrite digitize_flat by auto. cbn [bind]. cbv zeta.
  rewrite (proj1 (s_boundary_spec 0 (Z.of_nat (length prof - 1)) sbc bbc _)) by lia.
  destruct (Qlt_le_dec d 0) as [L|L].
  - cbn [Z.of_nat Z.sub Z.opp Z.add Z.ltb Z.compare]. eexists. split; [reflexivity|]. split; intros; [destruct (bextrap sbc); reflexivity|lra].
  - destruct (Z.ltb_spec (Z.of_nat (length prof) - 1) 0); [lia|]. destruct (Z.leb_spec (Z.of_nat (length prof - 1)) (Z.of_nat (length prof) - 1)); [|lia].
    eexists. split; [reflexivity|]. split; intros; [lra|destruct (bextrap bbc); reflexivity].
Qed.
Lemma mapM_each {A} (F : A -> result Q) : forall (G : nat -> Q) l, (forall j a, nth_error l j = Some a -> exists v, F a = Ok v /\ (v == G j)%Q) ->
  exists sg, mapM F l = Ok sg /\ length sg = length l /\ forall j x, nth_error sg j = Some x -> (x == G j)%Q.
Proof.
  intros G l. revert G. induction l as [|r l IH]; intros G W.
  - exists []. split; [reflexivity|split; [reflexivity|]]. intros [|j] x H; discriminate.
  - destruct (W 0 r eq_refl) as (v & Ev & Hv). destruct (IH (fun j => G (S j))) as (sg & Eg & Lg & Kg). { intros j row Hj. exact (W (S j) row Hj). }
    exists (v :: sg). cbn [mapM]. rewrite Ev. cbn [bind]. rewrite Eg. cbn [bind]. split; [reflexivity|split; [cbn; lia|]]. intros [|j] x H; cbn in H; [injection H as <-; exact Hv|exact (Kg j x H)].
Qed.
Section Columns.
  Context (tree : list pt -> list (list Z) -> list pt -> list Z) (hist : list nat -> list spot -> list ug_op)
          (nodes : list pt) (faces : list (list Z)) (find : point -> Z) (te : terrain) (q : Z) (ex : bool).
  Context (HT : forall ps, tree nodes faces ps = map find ps) (HH : forall ix ps, Forall asks (hist ix ps))
          (M : TriMesh nodes faces) (FF : FindsFaces nodes faces find).
  Context (h : point -> Q) (zeta : Z -> point -> Q) (sigma : nat -> point -> Q) (qz : Z).
  Definition ZetaSamples (pts : list spot) : Prop :=
    match te_zeta te with
    | Some (t, data) => StrictlyIncreasing (t_data t) /\ t_data t <> [] /\ TimeAsked (t_data t) ex q qz /\
        (forall p, LinearInTime (t_data t) (fun u => zeta u p)) /\
        forall i u, nth_error (t_data t) i = Some u -> Sampled nodes faces (zeta u) (data [i])
    | None => (forall p, zeta qz p == 0)%Q /\ Forall (fun s => OnEarth (place s)) pts
    end.
  Context (Hh : Sampled nodes faces h (te_h te)) (Hs : SigmaSamples nodes faces sigma (te_siglev te)).
  Definition off (s : spot) : bool := (find (place s) =? -1)%Z.
  Notation leaf := (node_leaf nodes faces find).

  Lemma leaf_shows f data s : Sampled nodes faces f data -> Shows (if off s then 0%Q else f (place s)) (leaf data s).
  Proof. intros [NS L]. now apply node_shows. Qed.
  Lemma on_mesh_ok f data ix ps : Sampled nodes faces f (data ix) -> on_mesh tree hist nodes faces data ix ps = Ok (map (leaf (data ix)) ps).
  Proof. intros [NS L]. destruct (samples_numbers _ _ _ NS) as [N Ln]. now apply mesh_nodes. Qed.
  Lemma bathy_ok pts : bathy_at tree hist nodes faces te q ex pts = Ok (map (leaf (te_h te)) pts).
  Proof. exact (on_mesh_ok h (fun _ => te_h te) [] pts Hh). Qed.
  Lemma sigma_ok pts : sigma_at tree hist nodes faces (te_siglev te) pts = Ok (map (fun row => map (leaf (map CVal row)) pts) (te_siglev te)).
  Proof.
    unfold sigma_at. apply mapM_pure. intros row Hr. apply In_nth_error in Hr. destruct Hr as [k Hk]. exact (on_mesh_ok (sigma k) (fun _ => map CVal row) [] pts (Hs k row Hk)).
  Qed.
  Lemma zeta_ok pts : ZetaSamples pts -> exists zs, zeta_at tree hist nodes faces te q ex pts = Ok zs /\
    Forall2 (fun s c => Shows (if off s then 0%Q else zeta qz (place s)) c) pts zs.
  Proof.
    unfold ZetaSamples, zeta_at. destruct (te_zeta te) as [[t data]|].
    - intros (SI & Ne & TA & LT & Sm). set (n := length (t_data t)). assert (Hn : 0 < n) by (unfold n; destruct (t_data t); [congruence|cbn; lia]).
      change (at_grid _ [DTime; DEle] [n; length nodes] (Some t) None q ex pts) with (time_interp t q ex (grid_xy (on_mesh tree hist nodes faces data) [n] pts) []).
      apply (time_shows t q qz ex _ (fun u s => if off s then 0%Q else zeta u (place s)) pts SI Ne TA).
      + intros k tk Hk. pose proof (nth_error_Some_lt _ _ _ Hk) as Lk. fold n in Lk. rewrite grid_ix1 by auto. rewrite (on_mesh_ok _ _ _ _ (Sm k tk Hk)). eexists. split; [reflexivity|].
        clear - M FF Sm Hk. induction pts as [|s l IH]; constructor; auto. apply leaf_shows. auto.
      + fold n. rewrite grid_last1, grid_ix1 by lia. reflexivity.
      + intros s _. destruct (off s); [|apply LT]. intros k t0 t1 q0 _ _ _. ring.
    - intros [Z0 B]. eexists. split; [reflexivity|]. induction B as [|s l ((B1 & B2) & B3 & B4) _ IH]; constructor; auto. exists 0%Q. split.
      + unfold const_zeta. rewrite <- Qle_bool_iff in B1, B2, B3, B4. now rewrite B1, B2, B3, B4.
      + destruct (off s); [reflexivity|]. now rewrite Z0.
  Qed.

  Definition depth_of (s : spot) (k : nat) : Q := if off s then 0%Q else level_depth h zeta sigma qz k (place s).
  Definition Column (s : spot) (o : option (list Q)) : Prop := exists prof, o = Some prof /\ length prof = length (te_siglev te) /\
    forall k x, nth_error prof k = Some x -> (x == depth_of s k)%Q.
  Lemma profiles_ok pts : ZetaSamples pts -> exists profs, depth_profiles tree hist nodes faces te q ex (te_siglev te) pts = Ok profs /\ Forall2 Column pts profs.
  Proof.
    intros Hz. destruct (zeta_ok pts Hz) as (zs & Ez & Fz). unfold depth_profiles. rewrite Ez. cbn [bind]. rewrite sigma_ok. cbn [bind]. rewrite bathy_ok. cbn [bind].
    destruct (mapM_rows_in (fun k => water_column (nth k (map (leaf (te_h te)) pts) CNaN) (nth k zs CNaN) (map (fun l => nth k l CNaN) (map (fun row => map (leaf (map CVal row)) pts) (te_siglev te))))
      (fun k o => forall s, nth_error pts k = Some s -> Column s o) (seq 0 (length pts))) as (profs & Ep & Lp & Kp).
    - intros k Hk. apply in_seq in Hk. destruct (nth_error_lt_Some pts k) as [s Hsk]; [lia|].
      destruct (leaf_shows h (te_h te) s Hh) as (hv & Eh & Hhv).
      assert (exists zv, nth k zs CNaN = CVal zv /\ (zv == if off s then 0 else zeta qz (place s))%Q) as (zv & Ezv & Hzv).
      { clear - Fz Hsk. revert k Hsk. induction Fz as [|a c l m (v & -> & E) _ IH]; intros [|k] H; try discriminate; cbn in *; [injection H as ->; eauto|eauto]. }
      assert (Nh : nth k (map (leaf (te_h te)) pts) CNaN = CVal hv). { erewrite nth_error_nth; [|apply map_nth_error; exact Hsk]. exact Eh. }
      rewrite Nh, Ezv. unfold water_column. rewrite map_map, mapM_map.
      assert (exists sg, mapM (fun row => number (nth k (map (leaf (map CVal row)) pts) CNaN)) (te_siglev te) = Ok sg /\ length sg = length (te_siglev te) /\
        forall j x, nth_error sg j = Some x -> (x == if off s then 0 else sigma j (place s))%Q) as (sg & Eg & Lg & Kg).
      { assert (W : forall j row, nth_error (te_siglev te) j = Some row -> exists v, number (nth k (map (leaf (map CVal row)) pts) CNaN) = Ok v /\ (v == if off s then 0 else sigma j (place s))%Q).
        { intros j row Hr. destruct (leaf_shows (sigma j) (map CVal row) s (Hs j row Hr)) as (v & Ev & Hv). exists v. split; [|exact Hv].
          erewrite nth_error_nth; [|apply map_nth_error; exact Hsk]. now rewrite Ev. }
        exact (mapM_each (fun row => number (nth k (map (leaf (map CVal row)) pts) CNaN)) (fun j => if off s then 0%Q else sigma j (place s)) (te_siglev te) W). }
      rewrite Eg. cbn [bind]. eexists. split; [reflexivity|]. intros s' Hs'. rewrite Hsk in Hs'. injection Hs' as <-. eexists. split; [reflexivity|]. unfold fvcom_profile. split; [now rewrite map_length|].
      intros j x Hx. rewrite nth_error_map in Hx. destruct (nth_error sg j) as [sv|] eqn:Ej; [|discriminate]. cbn in Hx. injection Hx as <-. specialize (Kg j sv Ej). unfold fvcom_s, depth_of, level_depth.
      rewrite Hhv, Hzv, Kg. destruct (off s); ring.
    - exists profs. split; [exact Ep|]. rewrite seq_length in Lp. apply forall2_nth; [exact Lp|]. intros k s Hk.
      destruct (Kp k k) as (o & Ho & Ko). { pose proof (nth_error_Some_lt _ _ _ Hk). clear - H. rewrite nth_error_nth' with (d := 0) by (rewrite seq_length; auto). now rewrite seq_nth. }
      exists o. split; [exact Ho|auto].
  Qed.

  Context (n : nat) (HN : length (te_siglev te) = n) (N2 : 2 <= n) (NL : length (te_siglay te) <> n).
  Definition TopFirst : Prop := forall N0, nth_error nodes 0 = Some N0 -> forall j k, j < k < n -> (sigma k N0 < sigma j N0)%Q.
  Context (HTop : TopFirst) (HPl : te_plain te = true -> te_zeta te = None).
  Lemma some_node : exists N0, nth_error nodes 0 = Some N0.
  Proof.
    destruct M as [Ne K]. destruct faces as [|f r]; [congruence|]. destruct (K f (or_introl eq_refl)) as (a & ? & ? & A & ? & ? & _ & Ha & _).
    destruct nodes as [|n0 l]; [destruct a; discriminate|]. exists n0. reflexivity.
  Qed.
  Lemma column_ok : exists col, first_column te = Ok col /\ length col = n /\ Descending col.
  Proof.
    destruct some_node as (N0 & E0).
    destruct (mapM_each (fun row : list Q => match row with [] => Err IndexError | x :: _ => Ok x end) (fun k => sigma k N0) (te_siglev te)) as (col & E & L & K).
    - intros j row Hr. destruct (Hs j row Hr) as [NS _]. destruct nodes as [|x l]; [discriminate|]. cbn in E0. injection E0 as ->. destruct row as [|r rs]; cbn [map] in NS; inversion NS as [|? ? ? ? (v & Ev & Hv) _]; subst. injection Ev as <-. eauto.
    - exists col. split; [exact E|]. split; [lia|]. intros i j x y Hij Hx Hy. pose proof (nth_error_Some_lt _ _ _ Hy). rewrite (K _ _ Hx), (K _ _ Hy). apply (HTop N0 E0); lia.
  Qed.
  (** A point over the mesh has a column whose levels go down. *)
  Definition Deepening (s : spot) : Prop := off s = false -> forall j k, j < k < n -> (depth_of s j < depth_of s k)%Q.
  Definition Row (sbc bbc : bcond) (s : spot) (r : drow) : Prop :=
    if off s then FlatRow n sbc bbc (deep s) r
    else let z := depth_of s in let d := deep s in
      (d < z 0%nat -> r = if bextrap sbc then (Some (-1)%Z, Some 1) else (None, None))%Q /\
      (z (n - 1)%nat <= d -> r = if bextrap bbc then (Some (Z.of_nat n - 1)%Z, Some 0) else (None, None))%Q /\
      (z 0%nat <= d < z (n - 1)%nat -> exists i al, r = (Some (Z.of_nat i), Some al) /\ (S i < n)%nat /\ 0 <= al <= 1 /\ d < z (S i) /\ d == z i + al * (z (S i) - z i))%Q.
  Lemma rows_ok sbc bbc pts : ZetaSamples pts -> Forall Deepening pts ->
    exists rows, terrain_alphas tree hist nodes faces te q ex sbc bbc pts = Ok rows /\ Forall2 (Row sbc bbc) pts rows.
  Proof.
    intros Hz Hd. unfold terrain_alphas. destruct column_ok as (col & Ec & Lc & Dc). rewrite Ec. cbn [bind].
    assert (col <> []) by (intros ->; cbn in Lc; lia). rewrite argmax_desc, argmin_desc by auto. cbn [bind]. rewrite HN, Lc.
    destruct (Nat.eqb_spec n 1); [lia|]. destruct (Nat.eqb_spec n (length (te_siglay te))); [congruence|].
    destruct (profiles_ok pts Hz) as (profs & Ep & Fp). rewrite Ep. cbn [bind].
    assert (te_plain te && match te_zeta te with Some _ => true | None => false end = false) as ->.
    { destruct (te_plain te); [rewrite HPl by auto; reflexivity|reflexivity]. }
    rewrite s_alphas_unfold by (auto; lia).
    assert (Lp : length profs = length pts) by (clear - Fp; induction Fp; cbn; lia).
    assert (mapM (fun p : spot * option (list Q) => do l <- Ok (snd p); Ok (deep (fst p), l)) (combine pts profs) = Ok (map (fun p => (deep (fst p), snd p)) (combine pts profs))) as ->.
    { apply mapM_pure. reflexivity. }
    cbn [bind]. rewrite mapM_map. change (Z.of_nat 0) with 0%Z.
    assert (K : forall s o, Column s o -> Deepening s -> exists r, s_point 0 (Z.of_nat (n - 1)) sbc bbc (deep s, o) = Ok r /\ Row sbc bbc s r).
    { intros s o (prof & -> & L & V) D. rewrite HN in L. unfold Row. destruct (off s) eqn:Eo.
      - rewrite <- L. apply s_point_flat; [lia|]. intros x Hx. apply In_nth_error in Hx. destruct Hx as [k Hk]. rewrite (V k x Hk). unfold depth_of. now rewrite Eo.
      - assert (A : Ascending prof). { intros i j x y Hij Hx Hy. rewrite (V _ _ Hx), (V _ _ Hy). apply D; auto. apply nth_error_Some_lt in Hy. lia. }
        destruct (s_point_asc prof sbc bbc (deep s)) as (r & Er & R); auto; [lia|]. rewrite L in Er. exists r. split; [exact Er|].
        destruct (nth_error_lt_Some prof 0) as [a Ha]; [lia|]. destruct (nth_error_lt_Some prof (n - 1)) as [b Hb]; [lia|].
        destruct (R a b Ha) as (R1 & R2 & R3); [unfold Last; now rewrite L|]. rewrite L in R2. pose proof (V _ _ Ha) as Va. pose proof (V _ _ Hb) as Vb. cbv zeta.
        split; [intros X; apply R1; now rewrite Va|]. split; [intros X; apply R2; now rewrite Vb|].
        intros [X Y]. destruct R3 as (i & al & -> & x & y & Hx & Hy & B & E); [split; [now rewrite Va|now rewrite Vb]|].
        assert (SL : (deep s < y)%Q) by (eapply (s_point_strict prof); eauto; [lia|rewrite L; exact Er]).
        exists i, al. split; [reflexivity|]. split; [apply nth_error_Some_lt in Hy; lia|]. split; [exact B|]. rewrite <- (V _ _ Hx), <- (V _ _ Hy). split; [exact SL|exact E]. }
    clear - K Fp Hd. induction Fp as [|s o l m C _ IH]; [exists []; split; [reflexivity|constructor]|].
    inversion Hd as [|? ? D1 D2]; subst. destruct (K s o C D1) as (r & Er & R). destruct (IH D2) as (rows & Ers & Fr). exists (r :: rows). cbn [combine mapM fst snd]. rewrite Er. cbn [bind]. rewrite Ers. cbn [bind].
    split; [reflexivity|constructor; auto].
  Qed.

  Context (f : Z -> nat -> point -> Q) (data : list nat -> list cell) (time : option time_obj) (q' : Z).
  Context (HTime : TimeOk (option_map t_data time) ex q q') (HSt : Steady (option_map t_data time) f).
  Definition field (u : Z) (k : nat) (s : spot) : Q := if off s then 0%Q else f u k (place s).
  Definition Safe (bbc : bcond) (s : spot) : Prop := bextrap bbc = true -> (if off s then deep s < 0 else deep s < depth_of s (n - 1)%nat)%Q.
  Lemma fine sbc bbc s r : Safe bbc s -> Row sbc bbc s r -> fine_row n r.
  Proof.
    unfold Safe, Row, FlatRow, fine_row. intros B. destruct (off s).
    - intros [R1 R2]. destruct (Qlt_le_dec (deep s) 0) as [L|L].
      + rewrite (R1 L). destruct (bextrap sbc); [right; left; exists 1%Q; split; [auto|reflexivity]|now left].
      + rewrite (R2 L). destruct (bextrap bbc); [|now left]. specialize (B eq_refl). lra.
    - cbv zeta. intros (R1 & R2 & R3). destruct (Qlt_le_dec (deep s) (depth_of s 0)) as [L|L].
      + rewrite (R1 L). destruct (bextrap sbc); [right; left; exists 1%Q; split; [auto|reflexivity]|now left].
      + destruct (Qlt_le_dec (deep s) (depth_of s (n - 1))) as [L'|L'].
        * destruct (R3 (conj L L')) as (i & al & -> & Hi & _). right; right. eauto.
        * rewrite (R2 L'). destruct (bextrap bbc); [|now left]. specialize (B eq_refl). lra.
  Qed.
  Lemma row_linear l r (g : Z -> nat -> Q) : (forall k, LinearInTime l (fun u => g u k)) -> LinearInTime l (fun u => row_value (g u) r).
  Proof.
    intros H. destruct r as [[i|] [al|]]; cbn [row_value]; try (intros k t0 t1 q0 _ _ _; ring). destruct (i =? -1)%Z; [apply H|].
    intros k t0 t1 q0 H0 H1 Hq. pose proof (H (Z.to_nat i) k t0 t1 q0 H0 H1 Hq) as X. pose proof (H (S (Z.to_nat i)) k t0 t1 q0 H0 H1 Hq) as Y. cbn beta in *.
    set (a := g q0 (Z.to_nat i)) in *. set (b := g t0 (Z.to_nat i)) in *. set (c := g t1 (Z.to_nat i)) in *. set (a' := g q0 (S (Z.to_nat i))) in *. set (b' := g t0 (S (Z.to_nat i))) in *. set (c' := g t1 (S (Z.to_nat i))) in *.
    set (T := (inject_Z t1 - inject_Z t0)%Q) in *. set (T' := (inject_Z q0 - inject_Z t0)%Q) in *.
    transitivity ((1 - al) * ((a - b) * T) + al * ((a' - b') * T))%Q; [ring|]. rewrite X, Y. ring.
  Qed.
  Lemma layer_linear l r (g : Z -> nat -> Q) : (forall k, LinearInTime l (fun u => g u k)) -> LinearInTime l (fun u => layer_value (g u) r).
  Proof. intros H. unfold layer_value. destruct (fst r); [apply H|]. intros k t0 t1 q0 _ _ _. ring. Qed.
  Lemma field_linear l : (forall k p, LinearInTime l (fun u => f u k p)) -> forall s k, LinearInTime l (fun u => field u k s).
  Proof. intros H s k. unfold field. destruct (off s); [|apply H]. intros j t0 t1 q0 _ _ _. ring. Qed.
  Lemma row_value_eq g g' r : (forall k, (g k == g' k)%Q) -> (row_value g r == row_value g' r)%Q.
  Proof. intros H. destruct r as [[i|] [al|]]; cbn [row_value]; try reflexivity. destruct (i =? -1)%Z; [apply H|]. now rewrite !H. Qed.
  Lemma holds_eq m x y c : Holds m x c -> (x == y)%Q -> Holds m y c.
  Proof. destruct m; cbn [Holds]; auto. intros. eapply shows_eq; eauto. Qed.

  (** [n'] is the extent of the data: the levels, or the layers. *)
  Section Extent.
    Context (n' : nat) (value : (nat -> Q) -> drow -> Q) (sbc bbc : bcond) (pts : list spot) (rows : list drow).
    Context (N1 : 1 <= n') (HS : FieldSamples nodes faces n' (option_map t_data time) f data).
    Let view := terrain_view tree hist nodes faces te q ex sbc bbc.
    Context (HV : dv_alphas view pts = view_rows (Ok rows)) (HL : length rows = length pts).
    Context (VL : forall l r (g : Z -> nat -> Q), (forall k, LinearInTime l (fun u => g u k)) -> LinearInTime l (fun u => value (g u) r)).
    Context (HD : forall order shape (val : list spot -> list Z -> result (list cell)) slices (lf : nat -> spot -> cell) (E : nat -> spot -> Q),
      dim_len order shape DDepth = Ok n' ->
      (forall j ps, j < n' -> val ps (slices ++ [Z.of_nat j]) = Ok (map (lf j) ps)) -> (forall ps, val ps (slices ++ [-1]%Z) = Ok (map (lf (n' - 1)) ps)) ->
      (forall j p, j < n' -> In p pts -> Shows (E j p) (lf j p)) ->
      exists vs, v_depth order shape (Some view) val pts slices = Ok vs /\
        Forall2 (fun x c => Holds (row_masked (snd x)) (value (fun k => E k (fst x)) (snd x)) c) (combine pts rows) vs).
    Lemma at_holds : exists vs, terrain_at tree hist nodes faces te q ex data n' time sbc bbc pts = Ok vs /\
      Forall2 (fun x c => Holds (row_masked (snd x)) (value (fun k => field q' k (fst x)) (snd x)) c) (combine pts rows) vs.
    Proof.
      unfold terrain_at. fold view. destruct time as [t|]; cbn [option_map app] in *.
      - destruct (HTime _ eq_refl) as (SI & Ne & TA). set (nt := length (t_data t)). assert (Hn : 0 < nt) by (unfold nt; destruct (t_data t); [congruence|cbn; lia]).
        change (at_grid (on_mesh tree hist nodes faces data) [DTime; DDepth; DEle] [nt; n'; length nodes] (Some t) (Some view) q ex pts) with
          (time_interp t q ex (v_depth [DTime; DDepth; DEle] [nt; n'; length nodes] (Some view) (grid_xy (on_mesh tree hist nodes faces data) [nt; n']) pts) []).
        apply (time_holds (fun x => row_masked (snd x)) t q q' ex _ (fun u x => value (fun k => field u k (fst x)) (snd x)) (combine pts rows) SI Ne TA).
        + intros k tk Hk. pose proof (nth_error_Some_lt _ _ _ Hk) as Lk. fold nt in Lk.
          apply (HD _ _ (grid_xy (on_mesh tree hist nodes faces data) [nt; n']) [Z.of_nat k] (fun j => leaf (data [k; j])) (fun j s => field tk j s)); auto.
          * intros j ps Hj. cbn [app]. rewrite grid_ix2 by auto. apply (on_mesh_ok (f tk j)). exact (HS j Hj k tk Hk).
          * intros ps. cbn [app]. rewrite grid_last2 by lia. apply (on_mesh_ok (f tk (n' - 1))). apply (HS (n' - 1)); auto; lia.
          * intros j s Hj _. apply leaf_shows. exact (HS j Hj k tk Hk).
        + fold nt. unfold v_depth. rewrite HV. unfold view_rows. cbn [bind]. destruct (dim_len _ _ _); cbn [bind]; [|reflexivity].
          apply depth_interp_ext. intros ps i. cbn [app]. now apply grid_first_last.
        + intros x _. apply VL. apply field_linear. exact HSt.
      - change (at_grid (on_mesh tree hist nodes faces data) [DDepth; DEle] [n'; length nodes] None (Some view) q ex pts) with
          (v_depth [DDepth; DEle] [n'; length nodes] (Some view) (grid_xy (on_mesh tree hist nodes faces data) [n']) pts []).
        apply (HD _ _ (grid_xy (on_mesh tree hist nodes faces data) [n']) [] (fun j => leaf (data [j])) (fun j s => field q' j s)); auto.
        + intros j ps Hj. cbn [app]. rewrite grid_ix1 by auto. apply (on_mesh_ok (f q' j)). exact (HS j Hj q').
        + intros ps. cbn [app]. rewrite grid_last1 by lia. apply (on_mesh_ok (f q' (n' - 1))). apply (HS (n' - 1)). lia.
        + intros j s Hj _. apply leaf_shows. exact (HS j Hj q').
    Qed.
  End Extent.

  Lemma levels_at sbc bbc pts : ZetaSamples pts -> Forall Deepening pts -> Forall (Safe bbc) pts -> FieldSamples nodes faces n (option_map t_data time) f data ->
    exists rows vs, Forall2 (Row sbc bbc) pts rows /\ terrain_at tree hist nodes faces te q ex data n time sbc bbc pts = Ok vs /\
      Forall2 (fun x c => Holds (row_masked (snd x)) (row_value (fun k => field q' k (fst x)) (snd x)) c) (combine pts rows) vs.
  Proof.
    intros Hz Hd Hsf HS. destruct (rows_ok sbc bbc pts Hz Hd) as (rows & Er & Fr). exists rows.
    assert (HV : dv_alphas (terrain_view tree hist nodes faces te q ex sbc bbc) pts = view_rows (Ok rows)). { unfold terrain_view. cbn [dv_alphas]. now rewrite Er. }
    assert (HL : length rows = length pts) by (clear - Fr; induction Fr; cbn; lia).
    assert (HF : Forall (fine_row n) rows). { clear - Fr Hsf. induction Fr as [|s r l m R _ IH]; inversion Hsf; subst; constructor; eauto using fine. }
    destruct (at_holds n row_value sbc bbc pts rows) as (vs & Ev & Fv); auto; [lia|exact row_linear| |eauto].
    intros order shape val slices lf E DL V V1 Sm. apply (levels_hold order shape _ val slices lf E n pts rows); auto.
  Qed.
  Lemma layers_at sbc bbc pts : ZetaSamples pts -> Forall Deepening pts -> length (te_siglay te) = n - 1 ->
    Forall (Safe bbc) pts -> Forall (fun s => bextrap sbc = true -> (if off s then 0 <= deep s else depth_of s 0%nat <= deep s)%Q) pts -> FieldSamples nodes faces (n - 1) (option_map t_data time) f data ->
    exists rows vs, Forall2 (Row sbc bbc) pts rows /\ terrain_at tree hist nodes faces te q ex data (n - 1) time sbc bbc pts = Ok vs /\
      Forall2 (fun x c => Holds (row_masked (snd x)) (layer_value (fun k => field q' k (fst x)) (snd x)) c) (combine pts rows) vs.
  Proof.
    intros Hz Hd Hly Hsf Hup HS. destruct (rows_ok sbc bbc pts Hz Hd) as (rows & Er & Fr). exists rows.
    assert (HV : dv_alphas (terrain_view tree hist nodes faces te q ex sbc bbc) pts = view_rows (Ok rows)). { unfold terrain_view. cbn [dv_alphas]. now rewrite Er. }
    assert (HL : length rows = length pts) by (clear - Fr; induction Fr; cbn; lia).
    assert (HF : Forall (fun r => r = (None, None) \/ exists j al, r = (Some (Z.of_nat j), Some al) /\ j < n - 1) rows).
    { clear - Fr Hsf Hup N2. induction Fr as [|s r l m R _ IH]; inversion Hsf as [|? ? S1 S2]; inversion Hup as [|? ? U1 U2]; subst; constructor; auto.
      destruct (fine sbc bbc s r S1 R) as [->|[(al & -> & _)|(j & al & -> & Hj)]]; [now left| |right; exists j, al; split; [auto|lia]]. exfalso.
      unfold Row, FlatRow in R. destruct (off s).
      - destruct R as [R1 R2]. destruct (Qlt_le_dec (deep s) 0) as [L|L]; [specialize (R1 L); destruct (bextrap sbc); [specialize (U1 eq_refl); lra|discriminate]|].
        specialize (R2 L). destruct (bextrap bbc); [|discriminate]. injection R2 as X _. lia.
      - cbv zeta in R. destruct R as (R1 & R2 & R3). destruct (Qlt_le_dec (deep s) (depth_of s 0)) as [L|L].
        + specialize (R1 L). destruct (bextrap sbc); [specialize (U1 eq_refl); lra|discriminate].
        + destruct (Qlt_le_dec (deep s) (depth_of s (n - 1))) as [L'|L'].
          * destruct (R3 (conj L L')) as (i & a' & X & _). injection X as X _. lia.
          * specialize (R2 L'). destruct (bextrap bbc); [|discriminate]. injection R2 as X _. lia. }
    destruct (at_holds (n - 1) layer_value sbc bbc pts rows) as (vs & Ev & Fv); auto; [lia|exact layer_linear| |eauto].
    intros order shape val slices lf E DL V V1 Sm. apply (layers_hold order shape _ val slices lf E (n - 1) pts rows); auto.
  Qed.
End Columns.
