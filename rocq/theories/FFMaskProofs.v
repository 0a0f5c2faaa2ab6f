(** Lemmas about missing data over terrain-following levels. *)
From Coq Require Import String Lqa.
From Verif Require Import Common CommonProofs TimeModel TimeSpec TimeProofs VariableModel VariableSpec VariableProofs VariableInterpProofs VariableAtProofs DepthModel DepthSpec DepthAtProofs
  UGridGeomModel UGridGeomSpec UGridGeomProofs UGridLocProofs UGridInterpProofs WholeModel WholeSpec WholeProofs WMaskSpec WMaskProofs TerrModel TerrSpec TerrProofs LoadModel FMeshModel FFvcomProofs FFMaskSpec.
From Verif Require FFvcomSpec.
Open Scope string_scope.
Open Scope list_scope.
Open Scope nat_scope.

(** Some time is always in use. *)
Lemma some_used ts ex q q' : StrictlyIncreasing ts -> ts <> [] -> TimeAsked ts ex q q' -> exists u, TimeUsed ts ex q u.
Proof.
  intros SI Ne TA. destruct (nonempty_ends _ Ne) as (a & b & Ha & Hb).
  destruct (Nat.eq_dec (length ts) 1) as [E1|N1]; [exists a; left; auto|].
  destruct TA as [((a' & b' & Ha' & Hb' & B) & ->)|[(a' & -> & Ha' & Lt & ->)|[(b' & -> & Hb' & Lt & ->)|(E1 & H1)]]].
  - rewrite Ha in Ha'. injection Ha' as <-. rewrite Hb in Hb'. injection Hb' as <-.
    destruct (Z.eq_dec q a) as [->|Na]; [exists a; right; left; auto|].
    destruct (Z.eq_dec q b) as [->|Nb]; [exists b; right; right; left; auto|].
    destruct (interp_alpha_bracket (mkTime ts None None) q ex SI N1) as (i & al & _ & _ & _ & [(-> & H0 & _)|(k & t0 & t1 & -> & H0 & H1 & Hq & _)]).
    + exists a, b. auto.
    + cbn [t_data] in H0. rewrite Ha in H0. congruence.
    + exists t0. right; right; right. exists k, t0, t1. split; [exact H0|split; [exact H1|split; [exact Hq|split; [|auto]]]]. congruence.
  - exists a'. right; left. auto.
  - exists b'. right; right; left. auto.
  - contradiction.
Qed.

(** ** Rows of a depth axis *)
Definition row_used (n : nat) (r : drow) (k : nat) : Prop :=
  match fst r with Some i => if (i =? -1)%Z then k = 0 \/ k = n - 1 else k = Z.to_nat i \/ k = S (Z.to_nat i) | None => False end.
Definition layer_used (r : drow) (k : nat) : Prop := match fst r with Some i => k = Z.to_nat i | None => False end.
Definition row_missing (used : drow -> nat -> Prop) (m : nat -> Prop) (r : drow) : Prop := row_masked r = true \/ exists k, used r k /\ m k.
Section Rows.
  Context {P : Type} (order : list dim) (shape : list nat) (dv : depth_view (P := P)) (val : list P -> list Z -> result (list cell))
          (slices : list Z) (f : nat -> P -> cell) (M : nat -> P -> Prop) (E : nat -> P -> Q) (n : nat) (pts : list P) (rows : list drow).
  Context (HV : dv_alphas dv pts = view_rows (Ok rows)) (HL : length rows = length pts) (HN : 2 <= n) (DL : dim_len order shape DDepth = Ok n).
  Lemma levels_see : n <> dv_layers dv -> Forall (fine_row n) rows ->
    (forall j ps, j < n -> val ps (slices ++ [Z.of_nat j]) = Ok (map (f j) ps)) ->
    (forall ps, val ps (slices ++ [-1]%Z) = Ok (map (f (n - 1)) ps)) ->
    (forall j p, j < n -> In p pts -> Sees (M j p) (E j p) (f j p)) ->
    exists vs, v_depth order shape (Some dv) val pts slices = Ok vs /\
      Forall2 (fun x c => Sees (row_missing (row_used n) (fun k => M k (fst x)) (snd x)) (row_value (fun k => E k (fst x)) (snd x)) c) (combine pts rows) vs.
  Proof.
    intros NL FR V V1 Sm. unfold drow in *. unfold v_depth. rewrite HV. unfold view_rows. cbn [bind]. rewrite DL. cbn [bind fst snd].
    set (g := fun (i : Z) (p : P) => f (if (i =? -1)%Z then n - 1 else Z.to_nat i) p).
    assert (Rng : forall i, In (Some i) (map fst rows) -> i = (-1)%Z \/ exists j, i = Z.of_nat j /\ S j < n).
    { intros i Hi. apply in_map_iff in Hi as (r & Hf & Hr). rewrite Forall_forall in FR. destruct (FR r Hr) as [->|[(al & -> & _)|(j & al & -> & Hj)]]; cbn in Hf; try discriminate; injection Hf as <-; eauto. }
    destruct (depth_level n val slices pts (map fst rows) (map (fun x => match snd x with Some a => a | None => 0%Q end) rows) g) with (layers := dv_layers dv) as (vs & Ev & Lv & Kv); auto.
    - now rewrite map_length.
    - now rewrite map_length.
    - intros i Hi. destruct (Rng i Hi) as [->|(j & -> & Hj)]; lia.
    - intros i ps Hi. assert (C : i = (-1)%Z \/ exists j, i = Z.of_nat j /\ j < n).
      { destruct Hi as [Hi|Hi]; destruct (Rng _ Hi) as [X|(j & X & Hj)]; [left; auto|right; exists j; split; [auto|lia]|right; exists 0; lia|right; exists (S j); lia]. }
      unfold g. destruct C as [->|(j & -> & Hj)].
      + cbn [Z.eqb Pos.eqb]. apply V1.
      + rewrite V by auto. destruct (Z.eqb_spec (Z.of_nat j) (-1)); [lia|]. now rewrite Nat2Z.id.
    - exists vs. split; [exact Ev|]. apply forall2_nth; [rewrite combine_length, HL; lia|].
      intros k [p r] Hk. assert (Hp : nth_error pts k = Some p /\ nth_error rows k = Some r).
      { clear - Hk. revert rows k Hk. induction pts as [|a l IH]; intros [|b m] [|k] H; try discriminate; cbn in *; [injection H as -> ->; auto|apply IH; auto]. }
      destruct Hp as [Hp Hr]. specialize (Kv k p (fst r) (match snd r with Some a => a | None => 0%Q end) Hp). rewrite !nth_error_map, Hr in Kv. specialize (Kv eq_refl eq_refl).
      eexists. split; [exact Kv|]. cbn [fst snd]. rewrite Forall_forall in FR. unfold row_missing, row_used. pose proof (nth_error_In _ _ Hp) as Ip.
      destruct (FR r (nth_error_In _ _ Hr)) as [->|[(al & -> & Ha)|(j & al & -> & Hj)]]; cbn [fst snd row_masked row_value].
      + left. split; [left; reflexivity|reflexivity].
      + unfold g. cbn [Z.eqb Pos.eqb Z.add Z.pos_sub Z.to_nat].
        apply (sees_iff (M (n - 1) p \/ M 0 p)).
        { split; [intros [H|H]; right; [exists (n - 1)|exists 0]; auto|intros [H|(k' & [->| ->] & H)]; [discriminate H|auto|auto]]. }
        eapply sees_lerp; [apply (Sm (n - 1) p); [lia|auto]|apply (Sm 0 p); [lia|auto]|]. rewrite Ha. ring.
      + unfold g. destruct (Z.eqb_spec (Z.of_nat j) (-1)); [lia|]. destruct (Z.eqb_spec (Z.of_nat j + 1) (-1)); [lia|].
        replace (Z.of_nat j + 1)%Z with (Z.of_nat (S j)) by lia. rewrite !Nat2Z.id.
        apply (sees_iff (M j p \/ M (S j) p)).
        { split; [intros [H|H]; right; [exists j|exists (S j)]; auto|intros [H|(k' & [->| ->] & H)]; [discriminate H|auto|auto]]. }
        eapply sees_lerp; [apply (Sm j p); [lia|auto]|apply (Sm (S j) p); [lia|auto]|reflexivity].
  Qed.
  Lemma layers_see : n = dv_layers dv -> Forall (fun r => r = (None, None) \/ exists j al, r = (Some (Z.of_nat j), Some al) /\ j < n) rows ->
    (forall j ps, j < n -> val ps (slices ++ [Z.of_nat j]) = Ok (map (f j) ps)) ->
    (forall j p, j < n -> In p pts -> Sees (M j p) (E j p) (f j p)) ->
    exists vs, v_depth order shape (Some dv) val pts slices = Ok vs /\
      Forall2 (fun x c => Sees (row_missing layer_used (fun k => M k (fst x)) (snd x)) (layer_value (fun k => E k (fst x)) (snd x)) c) (combine pts rows) vs.
  Proof.
    clear HN. intros NL FR V Sm. unfold drow in *. unfold v_depth. rewrite HV. unfold view_rows. cbn [bind]. rewrite DL. cbn [bind fst snd].
    set (g := fun (i : Z) (p : P) => f (Z.to_nat i) p).
    assert (Rng : forall i, In (Some i) (map fst rows) -> exists j, i = Z.of_nat j /\ j < n).
    { intros i Hi. apply in_map_iff in Hi as (r & Hf & Hr). rewrite Forall_forall in FR. destruct (FR r Hr) as [->|(j & al & -> & Hj)]; cbn in Hf; try discriminate; injection Hf as <-; eauto. }
    destruct (depth_layer n val slices pts (map fst rows) (map (fun x => match snd x with Some a => a | None => 0%Q end) rows) g) with (layers := dv_layers dv) as (vs & Ev & Lv & Kv); auto.
    - now rewrite map_length.
    - now rewrite map_length.
    - intros i Hi. destruct (Rng i Hi) as (j & -> & Hj); lia.
    - intros i ps Hi. destruct (Rng i Hi) as (j & -> & Hj). unfold g. rewrite Nat2Z.id. now apply V.
    - exists vs. split; [exact Ev|]. apply forall2_nth; [rewrite combine_length, HL; lia|].
      intros k [p r] Hk. assert (Hp : nth_error pts k = Some p /\ nth_error rows k = Some r).
      { clear - Hk. revert rows k Hk. induction pts as [|a l IH]; intros [|b m] [|k] H; try discriminate; cbn in *; [injection H as -> ->; auto|apply IH; auto]. }
      destruct Hp as [Hp Hr]. specialize (Kv k p (fst r) Hp). rewrite !nth_error_map, Hr in Kv. specialize (Kv eq_refl).
      eexists. split; [exact Kv|]. cbn [fst snd]. rewrite Forall_forall in FR. unfold row_missing, layer_used, layer_value.
      destruct (FR r (nth_error_In _ _ Hr)) as [->|(j & al & -> & Hj)]; cbn [fst snd row_masked].
      + left. split; [left; reflexivity|reflexivity].
      + unfold g. rewrite Nat2Z.id. apply (sees_iff (M j p)); [|apply Sm; eauto using nth_error_In].
        split; [intros H; right; exists j; auto|intros [H|(k' & -> & H)]; [discriminate H|exact H]].
  Qed.
End Rows.

Section Extent.
  Context (gi : list nat -> list spot -> result (list cell)) (tm : time_obj) (q q' : Z) (ex : bool) (view : depth_view (P := spot)).
  Context (n' len : nat) (leaf : nat -> nat -> spot -> cell) (M : Z -> nat -> spot -> Prop) (E : Z -> nat -> spot -> Q).
  Context (used : drow -> nat -> Prop) (value : (nat -> Q) -> drow -> Q) (pts : list spot) (rows : list drow).
  Context (N1 : 1 <= n') (SI : StrictlyIncreasing (t_data tm)) (Ne : t_data tm <> []) (TA : TimeAsked (t_data tm) ex q q').
  Context (HG : forall i j ps, i < length (t_data tm) -> j < n' -> gi [i; j] ps = Ok (map (leaf i j) ps)).
  Context (HS : forall i t j s, nth_error (t_data tm) i = Some t -> j < n' -> In s pts -> Sees (M t j s) (E t j s) (leaf i j s)).
  Context (HV : dv_alphas view pts = view_rows (Ok rows)) (HL : length rows = length pts).
  Context (LT : forall s k, LinearInTime (t_data tm) (fun u => E u k s)).
  Context (VL : forall l r (g : Z -> nat -> Q), (forall k, LinearInTime l (fun u => g u k)) -> LinearInTime l (fun u => value (g u) r)).
  Context (HD : forall order shape (val : list spot -> list Z -> result (list cell)) slices (lf : nat -> spot -> cell) (M : nat -> spot -> Prop) (E : nat -> spot -> Q),
      dim_len order shape DDepth = Ok n' ->
      (forall j ps, j < n' -> val ps (slices ++ [Z.of_nat j]) = Ok (map (lf j) ps)) -> (forall ps, val ps (slices ++ [-1]%Z) = Ok (map (lf (n' - 1)) ps)) ->
      (forall j p, j < n' -> In p pts -> Sees (M j p) (E j p) (lf j p)) ->
      exists vs, v_depth order shape (Some view) val pts slices = Ok vs /\
        Forall2 (fun x c => Sees (row_missing used (fun k => M k (fst x)) (snd x)) (value (fun k => E k (fst x)) (snd x)) c) (combine pts rows) vs).
  Definition row_sees (r : drow) (s : spot) (c : cell) : Prop :=
    (row_masked r = true -> c = CMasked) /\
    (row_masked r = false -> Sees (exists k, used r k /\ exists t, TimeUsed (t_data tm) ex q t /\ M t k s) (value (fun k => E q' k s) r) c).
  Lemma extent_sees : exists vs, at_grid gi [DTime; DDepth; DEle] [length (t_data tm); n'; len] (Some tm) (Some view) q ex pts = Ok vs /\
    Forall2 (fun x c => row_sees (snd x) (fst x) c) (combine pts rows) vs.
  Proof.
    set (nt := length (t_data tm)). assert (Hn : 0 < nt) by (unfold nt; destruct (t_data tm); [congruence|cbn; lia]).
    change (at_grid gi [DTime; DDepth; DEle] [nt; n'; len] (Some tm) (Some view) q ex pts) with
      (time_interp tm q ex (v_depth [DTime; DDepth; DEle] [nt; n'; len] (Some view) (grid_xy gi [nt; n']) pts) []).
    destruct (time_sees tm q q' ex (v_depth [DTime; DDepth; DEle] [nt; n'; len] (Some view) (grid_xy gi [nt; n']) pts)
      (fun u x => row_missing used (fun k => M u k (fst x)) (snd x)) (fun u x => value (fun k => E u k (fst x)) (snd x)) (combine pts rows) SI Ne TA) as (vs & Ev & V).
    - intros k tk Hk. pose proof (nth_error_Some_lt _ _ _ Hk) as Lk. fold nt in Lk.
      apply (HD _ _ (grid_xy gi [nt; n']) [Z.of_nat k] (leaf k) (M tk) (E tk)); [reflexivity| | |].
      + intros j ps Hj. cbn [app]. rewrite grid_ix2 by auto. apply HG; auto.
      + intros ps. cbn [app]. rewrite grid_last2 by lia. apply HG; [exact Lk|lia].
      + intros j s Hj Hs. exact (HS k tk j s Hk Hj Hs).
    - fold nt. unfold v_depth. rewrite HV. unfold view_rows. cbn [bind]. destruct (dim_len _ _ _); cbn [bind]; [|reflexivity].
      apply depth_interp_ext. intros ps i. cbn [app]. now apply grid_first_last.
    - intros x _. apply VL. intros k. apply LT.
    - exists vs. split; [exact Ev|]. destruct (some_used _ _ _ _ SI Ne TA) as [u0 U0]. clear - V U0.
      induction V as [|[s r] c l l' H _ IH]; constructor; auto. cbn [fst snd] in *. unfold row_sees, row_missing in *. split; intros R; rewrite R in H.
      + destruct H as [[_ ->]|[N _]]; [reflexivity|]. exfalso. apply N. exists u0. auto.
      + revert H. apply sees_iff. split.
        * intros (u & Hu & [X|(k & Hk & Hm)]); [discriminate X|]. exists k. split; [exact Hk|]. exists u. auto.
        * intros (k & Hk & u & Hu & Hm). exists u. split; [exact Hu|]. right. exists k. auto.
  Qed.
End Extent.

(** ** The levels in use *)
Section Down.
  Context (n n' : nat) (z : nat -> Q) (d : Q) (HD : forall j k, j < k < n -> (z j < z k)%Q).
  Lemma down_le i j : i <= j < n -> (z i <= z j)%Q.
  Proof. intros H. destruct (Nat.eq_dec i j) as [->|]; [apply Qle_refl|]. apply Qlt_le_weak, HD. lia. Qed.
  Lemma bracket_one i k : S i < n -> S k < n -> (z i <= d < z (S i))%Q -> (z k <= d < z (S k))%Q -> i = k.
  Proof.
    intros Li Lk [A B] [C D]. destruct (Nat.lt_trichotomy i k) as [X|[X|X]]; auto; exfalso.
    - apply (Qlt_irrefl d). eapply Qlt_le_trans; [exact B|]. eapply Qle_trans; [apply (down_le (S i) k); lia|exact C].
    - apply (Qlt_irrefl d). eapply Qlt_le_trans; [exact D|]. eapply Qle_trans; [apply (down_le (S k) i); lia|exact A].
  Qed.
  Lemma used_above k : (d < z 0%nat)%Q -> (LevelUsed n n' z d k <-> k = 0 \/ k = n' - 1).
  Proof.
    intros L. split; [|intros H; left; auto]. intros [[_ H]|(j & Lj & [A _] & _)]; [exact H|]. exfalso. apply (Qlt_irrefl d). eapply Qlt_le_trans; [exact L|].
    eapply Qle_trans; [apply (down_le 0 j); lia|exact A].
  Qed.
  Lemma used_within i k : S i < n -> (z i <= d < z (S i))%Q -> (LevelUsed n n' z d k <-> k = i \/ k = S i).
  Proof.
    intros Li B. split; [|intros H; right; exists i; auto]. intros [[L _]|(j & Lj & B' & H)].
    - exfalso. apply (Qlt_irrefl d). eapply Qlt_le_trans; [exact L|]. eapply Qle_trans; [apply (down_le 0 i); lia|apply B].
    - rewrite (bracket_one i j Li Lj B B'). exact H.
  Qed.
End Down.

Section Answers.
  Context (tree : list pt -> list (list Z) -> list pt -> list Z) (hist : list nat -> list spot -> list ug_op)
          (nodes : list pt) (faces : list (list Z)) (find : point -> Z) (te : TerrModel.terrain) (q : Z) (ex : bool).
  Context (HT : forall ps, tree nodes faces ps = map find ps) (HH : forall ix ps, Forall asks (hist ix ps))
          (M : TriMesh nodes faces) (FF : FindsFaces nodes faces find).
  Context (h : point -> Q) (zeta : Z -> point -> Q) (sigma : nat -> point -> Q) (qz : Z).
  Context (Hh : Sampled nodes faces h (te_h te)) (Hs : SigmaSamples nodes faces sigma (te_siglev te)).
  Context (n : nat) (HN : length (te_siglev te) = n) (N2 : 2 <= n) (NL : length (te_siglay te) <> n \/ te_siglay te = te_siglev te).
  Context (HTop : TopFirst nodes sigma n) (HPl : te_plain te = true -> te_zeta te = None).
  Context (pts : list spot) (HZ : ZetaSamples nodes faces te q ex zeta qz pts).
  Let z s k := level_depth h zeta sigma qz k (place s).
  Context (HD : forall s j k, In s pts -> find (place s) <> (-1)%Z -> j < k < n -> (z s j < z s k)%Q).
  Context (bbc : bcond).
  Let Row := TerrProofs.Row find h zeta sigma qz n BExtrapolate bbc.
  Context (tm : time_obj) (q' : Z) (n' : nat) (part : list nat -> list cell) (loc : string) (F : Z -> nat -> point -> Q) (m : Z -> nat -> point -> Prop).
  Context (SI : StrictlyIncreasing (t_data tm)) (Ne : t_data tm <> []) (TA : TimeAsked (t_data tm) ex q q').
  Context (HF : MaskedField nodes faces find (t_data tm) n' part (map place pts) loc F m) (HSt : FFvcomSpec.TimeSteady (t_data tm) F).
  Lemma masked_leaf : exists leaf,
    (forall i j ps, i < length (t_data tm) -> j < n' -> mesh_interp tree hist nodes faces (place_of loc) part [i; j] ps = Ok (map (leaf i j) ps)) /\
    (forall i t j s, nth_error (t_data tm) i = Some t -> j < n' -> In s pts -> Sees (m t j (place s)) (field find F t j s) (leaf i j s)).
  Proof.
    destruct HF as [F0 mk A|F0 G mk A B].
    - exists (fun i j => node_leaf nodes faces find (part [i; j])). split.
      + intros i j ps Hi Hj. destruct (nth_error_lt_Some (t_data tm) i Hi) as [t Ht]. destruct (A i t j Ht Hj) as (_ & MS & _). change (place_of "node") with VNode.
        exact (mesh_masked tree hist nodes faces find HT HH part _ _ [i; j] ps M FF MS).
      + intros i t j s Ht Hj Hi. destruct (A i t j Ht Hj) as (Li & MS & To).
        destruct (corners_exist nodes faces find s M FF) as (a & b & c & A1 & B1 & C1 & Co & HA & HB & HC & X).
        destruct (node_sees nodes faces find s (part [i; j]) _ _ a b c A1 B1 C1 Co HA HB HC X MS) as (al & x & v & w & _ & _ & HCo & Sn).
        assert (Mi : (mk t j a && mk t j b && mk t j c = true) <-> exists k a b c, FaceAsked (length faces) (find (place s)) k /\ nth_error faces k = Some [Z.of_nat a; Z.of_nat b; Z.of_nat c] /\
          mk t j a = true /\ mk t j b = true /\ mk t j c = true).
        { split.
          - intros H. apply andb_true_iff in H as [H Hc]. apply andb_true_iff in H as [Ha Hb]. destruct Co as (k & Fk & Hk). exists k, a, b, c. auto.
          - intros (k & a' & b' & c' & Fk & Hk & Ha & Hb & Hc). destruct (corners_unique faces find s a b c a' b' c' Co) as (-> & -> & ->); [exists k; auto|]. now rewrite Ha, Hb, Hc. }
        apply (sees_iff _ _ _ _ Mi). unfold field, off. destruct (Z.eqb_spec (find (place s)) (-1)) as [H|H]; [exact Sn|].
        destruct Co as (k & Fk & Hk). destruct Sn as [Sn|[Nm Sn]]; [now left|right]. split; [exact Nm|]. eapply shows_eq; [exact Sn|].
        assert (Ks : forall x, In x [a; b; c] -> (kept (mk t j x) (FieldAt nodes (F0 t j) x) == FieldAt nodes (F0 t j) x)%Q).
        { intros y Hy. destruct (mk t j y) eqn:Em; cbn [kept]; [|reflexivity]. destruct (To (place s) k a b c (in_map place _ _ Hi) Fk Hk) as [[Eb Ec]|Z0]; [|symmetry; auto].
          exfalso. apply Nm. rewrite Eb, Ec. destruct Hy as [<-|[<-|[<-|[]]]]; rewrite ?Eb, ?Ec in Em; now rewrite Em. }
        rewrite !Ks by (cbn [In]; auto). unfold FieldAt. rewrite HA, HB, HC.
        destruct (FF (place s)) as [|(k' & a2 & b2 & c2 & A2 & B2 & C2 & Ek & Hk' & HA2 & HB2 & HC2 & In3)]; [contradiction|].
        assert (k' = k) as -> by (destruct Fk as [Fk|[Fk _]]; lia). rewrite Hk in Hk'. injection Hk' as Ea Eb2 Ec2. apply Nat2Z.inj in Ea, Eb2, Ec2. subst a2 b2 c2.
        assert (A2 = A1) by congruence. assert (B2 = B1) by congruence. assert (C2 = C1) by congruence. subst A2 B2 C2.
        symmetry. exact (linear_combination nodes faces (F0 t j) (place s) a b c A1 B1 C1 x v w Li (nth_error_In _ _ Hk) HA HB HC In3 HCo).
    - exists (fun i j => face_leaf find (part [i; j])). split.
      + intros i j ps Hi Hj. destruct (nth_error_lt_Some (t_data tm) i Hi) as [t Ht]. change (place_of "face") with VFace.
        exact (mesh_face_masked tree hist nodes faces find HT HH part _ _ [i; j] ps (proj1 M) FF (A i t j Ht Hj)).
      + intros i t j s Ht Hj _. destruct (face_asked nodes faces find s (proj1 M) FF) as (k & Fk & Lk).
        destruct (face_sees faces find s (part [i; j]) _ _ k Fk Lk (A i t j Ht Hj)) as [_ Sn].
        apply (sees_iff (mk t j k = true)).
        { split; [intros H; exists k; auto|]. intros (k' & Fk' & H). assert (k' = k) as <-; [destruct Fk as [E|[E ->]], Fk' as [E'|[E' ->]]; lia|exact H]. }
        unfold field, off. destruct (Z.eqb_spec (find (place s)) (-1)) as [H|H]; [exact Sn|]. eapply sees_eq; [exact Sn|]. symmetry. apply B. destruct Fk as [Fk|[Fk _]]; [exact Fk|contradiction].
  Qed.
  Lemma steady_in_time s k : LinearInTime (t_data tm) (fun u => field find F u k s).
  Proof. unfold field. destruct (off find s); [|apply HSt]. intros j t0 t1 q0 _ _ _. ring. Qed.

  Context (len : nat).
  Let asked := at_grid (mesh_interp tree hist nodes faces (place_of loc) part) [DTime; DDepth; DEle] [length (t_data tm); n'; len] (Some tm)
    (Some (terrain_view tree hist nodes faces te q ex BExtrapolate bbc)) q ex pts.
  Let missing s := MissingOver (t_data tm) ex q m (place s).
  Context (Bot : bextrap bbc = false).
  Lemma masked_levels : n <= n' -> n' <> length (te_siglay te) -> exists vs, asked = Ok vs /\
    Forall2 (fun s c => (find (place s) <> (-1)%Z -> MaskedColumn n n' (z s) (fun k => F q' k (place s)) (missing s) (deep s) c) /\
      (find (place s) = (-1)%Z -> MaskedOutside n' (missing s) (deep s) c)) pts vs.
  Proof.
    intros Le Nly.
    destruct (rows_any tree hist nodes faces find te q ex HT HH M FF h zeta sigma qz Hh Hs n HN N2 NL HTop HPl pts HZ HD BExtrapolate bbc) as (rows & Er & Fr).
    destruct masked_leaf as (leaf & HG & HS).
    assert (HL : length rows = length pts) by (clear - Fr; induction Fr; cbn; lia).
    assert (HV : dv_alphas (terrain_view tree hist nodes faces te q ex BExtrapolate bbc) pts = view_rows (Ok rows)). { unfold terrain_view. cbn [dv_alphas]. now rewrite Er. }
    assert (FR : Forall (fine_row n') rows).
    { clear - Fr Bot Le N2. induction Fr as [|s r l l' R _ IH]; constructor; auto.
      assert (Sf : Safe find h zeta sigma qz n bbc s) by (unfold Safe; rewrite Bot; discriminate).
      destruct (fine find h zeta sigma qz n BExtrapolate bbc s r Sf R) as [-> |[H|(j & al & -> & Hj)]]; [left; reflexivity|right; left; exact H|right; right; exists j, al; split; [reflexivity|lia]]. }
    destruct (extent_sees (mesh_interp tree hist nodes faces (place_of loc) part) tm q q' ex (terrain_view tree hist nodes faces te q ex BExtrapolate bbc) n' len leaf
      (fun t k s => m t k (place s)) (field find F) (row_used n') row_value pts rows ltac:(lia) SI Ne TA HG HS HV HL steady_in_time row_linear) as (vs & Ev & Fv).
    { intros order shape val slices lf M0 E DL V V1 Sm. apply (levels_see order shape _ val slices lf M0 E n' pts rows); auto; lia. }
    exists vs. split; [exact Ev|].
    refine (row_pairs _ (fun s r c => row_sees tm q q' ex (fun t k s => m t k (place s)) (field find F) (row_used n') row_value r s c) _ pts _ rows vs Fr Fv). intros s r c Hi R [Hm H].
    unfold TerrProofs.Row, FlatRow, TerrProofs.depth_of in R. unfold field, row_used in H. destruct (off find s) eqn:Ho; unfold off in Ho.
    - apply Z.eqb_eq in Ho. split; [intros X; contradiction|]. intros _. destruct R as [R1 R2]. split; intros L.
      + rewrite (R1 L) in H. cbn [bextrap fst snd row_masked row_value Z.eqb Pos.eqb] in H. specialize (H eq_refl). revert H. apply sees_iff.
        split; [intros (k & [->| ->] & X); [left|right]; exact X|intros [X|X]; [exists 0|exists (n' - 1)]; auto].
      + rewrite (R2 L), Bot in Hm. exact (Hm eq_refl).
    - apply Z.eqb_neq in Ho. split; [intros _|intros X; contradiction]. cbv zeta in R. change (fun k => level_depth h zeta sigma qz k (place s)) with (z s) in R. destruct R as (R1 & R2 & R3).
      assert (Dn : forall j k, j < k < n -> (z s j < z s k)%Q) by (intros j k Hjk; apply HD; auto).
      split; [|split]; intros L.
      + rewrite (R1 L) in H. cbn [bextrap fst snd row_masked row_value Z.eqb Pos.eqb] in H. specialize (H eq_refl). revert H. apply sees_iff.
        split; intros (k & U & X); exists k; (split; [|exact X]); apply (used_above n n' (z s) (deep s) Dn k L); exact U.
      + rewrite (R2 L), Bot in Hm. exact (Hm eq_refl).
      + destruct (R3 L) as (i & al & E & Hi' & B & Ls & Ed). rewrite E in H. cbn [fst snd row_masked row_value] in H. specialize (H eq_refl). destruct (Z.eqb_spec (Z.of_nat i) (-1)); [lia|]. rewrite Nat2Z.id in H.
        assert (B0 : (z s i <= deep s)%Q).
        { assert (Wz : (z s i < z s (S i))%Q) by (apply Dn; lia). change (deep s == z s i + al * (z s (S i) - z s i))%Q in Ed. revert B Wz Ed.
          generalize (z s i) (z s (S i)) (deep s). clear. intros x y d B Wz Ed. pose proof (Qmult_le_0_compat al (y - x) (proj1 B) ltac:(lra)). lra. }
        exists (F q' i (place s) + (F q' (S i) (place s) - F q' i (place s)) * al)%Q. split.
        * exists i, (z s i), (z s (S i)), (F q' i (place s)), (F q' (S i) (place s)), al. rewrite !nth_depths by lia. do 4 (split; [reflexivity|]). split; [exact B|]. split; [exact Ed|ring].
        * revert H. apply sees_iff.
          split; intros (k & U & X); exists k; (split; [|exact X]); apply (used_within n n' (z s) (deep s) Dn i k Hi' (conj B0 Ls)); exact U.
  Qed.
  Lemma masked_layers : n - 1 <= n' -> n' = length (te_siglay te) ->
    (forall s, In s pts -> if Z.eq_dec (find (place s)) (-1) then (0 <= deep s)%Q else (z s 0%nat <= deep s)%Q) -> exists vs, asked = Ok vs /\
    Forall2 (fun s c => (find (place s) <> (-1)%Z -> MaskedLayer n (z s) (fun k => F q' k (place s)) (missing s) (deep s) c) /\
      (find (place s) = (-1)%Z -> c = CMasked)) pts vs.
  Proof.
    intros Le Nly HU.
    destruct (rows_any tree hist nodes faces find te q ex HT HH M FF h zeta sigma qz Hh Hs n HN N2 NL HTop HPl pts HZ HD BExtrapolate bbc) as (rows & Er & Fr).
    destruct masked_leaf as (leaf & HG & HS).
    assert (HL : length rows = length pts) by (clear - Fr; induction Fr; cbn; lia).
    assert (HV : dv_alphas (terrain_view tree hist nodes faces te q ex BExtrapolate bbc) pts = view_rows (Ok rows)). { unfold terrain_view. cbn [dv_alphas]. now rewrite Er. }
    assert (SU : forall s, In s pts -> (if off find s then 0 <= deep s else TerrProofs.depth_of find h zeta sigma qz s 0%nat <= deep s)%Q).
    { intros s Hi. specialize (HU s Hi). unfold TerrProofs.depth_of, off. destruct (Z.eq_dec (find (place s)) (-1)) as [E|E]; [rewrite E; exact HU|].
      destruct (Z.eqb_spec (find (place s)) (-1)); [contradiction|exact HU]. }
    assert (FR : Forall (fun r => r = (None, None) \/ exists j al, r = (Some (Z.of_nat j), Some al) /\ j < n') rows).
    { clear - Fr SU Bot Le N2. revert SU. induction Fr as [|s r l l' R _ IH]; intros SU; constructor; [|apply IH; intros; apply SU; right; auto].
      specialize (SU s (or_introl eq_refl)). unfold TerrProofs.Row, FlatRow in R. destruct (off find s).
      - destruct R as [R1 R2]. left. rewrite (R2 SU), Bot. reflexivity.
      - cbv zeta in R. destruct R as (R1 & R2 & R3). destruct (Qlt_le_dec (deep s) (TerrProofs.depth_of find h zeta sigma qz s (n - 1))) as [L'|L'].
        + destruct (R3 (conj SU L')) as (i & al & -> & Hi & _). right. exists i, al. split; [reflexivity|lia].
        + left. rewrite (R2 L'), Bot. reflexivity. }
    destruct (extent_sees (mesh_interp tree hist nodes faces (place_of loc) part) tm q q' ex (terrain_view tree hist nodes faces te q ex BExtrapolate bbc) n' len leaf
      (fun t k s => m t k (place s)) (field find F) layer_used layer_value pts rows ltac:(lia) SI Ne TA HG HS HV HL steady_in_time layer_linear) as (vs & Ev & Fv).
    { intros order shape val slices lf M0 E DL V V1 Sm. apply (layers_see order shape _ val slices lf M0 E n' pts rows); auto; lia. }
    exists vs. split; [exact Ev|].
    refine (row_pairs _ (fun s r c => row_sees tm q q' ex (fun t k s => m t k (place s)) (field find F) layer_used layer_value r s c) _ pts _ rows vs Fr Fv). intros s r c Hi R [Hm H]. specialize (SU s Hi).
    unfold TerrProofs.Row, FlatRow, TerrProofs.depth_of in R. unfold TerrProofs.depth_of in SU. unfold field, layer_used in H. destruct (off find s) eqn:Ho; unfold off in Ho.
    - apply Z.eqb_eq in Ho. split; [intros X; contradiction|]. intros _. destruct R as [_ R2]. rewrite (R2 SU), Bot in Hm. exact (Hm eq_refl).
    - apply Z.eqb_neq in Ho. split; [intros _|intros X; contradiction]. cbv zeta in R. change (fun k => level_depth h zeta sigma qz k (place s)) with (z s) in R. destruct R as (R1 & R2 & R3).
      change (level_depth h zeta sigma qz 0 (place s)) with (z s 0) in SU.
      assert (Dn : forall j k, j < k < n -> (z s j < z s k)%Q) by (intros j k Hjk; apply HD; auto).
      split.
      + intros [L|L]; [exfalso; lra|]. rewrite (R2 L), Bot in Hm. exact (Hm eq_refl).
      + intros k Hk [B1 B2]. destruct R3 as (i & al & E & Hi' & B & Ls & Ed). { split; [exact SU|]. eapply Qlt_le_trans; [exact B2|apply (down_le n (z s) Dn); lia]. }
        rewrite E in H. unfold layer_value in H. cbn [fst snd row_masked] in H. specialize (H eq_refl). rewrite Nat2Z.id in H.
        assert (B0 : (z s i <= deep s)%Q).
        { assert (Wz : (z s i < z s (S i))%Q) by (apply Dn; lia). change (deep s == z s i + al * (z s (S i) - z s i))%Q in Ed. revert B Wz Ed.
          generalize (z s i) (z s (S i)) (deep s). clear. intros x y d B Wz Ed. pose proof (Qmult_le_0_compat al (y - x) (proj1 B) ltac:(lra)). lra. }
        pose proof (bracket_one n (z s) (deep s) Dn i k Hi' Hk (conj B0 Ls) (conj B1 B2)) as <-.
        revert H. apply sees_iff. split; [intros (k' & -> & X); exact X|intros X; exists i; auto].
  Qed.
End Answers.
