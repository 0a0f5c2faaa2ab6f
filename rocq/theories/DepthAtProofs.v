(** Whole depth queries, and depth axes inside a Variable. *)
From Coq Require Import String Lqa.
From Verif Require Import Common CommonProofs TimeModel VariableModel VariableSpec VariableProofs
  VariableInterpProofs VariableAtProofs DepthModel DepthSpec DepthProofs DepthSigmaProofs.
Open Scope Z_scope.

(** ** Sigma axes: all points of a query *)
Section Sigma.
  Context {P : Type} (depth : P -> Q) (profile : nat -> P -> result (option (list Q))).
  Definition SRow (asc : bool) sbc bbc n p (r : drow) : Prop :=
    match profile n p with
    | Ok None => r = (None, None)
    | Ok (Some prof) => if asc then SRowAsc prof sbc bbc (depth p) r else SRowDesc prof sbc bbc (depth p) r
    | Err _ => False
    end.
  Lemma s_alphas_unfold surf bot nlev nlay n sbc bbc pts : n <> 1%nat -> nlev <> 1%nat -> n = nlev \/ n = nlay ->
    s_alphas depth profile surf bot nlev nlay (Some n) sbc bbc pts =
    do profs <- mapM (fun p => do l <- profile n p; Ok (depth p, l)) pts;
    mapM (s_point (Z.of_nat surf) (Z.of_nat bot) sbc bbc) profs.
  Proof.
    intros H1 H2 H. unfold s_alphas.
    assert (match Some n with Some 1%nat => true | _ => false end || Nat.eqb nlev 1 = false) as ->.
    { apply orb_false_intro; [|apply Nat.eqb_neq; auto]. destruct n as [|[|n]]; congruence. }
    assert (negb (Nat.eqb n nlev) && negb (Nat.eqb n nlay) = false) as ->; [|reflexivity].
    destruct H; subst; rewrite Nat.eqb_refl; cbn [negb andb]; auto using andb_false_r.
  Qed.
  Lemma mapM_pair n : forall pts, (forall p, In p pts -> exists o, profile n p = Ok o) ->
    exists profs, mapM (fun p => do l <- profile n p; Ok (depth p, l)) pts = Ok profs /\ length profs = length pts /\
      (forall x, In x profs -> exists p, In p pts /\ fst x = depth p /\ profile n p = Ok (snd x)) /\
      forall k p, nth_error pts k = Some p -> exists o, profile n p = Ok o /\ nth_error profs k = Some (depth p, o).
  Proof.
    induction pts as [|p pts IH]; intros H.
    - exists []. repeat split; auto; [intros x []|intros [|k] q; discriminate].
    - destruct (H p (or_introl eq_refl)) as (o & Ho). destruct IH as (profs & E & Hl & K1 & K2).
      { intros q Hq. apply H. right. auto. }
      exists ((depth p, o) :: profs). cbn [mapM]. rewrite Ho. cbn [bind]. rewrite E. cbn [bind].
      split; [auto|]. split; [cbn [length]; lia|]. split.
      + intros x [<-|Hx]; [exists p; cbn [fst snd]; auto using in_eq|].
        destruct (K1 x Hx) as (q & Hq & A & B). exists q. split; [right; auto|auto].
      + intros [|k] q Hq; cbn [nth_error] in *; eauto. injection Hq as <-. eauto.
  Qed.
  Lemma s_alphas_levels (asc : bool) surf bot n nlay sbc bbc pts : (2 <= n)%nat ->
    (if asc then surf = 0 /\ bot = n - 1 else surf = n - 1 /\ bot = 0)%nat ->
    (forall p, In p pts -> profile n p = Ok None \/
       exists prof, profile n p = Ok (Some prof) /\ length prof = n /\
                    if asc then Ascending prof else Descending prof) ->
    exists rows, s_alphas depth profile surf bot n nlay (Some n) sbc bbc pts = Ok rows /\
      length rows = length pts /\
      forall k p, nth_error pts k = Some p -> exists r, nth_error rows k = Some r /\ SRow asc sbc bbc n p r.
  Proof.
    intros Hn Hsb HP. rewrite s_alphas_unfold by (auto; lia).
    destruct (mapM_pair n pts) as (profs & E & Hl & K1 & K2).
    { intros p Hp. destruct (HP p Hp) as [H|(prof & H & _)]; eauto. }
    rewrite E. cbn [bind].
    destruct (mapM_rows_in (s_point (Z.of_nat surf) (Z.of_nat bot) sbc bbc)
      (fun x r => match snd x with None => r = (None, None)
                  | Some prof => if asc then SRowAsc prof sbc bbc (fst x) r else SRowDesc prof sbc bbc (fst x) r end) profs)
      as (rows & Er & Hlr & K3).
    { intros [d o] Hx. destruct (K1 _ Hx) as (p & Hp & Ed & Eo). cbn [fst snd] in *.
      destruct o as [prof|]; [|exists (None, None); split; reflexivity].
      destruct (HP p Hp) as [H|(prof' & H & Hlen & HA)]; [congruence|].
      rewrite H in Eo. injection Eo as ->.
      destruct asc; destruct Hsb as (-> & ->).
      - subst n. apply s_point_asc; auto.
      - subst n. apply s_point_desc; auto. }
    exists rows. split; [auto|]. split; [lia|]. intros k p Hp.
    destruct (K2 _ _ Hp) as (o & Ho & Hk). destruct (K3 _ _ Hk) as (r & Hr & HR).
    exists r. split; [auto|]. unfold SRow. rewrite Ho. cbn [fst snd] in HR. destruct o; auto.
  Qed.
  Lemma s_point_err surf bot sbc bbc d o e : (forall prof, o = Some prof -> (2 <= length prof)%nat) ->
    s_point surf bot sbc bbc (d, o) = Err e -> e = ValueError.
  Proof.
    unfold s_point. cbn [fst snd]. destruct o as [prof|]; [|discriminate]. intros H. specialize (H prof eq_refl).
    destruct (digitize d prof false) as [k|e'] eqn:E.
    - cbn [bind]. cbv zeta. destruct (s_boundary surf bot sbc bbc false (Z.of_nat k - 1)) as [[v|] m]; [discriminate|].
      set (c := clip 0 (Z.of_nat (length prof) - 2) (Z.of_nat k - 1)).
      assert (B : 0 <= c <= Z.of_nat (length prof) - 2) by (unfold c, clip; lia).
      destruct (nth_error_lt_Some prof (Z.to_nat c)) as [x Hx]; [lia|].
      destruct (nth_error_lt_Some prof (Z.to_nat (c + 1))) as [y Hy]; [lia|].
      rewrite <- (Z2Nat.id c) at 1 by lia. rewrite <- (Z2Nat.id (c + 1)) by lia.
      rewrite (py_get_nat _ _ _ Hx). cbn [bind]. rewrite (py_get_nat _ _ _ Hy). cbn [bind].
      destruct (Qeq_bool (y - x) 0); [congruence|].
      destruct (negb m && _); [congruence|discriminate].
    - cbn [bind]. unfold digitize in E. destruct (nondecreasingb prof); [discriminate|].
      destruct (nonincreasingb prof); [discriminate|]. congruence.
  Qed.
  (** Data on layers: one point beyond the last layer centre fails the whole query. *)
  Lemma s_alphas_layers_raise (asc : bool) surf bot n nlay sbc bbc pts p prof b : (3 <= n)%nat -> nlay = (n - 1)%nat ->
    (if asc then surf = 0 /\ bot = n - 1 else surf = n - 1 /\ bot = 0)%nat ->
    (forall q, In q pts -> profile nlay q = Ok None \/
       exists pr, profile nlay q = Ok (Some pr) /\ length pr = nlay) ->
    In p pts -> profile nlay p = Ok (Some prof) -> length prof = nlay ->
    (if asc then Ascending prof else Descending prof) -> Last prof b ->
    (if asc then (b < depth p)%Q else (depth p < b)%Q) ->
    s_alphas depth profile surf bot n nlay (Some nlay) sbc bbc pts = Err ValueError.
  Proof.
    intros Hn Hnl Hsb HP Hp Epr Hlen HA Hb Hd. rewrite s_alphas_unfold by (auto; lia).
    destruct (mapM_pair nlay pts) as (profs & E & Hl & K1 & K2).
    { intros q Hq. destruct (HP q Hq) as [H|(pr & H & _)]; eauto. }
    rewrite E. cbn [bind]. apply mapM_err.
    - intros [d o] Hx. destruct (s_point (Z.of_nat surf) (Z.of_nat bot) sbc bbc (d, o)) as [r|e] eqn:Es; [left; eauto|].
      right. f_equal. eapply s_point_err; [|exact Es]. intros pr ->.
      destruct (K1 _ Hx) as (q & Hq & _ & Eq). cbn [snd] in Eq.
      destruct (HP q Hq) as [H|(pr' & H & Hl')]; [congruence|]. rewrite H in Eq. injection Eq as ->. lia.
    - destruct (In_nth_error _ _ Hp) as (k & Hk). destruct (K2 _ _ Hk) as (o & Ho & Hnk).
      rewrite Epr in Ho. injection Ho as <-. exists (depth p, Some prof). split; [eapply nth_error_In; eauto|].
      destruct asc; destruct Hsb as (-> & ->).
      + rewrite <- Hnl, <- Hlen. apply (s_point_layer_asc prof sbc bbc (depth p) b); auto. lia.
      + rewrite <- Hnl, <- Hlen. apply (s_point_layer_desc prof sbc bbc (depth p) b); auto. lia.
  Qed.
  Lemma s_alphas_wrong_length surf bot nlev nlay n sbc bbc pts : n <> 1%nat -> nlev <> 1%nat ->
    n <> nlev -> n <> nlay ->
    s_alphas depth profile surf bot nlev nlay (Some n) sbc bbc pts = Err ValueError.
  Proof.
    intros H1 H2 H3 H4. unfold s_alphas.
    assert (match Some n with Some 1%nat => true | _ => false end || Nat.eqb nlev 1 = false) as ->.
    { apply orb_false_intro; [|apply Nat.eqb_neq; auto]. destruct n as [|[|m]]; congruence. }
    apply Nat.eqb_neq in H3, H4. rewrite H3, H4. reflexivity.
  Qed.
End Sigma.

(** ** ROMS *)
Lemma zipM_total {A B C} (f : A -> B -> result C) : (forall x y, exists z, f x y = Ok z) ->
  forall a b, length a = length b -> exists l, zipM f a b = Ok l.
Proof.
  intros H a. induction a as [|x a IH]; intros [|y b] Hl; simpl in Hl; try lia; [exists []; auto|].
  destruct (H x y) as (z & Ez). destruct (IH b ltac:(lia)) as (l & El).
  exists (z :: l). cbn [zipM]. rewrite Ez. cbn [bind]. rewrite El. reflexivity.
Qed.
Lemma roms_profile_total r n h z : r_vt r = 1 \/ r_vt r = 2 ->
  length (r_sw r) = length (r_Cw r) -> length (r_srho r) = length (r_Cr r) ->
  exists l, roms_profile r n h z = Ok l.
Proof.
  intros Hv H1 H2. unfold roms_profile. cbv zeta. apply zipM_total.
  - intros s c. unfold roms_s. destruct Hv as [-> | ->]; eexists; reflexivity.
  - destruct (Nat.eqb _ _); auto.
Qed.

(** A ROMS axis in the usual form: s and C run from -1 at the bottom to 0 at the surface. *)
Record RomsOk (r : roms) : Prop := {
  ro_n : (3 <= length (r_sw r))%nat;
  ro_lay : length (r_srho r) = (length (r_sw r) - 1)%nat;
  ro_cw : length (r_Cw r) = length (r_sw r);
  ro_cr : length (r_Cr r) = length (r_srho r);
  ro_sw : Ascending (r_sw r); ro_Cw : Ascending (r_Cw r);
  ro_srho : Ascending (r_srho r); ro_Cr : Ascending (r_Cr r);
  ro_b : First (r_sw r) (-1); ro_cb : First (r_Cw r) (-1);
  ro_s : Last (r_sw r) 0; ro_cs : Last (r_Cw r) 0;
  ro_hc : (0 <= r_hc r)%Q; ro_vt : r_vt r = 1 \/ r_vt r = 2 }.
(** A water column: positive bathymetry (at least hc for the first transform) and
    positive thickness. *)
Definition Column (r : roms) (h zeta : Q) : Prop :=
  (0 < h /\ 0 < zeta + h /\ (r_vt r = 1%Z -> r_hc r <= h))%Q.

Lemma roms_column_profile r h z : RomsOk r -> Column r h z ->
  exists prof, roms_profile r (length (r_sw r)) h z = Ok prof /\ length prof = length (r_sw r) /\
    Descending prof /\ (exists b, First prof b /\ b == h + z)%Q /\ (exists t, Last prof t /\ t == 0)%Q.
Proof.
  intros R (C1 & C2 & C3). pose proof (ro_n r R). pose proof (ro_lay r R).
  destruct (roms_profile_total r (length (r_sw r)) h z) as (prof & E).
  - apply (ro_vt r R).
  - symmetry. apply (ro_cw r R).
  - symmetry. apply (ro_cr r R).
  - exists prof. split; [auto|].
    pose proof (ro_hc r R) as Hhc.
    destruct (roms_profile_ends r h z prof) as (L & B & T); auto; try apply R; try lia;
      try (intros ?; lra).
    split; [auto|]. split; [|split; auto].
    apply (roms_profile_desc r (length (r_sw r)) h z); auto; apply R.
Qed.

Definition in_column (d h z : Q) : Prop := (0 <= d < h + z)%Q.
Lemma roms_alphas_levels r sbc bbc pts : RomsOk r ->
  (forall p h z, In p pts -> sp_hz p = Some (h, z) -> Column r h z) ->
  exists rows, roms_alphas r (Some (length (r_sw r))) sbc bbc pts = Ok rows /\ length rows = length pts /\
    forall k p, nth_error pts k = Some p -> exists row, nth_error rows k = Some row /\
      match sp_hz p with
      | None => row = (None, None)
      | Some (h, z) =>
          exists prof, roms_profile r (length (r_sw r)) h z = Ok prof /\
          (sp_depth p < 0 -> row = if bextrap sbc then (Some (Z.of_nat (length (r_sw r)) - 1)%Z, Some 0) else (None, None))%Q /\
          (h + z <= sp_depth p -> row = if bextrap bbc then (Some (-1)%Z, Some 1) else (None, None))%Q /\
          (in_column (sp_depth p) h z -> exists i al, row = (Some (Z.of_nat i), Some al) /\ Bracketed prof (sp_depth p) i al)
      end.
Proof.
  intros R HC. pose proof (ro_n r R). pose proof (ro_lay r R).
  assert (Hne : r_sw r <> []) by (intros E; rewrite E in *; simpl in *; lia).
  unfold roms_alphas. rewrite (argmax_asc _ Hne (ro_sw r R)), (argmin_asc _ Hne (ro_sw r R)). cbn [bind].
  match goal with |- context [s_alphas _ ?pr _ _ _ _ _ _ _] => set (prf := pr) end.
  destruct (s_alphas_levels sp_depth prf false (length (r_sw r) - 1) 0 (length (r_sw r)) (length (r_srho r)) sbc bbc pts)
    as (rows & E & Hl & K); auto; try lia.
  { intros p Hp. unfold prf. destruct (sp_hz p) as [[h z]|] eqn:Eh; [right|left; auto].
    destruct (roms_column_profile r h z R (HC p h z Hp Eh)) as (prof & E & L & D & _).
    rewrite E. exists prof. auto. }
  exists rows. split; [auto|]. split; [auto|]. intros k p Hp. destruct (K k p Hp) as (row & Hr & S).
  exists row. split; [auto|]. unfold SRow, prf in S. destruct (sp_hz p) as [[h z]|] eqn:Eh; auto.
  destruct (roms_column_profile r h z R (HC p h z (nth_error_In _ _ Hp) Eh)) as (prof & Ep & L & D & (b & Fb & Eb) & (t & Lt & Et)).
  rewrite Ep in S. cbn [bind] in S. exists prof. split; [auto|].
  destruct (S b t Fb Lt) as (S1 & S2 & S3). rewrite L in S2. unfold in_column.
  split; [intros Hd; apply S2; lra|]. split; [intros Hd; apply S1; lra|]. intros Hd. apply S3. lra.
Qed.
Lemma roms_alphas_layers_raise r sbc bbc pts p h z prof b : RomsOk r -> 
  (forall q h z, In q pts -> sp_hz q = Some (h, z) -> Column r h z) ->
  In p pts -> sp_hz p = Some (h, z) -> roms_profile r (length (r_srho r)) h z = Ok prof ->
  Last prof b -> (sp_depth p < b)%Q ->
  roms_alphas r (Some (length (r_srho r))) sbc bbc pts = Err ValueError.
Proof.
  intros R HC Hp Eh Ep Hb Hd. pose proof (ro_n r R). pose proof (ro_lay r R).
  assert (Hne : r_sw r <> []) by (intros E; rewrite E in *; simpl in *; lia).
  unfold roms_alphas. rewrite (argmax_asc _ Hne (ro_sw r R)), (argmin_asc _ Hne (ro_sw r R)). cbn [bind].
  match goal with |- context [s_alphas _ ?pr _ _ _ _ _ _ _] => set (prf := pr) end.
  assert (LEN : forall h z l, roms_profile r (length (r_srho r)) h z = Ok l -> length l = length (r_srho r)).
  { intros h' z' l E. unfold roms_profile in E. cbv zeta in E. rewrite Nat.eqb_refl in E. apply zipM_ok in E as (E & _). auto. }
  apply (s_alphas_layers_raise sp_depth prf false (length (r_sw r) - 1) 0 (length (r_sw r)) (length (r_srho r)) sbc bbc pts p prof b); auto.
  - intros q Hq. unfold prf. destruct (sp_hz q) as [[h' z']|] eqn:Eq; [right|left; auto].
    destruct (roms_profile_total r (length (r_srho r)) h' z' (ro_vt r R)) as (l & El); try (symmetry; apply R).
    rewrite El. exists l. split; [auto|eauto].
  - unfold prf. rewrite Eh, Ep. reflexivity.
  - eauto.
  - destruct (HC p h z Hp Eh) as (C1 & C2 & C3).
    apply (roms_profile_desc r (length (r_srho r)) h z prof); auto; apply R.
Qed.

(** ** Level depths inside a Variable *)
Section LVar.
  Context {P : Type} (g : grid_kind) (leaf : list nat -> P -> cell) (dep : P -> Q).
  Lemma l_view_ok (levels : list Q) dl sbc bbc (pts : list P) rows :
    l_alphas levels dl sbc bbc (map dep pts) = Ok rows ->
    dv_alphas (l_view dep levels dl sbc bbc) pts =
    Ok (map fst rows, map (fun x => match snd x with Some a => a | None => 0%Q end) rows).
  Proof. intros E. unfold l_view, view_rows. cbn [dv_alphas]. rewrite E. reflexivity. Qed.

  (** On a field linear in depth (at each horizontal position) the answer is the
      field itself; above the first level it is the first level's value. *)
  Lemma l_var_linear levels sbc bbc pts rest time q ex (c0 c1 : P -> Q) a b :
    Ascending levels -> (2 <= length levels)%nat -> First levels a -> Last levels b ->
    (forall j p L, nth_error levels j = Some L -> leaf [j] p = CVal (c0 p + c1 p * L)) ->
    (forall p, In p pts -> (dep p < b)%Q) ->
    exists vs, at_nomem (DDepth :: horizontal g) (length levels :: rest) leaf time
                 (Some (l_view dep levels (Some (length levels)) sbc bbc)) q ex pts = Ok vs /\
      length vs = length pts /\
      forall k p, nth_error pts k = Some p ->
        (a <= dep p -> exists v, nth_error vs k = Some (CVal v) /\ v == c0 p + c1 p * dep p)%Q /\
        (dep p < a -> (bmask sbc = true /\ nth_error vs k = Some CMasked) \/
                      (bmask sbc = false /\ exists v, nth_error vs k = Some (CVal v) /\ v == c0 p + c1 p * a))%Q.
  Proof.
    intros HA Hn Ha Hb Hleaf Hpts.
    destruct (l_alphas_asc levels (Some (length levels)) sbc bbc (map dep pts) HA Hn) as (rows & E & Hl & K).
    { intros X. injection X as X. lia. }
    rewrite map_length in Hl. unfold drow in *.
    set (idxs := map fst rows). set (als := map (fun x : option Z * option Q => match snd x with Some a => a | None => 0%Q end) rows).
    pose proof (l_view_ok levels (Some (length levels)) sbc bbc pts rows E) as Hv. fold idxs als in Hv.
    assert (Row : forall k p, nth_error pts k = Some p -> exists r, nth_error rows k = Some r /\ LRowAsc levels sbc bbc (dep p) r).
    { intros k p Hp. apply K. rewrite nth_error_map, Hp. reflexivity. }
    destruct (at_depth_levels g leaf (length levels) rest time (l_view dep levels (Some (length levels)) sbc bbc) q ex pts idxs als)
      as (vs & Ev & Lv & Kv); auto.
    { unfold idxs. rewrite map_length. auto. }
    { unfold als. rewrite map_length. auto. }
    { unfold l_view. cbn [dv_layers]. lia. }
    { intros i Hi. unfold idxs in Hi. apply in_map_iff in Hi as ((oi & oa) & Ei & Hin). cbn [fst] in Ei. subst oi.
      destruct (In_nth_error _ _ Hin) as (k & Hk). pose proof (nth_error_Some_lt _ _ _ Hk) as Hlt.
      destruct (nth_error_lt_Some pts k) as (p & Hp); [rewrite <- Hl; exact Hlt|].
      destruct (Row k p Hp) as (r & Hr & HR). rewrite Hk in Hr. injection Hr as <-.
      destruct (HR a b Ha Hb) as (R1 & R2 & R3). pose proof (Hpts p (nth_error_In _ _ Hp)).
      destruct (Qlt_le_dec (dep p) a) as [Hd|Hd].
      - specialize (R1 Hd). destruct (bmask sbc); [discriminate|]. injection R1 as -> _. lia.
      - destruct R3 as (j & al & R3 & (x & y & _ & Hy & _) & _); [lra|]. injection R3 as -> _.
        pose proof (nth_error_Some_lt _ _ _ Hy). lia. }
    exists vs. split; [auto|]. split; [auto|]. intros k p Hp. destruct (Row k p Hp) as ((oi & oa) & Hr & HR).
    destruct (HR a b Ha Hb) as (R1 & R2 & R3). pose proof (Hpts p (nth_error_In _ _ Hp)) as Hpb.
    assert (Ei : nth_error idxs k = Some oi) by (unfold idxs; rewrite nth_error_map, Hr; reflexivity).
    assert (Ea : nth_error als k = Some (match oa with Some a => a | None => 0%Q end))
      by (unfold als; rewrite nth_error_map, Hr; reflexivity).
    specialize (Kv k p oi _ Hp Ei Ea). split.
    - intros Hd. destruct R3 as (j & al & R3 & (x & y & Hx & Hy & Hb1 & Hb2) & _); [lra|].
      injection R3 as -> ->. pose proof (nth_error_Some_lt _ _ _ Hy).
      unfold level_value in Kv. rewrite py_index_nat in Kv by lia.
      replace (Z.of_nat j + 1) with (Z.of_nat (S j)) in Kv by lia. rewrite py_index_nat in Kv by lia.
      cbn [app] in Kv. rewrite (Hleaf _ p _ Hx), (Hleaf _ p _ Hy) in Kv. cbn [cell_lerp] in Kv.
      eexists. split; [exact Kv|]. rewrite Hb2. ring.
    - intros Hd. specialize (R1 Hd). destruct (bmask sbc); injection R1 as -> ->; [left; split; auto|right].
      split; [auto|]. unfold level_value in Kv. rewrite py_index_last in Kv by lia.
      change (-1 + 1) with (Z.of_nat 0) in Kv. rewrite py_index_nat in Kv by lia.
      destruct (nth_error_lt_Some levels (length levels - 1)%nat) as (y & Hy); [lia|].
      cbn [app] in Kv. rewrite (Hleaf _ p _ Hy), (Hleaf _ p _ Ha) in Kv. cbn [cell_lerp] in Kv.
      eexists. split; [exact Kv|]. ring.
  Qed.

  (** Bottom-up levels, default conditions: a query of points at or above the shallowest
      level always raises. *)
  Lemma l_var_desc_surface levels bbc pts rest time q ex b :
    Descending levels -> (2 <= length levels)%nat -> Last levels b -> pts <> [] ->
    (forall p, In p pts -> (dep p <= b)%Q) ->
    at_nomem (DDepth :: horizontal g) (length levels :: rest) leaf time
      (Some (l_view dep levels (Some (length levels)) BExtrapolate bbc)) q ex pts = Err UnboundLocalError.
  Proof.
    intros HA Hn Hb Hne Hpts. destruct (ends_exist levels Hn) as (a & b' & Ha & _).
    destruct (l_alphas_desc levels (Some (length levels)) BExtrapolate bbc (map dep pts) HA Hn) as (rows & E & Hl & K).
    { intros X. injection X as X. lia. }
    rewrite map_length in Hl. unfold drow in *.
    pose proof (l_view_ok levels (Some (length levels)) BExtrapolate bbc pts rows E) as Hv.
    assert (Row : forall r, In r rows -> r = (Some (Z.of_nat (length levels) - 1), Some 0%Q)).
    { intros r Hr. destruct (In_nth_error _ _ Hr) as (k & Hk). pose proof (nth_error_Some_lt _ _ _ Hk) as Hlt.
      destruct (nth_error_lt_Some pts k) as (p & Hp); [rewrite <- Hl; exact Hlt|].
      destruct (K k (dep p)) as (r' & Hr' & HR); [rewrite nth_error_map, Hp; auto|].
      rewrite Hk in Hr'. injection Hr' as <-. destruct (HR a b Ha Hb) as (_ & R2 & _).
      apply R2. apply Hpts. eapply nth_error_In; eauto. }
    eapply at_depth_last_only; [exact Hv|unfold l_view; cbn [dv_layers]; lia| |].
    - destruct pts as [|p pts]; [congruence|]. destruct rows as [|r rows]; [simpl in Hl; lia|].
      exists (Z.of_nat (length levels) - 1). cbn [map]. left. rewrite (Row r (or_introl eq_refl)). reflexivity.
    - intros i Hi. apply in_map_iff in Hi as (r & Er & Hin). rewrite (Row r Hin) in Er. cbn [fst] in Er. congruence.
  Qed.
End LVar.

(** ** L_Depth.from_netCDF *)
Lemma qset_len l k v : length (qset l k v) = length l.
Proof. revert k. induction l as [|x l IH]; intros [|k]; cbn [qset length]; auto. Qed.
Lemma qset_nth l k v i : (k < length l)%nat ->
  nth_error (qset l k v) i = if Nat.eqb i k then Some v else nth_error l i.
Proof.
  revert k i. induction l as [|x l IH]; intros k i Hk; [simpl in Hk; lia|].
  destruct k as [|k], i as [|i]; cbn [qset nth_error Nat.eqb]; auto. apply IH. simpl in Hk. lia.
Qed.
Lemma l_from_levels_spec levels : levels <> [] -> Monotone levels ->
  (forall i x, nth_error levels i = Some x -> (0 <= x)%Q) -> 
  exists l k, l_from_levels levels = Ok l /\ length l = length levels /\ Monotone l /\
    (forall i x, nth_error levels i = Some x -> nth_error l i = Some (if Nat.eqb i k then 0%Q else x)) /\
    (forall i x, nth_error levels i = Some x -> i <> k -> (0 < x)%Q) /\ nth_error l k = Some 0%Q.
Proof.
  intros Hne HM Hpos. unfold l_from_levels. destruct (argmin_spec levels Hne) as (k & m & E & Hk & Hmin).
  rewrite E. cbn [bind]. pose proof (nth_error_Some_lt _ _ _ Hk) as Hlt.
  assert (Hstrict : forall i x, nth_error levels i = Some x -> i <> k -> (m < x)%Q).
  { intros i x Hx Hi. pose proof (Hmin x (nth_error_In _ _ Hx)).
    destruct (Nat.lt_gt_cases i k) as [Hc _]. destruct (Hc Hi) as [G|G]; destruct HM as [HM|HM].
    - pose proof (HM _ _ _ _ G Hx Hk). lra.
    - apply (HM _ _ _ _ G Hx Hk).
    - apply (HM _ _ _ _ G Hk Hx).
    - pose proof (HM _ _ _ _ G Hk Hx). lra. }
  exists (qset levels k 0), k. split; [auto|]. split; [apply qset_len|].
  assert (Hm : (0 <= m)%Q) by (eapply Hpos; eauto).
  assert (NTH : forall i x, nth_error (qset levels k 0) i = Some x ->
    exists y, nth_error levels i = Some y /\ ((i = k /\ x = 0%Q) \/ (i <> k /\ x = y /\ (0 < y)%Q))).
  { intros i x Hx. rewrite qset_nth in Hx by auto. destruct (Nat.eqb_spec i k) as [->|Hi].
    - injection Hx as <-. eauto.
    - exists x. split; [auto|]. right. split; [auto|]. split; [auto|]. pose proof (Hstrict _ _ Hx Hi). lra. }
  split; [|split; [|split]].
  - destruct HM as [HM|HM]; [left|right]; intros i j x y Hij Hx Hy;
    destruct (NTH _ _ Hx) as (x' & Hx' & [(Hi & ->)|(Hi & -> & Px)]);
    destruct (NTH _ _ Hy) as (y' & Hy' & [(Hj & ->)|(Hj & -> & Py)]); try lia; auto;
    try (apply (HM _ _ _ _ Hij Hx' Hy')).
    + subst j. pose proof (HM _ _ _ _ Hij Hx' Hk). pose proof (Hstrict _ _ Hx' Hi). lra.
    + subst i. pose proof (HM _ _ _ _ Hij Hk Hy'). pose proof (Hstrict _ _ Hy' Hj). lra.
  - intros i x Hx. rewrite qset_nth by auto. destruct (Nat.eqb i k); auto.
  - intros i x Hx Hi. pose proof (Hstrict _ _ Hx Hi). lra.
  - rewrite qset_nth by auto. rewrite Nat.eqb_refl. auto.
Qed.

(** ** Factory *)
Lemma argtrue_spec {T} (can : T -> bool) typs : existsb (fun b => b) (map can typs) = true ->
  forall k, exists i t, argtrue k (map can typs) = (k + i)%nat /\ nth_error typs i = Some t /\ can t = true /\
    forall j u, (j < i)%nat -> nth_error typs j = Some u -> can u = false.
Proof.
  induction typs as [|t typs IH]; cbn [map existsb]; [discriminate|]. intros H k. cbn [argtrue].
  destruct (can t) eqn:E.
  - exists 0%nat, t. repeat split; auto. intros; lia.
  - cbn [orb] in H. destruct (IH H (S k)) as (i & u & E1 & E2 & E3 & E4).
    exists (S i), u. split; [lia|]. split; [auto|]. split; [auto|].
    intros [|j] w Hj Hw; cbn [nth_error] in Hw; [congruence|]. apply (E4 j); auto. lia.
Qed.
Lemma depth_factory_spec {T} (typs : list T) (can : T -> bool) :
  match depth_factory typs can with
  | Ok None => forall t, In t typs -> can t = false
  | Ok (Some t) => exists i, nth_error typs i = Some t /\ can t = true /\
                   forall j u, nth_error typs j = Some u -> j <> i -> can u = false
  | Err e => e = ValueError /\ exists i j t u, i <> j /\ nth_error typs i = Some t /\ nth_error typs j = Some u /\
                   can t = true /\ can u = true
  end.
Proof.
  unfold depth_factory. cbv zeta. destruct (existsb (fun b => b) (map can typs)) eqn:E; cbn [negb].
  - destruct (argtrue_spec can typs E 0) as (i & t & E1 & E2 & E3 & E4). rewrite E1. cbn [Nat.add]. rewrite E2.
    destruct (nth_error_split _ _ E2) as (l1 & l2 & El & Hi).
    assert (C1 : count_true (map can l1) = 0%nat).
    { unfold count_true. clear - E4 El Hi. assert (forall u, In u l1 -> can u = false).
      { intros u Hu. destruct (In_nth_error _ _ Hu) as (j & Hj). pose proof (nth_error_Some_lt _ _ _ Hj).
        apply (E4 j u); [lia|]. rewrite El. rewrite nth_error_app1; auto. }
      clear - H. induction l1 as [|x l IH]; auto. cbn [map filter]. rewrite (H x (or_introl eq_refl)).
      apply IH. intros u Hu. apply H. right. auto. }
    assert (CT : count_true (map can typs) = S (count_true (map can l2))).
    { rewrite El. unfold count_true in *. rewrite map_app, filter_app, app_length, C1. cbn [map filter]. rewrite E3. reflexivity. }
    rewrite CT. destruct (count_true (map can l2)) as [|c] eqn:C2.
    + cbn. exists i. split; [auto|]. split; [auto|]. intros j u Hu Hj.
      destruct (Nat.lt_ge_cases j i) as [H|H]; [eauto|].
      rewrite El in Hu. rewrite nth_error_app2 in Hu by lia.
      replace (j - length l1)%nat with (S (j - S i)) in Hu by lia. cbn [nth_error] in Hu.
      destruct (can u) eqn:Cu; auto. exfalso. apply nth_error_In in Hu.
      assert (In true (filter (fun b => b) (map can l2))).
      { apply filter_In. split; auto. rewrite <- Cu. apply in_map. auto. }
      unfold count_true in C2. destruct (filter _ _); [destruct H0|discriminate].
    + cbn. split; [auto|]. unfold count_true in C2.
      destruct (filter (fun b => b) (map can l2)) as [|x r] eqn:F; [discriminate|].
      assert (Hx : In x (map can l2) /\ x = true) by (apply (proj1 (filter_In (fun b : bool => b) x (map can l2))); rewrite F; left; auto).
      destruct Hx as (Hx & ->). apply in_map_iff in Hx as (u & Cu & Hu). destruct (In_nth_error _ _ Hu) as (j & Hj).
      exists i, (length l1 + S j)%nat, t, u. split; [lia|]. split; [auto|]. split; [|auto].
      rewrite El. rewrite nth_error_app2 by lia. replace (length l1 + S j - length l1)%nat with (S j) by lia. auto.
  - intros t Ht. destruct (can t) eqn:C; auto. assert (existsb (fun b => b) (map can typs) = true); [|congruence].
    apply existsb_exists. exists true. split; auto. rewrite <- C. apply in_map. auto.
Qed.
