(** Proofs about the location memo tables. *)
From Verif Require Import Common CommonProofs VariableModel VariableSpec VariableProofs
  DepthModel DepthProofs UGridModel UGridGeomModel.
Open Scope Z_scope.

Lemma pt_eqb_iff (a b : pt) : pt_eqb a b = true <-> a = b.
Proof.
  unfold pt_eqb. destruct a as [a1 a2], b as [b1 b2]. cbn [fst snd].
  rewrite andb_true_iff, !Qpair_eqb_iff. split; [intros [-> ->]; auto|intros [= -> ->]; auto].
Qed.
Lemma pts_eqb_iff a b : pts_eqb a b = true <-> a = b.
Proof.
  revert b. induction a as [|x a IH]; intros [|y b]; cbn [pts_eqb]; try (split; congruence).
  rewrite andb_true_iff, pt_eqb_iff, IH. split; [intros [-> ->]; auto|intros [= -> ->]; auto].
Qed.

Section Facts.
  Context {K V : Type} (keqb : K -> K -> bool).
  Context (keqb_iff : forall a b, keqb a b = true <-> a = b).
  Notation memo := (list (K * V)).

  Lemma ug_store_nodup cap (d : memo) k v : NoDup (map fst d) -> NoDup (map fst (ug_store keqb cap d k v)).
  Proof.
    intros H. unfold ug_store. pose proof (put_nodup keqb keqb_iff d k v H) as H'.
    destruct (Nat.ltb cap _); auto. apply tl_nodup. auto.
  Qed.
  Lemma ug_store_length cap (d : memo) k v : (length d <= cap)%nat -> (length (ug_store keqb cap d k v) <= cap)%nat.
  Proof.
    intros H. unfold ug_store. pose proof (put_length keqb d k v) as H'.
    destruct (Nat.ltb_spec cap (length (memo_put keqb d k v))); [|lia].
    destruct (memo_put keqb d k v); cbn [tl length] in *; lia.
  Qed.
  Lemma ug_run_snoc cap (h : memo) k v :
    ug_memo_run keqb cap (h ++ [(k, v)]) = ug_store keqb cap (ug_memo_run keqb cap h) k v.
  Proof. unfold ug_memo_run. rewrite fold_left_app. reflexivity. Qed.
  Lemma ug_run_bounded cap (h : memo) :
    (length (ug_memo_run keqb cap h) <= cap)%nat /\ NoDup (map fst (ug_memo_run keqb cap h)).
  Proof.
    induction h as [|[k v] h IH] using rev_ind.
    - cbn. split; [lia|constructor].
    - rewrite ug_run_snoc. destruct IH. split; [apply ug_store_length; auto|apply ug_store_nodup; auto].
  Qed.
  Lemma put_existing (d : memo) k v : In k (map fst d) -> length (memo_put keqb d k v) = length d.
  Proof.
    induction d as [|[k0 v0] d IH]; cbn [map fst memo_put length]; [intros []|].
    destruct (keqb k0 k) eqn:E; cbn [length]; auto.
    intros [->|H]; [|f_equal; auto]. rewrite (keqb_refl keqb keqb_iff) in E. discriminate.
  Qed.
  (** Exactly which lookups change: the oldest entry goes when a new key
      arrives in a full table; nothing else. *)
  Lemma ug_store_effect cap (d : memo) k v : (1 <= cap)%nat -> (length d <= cap)%nat -> NoDup (map fst d) ->
    forall k', memo_get keqb (ug_store keqb cap d k v) k' =
      if keqb k k' then Some v
      else if (negb (existsb (fun x => keqb x k) (map fst d)) && (length d =? cap)%nat
               && match d with (k0, _) :: _ => keqb k0 k' | [] => false end)%bool then None
      else memo_get keqb d k'.
  Proof.
    intros Hcap Hl Hn k'. unfold ug_store.
    destruct (in_dec (K_dec keqb keqb_iff) k (map fst d)) as [Hin|Hnin].
    - rewrite put_existing by auto. destruct (Nat.ltb_spec cap (length d)); [lia|].
      rewrite (proj2 (existsb_key keqb keqb_iff _ _) Hin). cbn [negb andb].
      destruct (keqb k k') eqn:E.
      + apply keqb_iff in E. subst. apply get_put_same; auto.
      + apply get_put_other; auto. intros ->. rewrite (keqb_refl keqb keqb_iff) in E. discriminate.
    - assert (Hex : existsb (fun x => keqb x k) (map fst d) = false).
      { destruct (existsb _ _) eqn:E; auto. apply (existsb_key keqb keqb_iff) in E. contradiction. }
      rewrite Hex. cbn [negb andb].
      pose proof (put_app_new keqb keqb_iff d k v Hnin) as Ep.
      destruct (Nat.eqb_spec (length d) cap) as [Hc|Hc].
      + assert (E : Nat.ltb cap (length (memo_put keqb d k v)) = true).
        { rewrite Ep, app_length. apply Nat.ltb_lt. cbn. lia. }
        rewrite E. destruct d as [|[k0 v0] d']; [cbn in Hc; lia|]. cbn [andb].
        rewrite Ep. cbn [app tl]. inversion Hn as [|? ? N1 N2]; subst. cbn [map fst] in *.
        destruct (keqb k k') eqn:Ek.
        * apply keqb_iff in Ek. subst k'.
          rewrite <- (put_app_new keqb keqb_iff d' k v) by (intros H; apply Hnin; right; auto).
          apply get_put_same; auto.
        * assert (Hkk : k <> k') by (intros ->; rewrite (keqb_refl keqb keqb_iff) in Ek; discriminate).
          rewrite <- (put_app_new keqb keqb_iff d' k v) by (intros H; apply Hnin; right; auto).
          rewrite get_put_other by auto. cbn [memo_get]. destruct (keqb k0 k') eqn:E0; auto.
          apply keqb_iff in E0. subst. apply (get_none_iff keqb keqb_iff). auto.
      + cbn [andb]. destruct (Nat.ltb_spec cap (length (memo_put keqb d k v))) as [H|H].
        { rewrite Ep, app_length in H. cbn in H. lia. }
        destruct (keqb k k') eqn:Ek.
        * apply keqb_iff in Ek. subst. apply get_put_same; auto.
        * apply get_put_other; auto. intros ->. rewrite (keqb_refl keqb keqb_iff) in Ek. discriminate.
  Qed.
  Lemma ug_run_latest cap (h : memo) k v : (1 <= cap)%nat ->
    memo_get keqb (ug_memo_run keqb cap h) k = Some v -> LatestStore h k v.
  Proof.
    intros Hcap. revert k v. induction h as [|[k0 v0] h IH] using rev_ind; intros k v H.
    - discriminate.
    - rewrite ug_run_snoc in H. destruct (ug_run_bounded cap h) as [B1 B2].
      rewrite ug_store_effect in H by auto. destruct (keqb k0 k) eqn:E.
      + apply keqb_iff in E. injection H as <-. subst. exists h, []. split; auto.
      + destruct (_ && _)%bool in H; [discriminate|].
        destruct (IH _ _ H) as (h1 & h2 & -> & Hn).
        exists h1, (h2 ++ [(k0, v0)]). split; [rewrite <- app_assoc; reflexivity|].
        rewrite map_app, in_app_iff. cbn. intros [?|[->|[]]]; auto.
        rewrite (keqb_refl keqb keqb_iff) in E. discriminate.
  Qed.
  Lemma ug_run_tail cap (h : memo) : NoDup (map fst h) ->
    ug_memo_run keqb cap h = skipn (length h - cap) h.
  Proof.
    induction h as [|[k v] h IH] using rev_ind; intros Hn; auto.
    rewrite ug_run_snoc. rewrite map_app in Hn. cbn [map fst] in Hn.
    assert (Hk : ~ In k (map fst h)).
    { apply NoDup_remove_2 in Hn. rewrite app_nil_r in Hn. auto. }
    assert (Hn' : NoDup (map fst h)).
    { apply NoDup_remove_1 in Hn. rewrite app_nil_r in Hn. auto. }
    rewrite IH by auto. rewrite app_length. cbn [length].
    set (m := (length h - cap)%nat).
    assert (Hin : ~ In k (map fst (skipn m h))).
    { intros Hj. apply Hk. rewrite <- (firstn_skipn m h), map_app, in_app_iff. auto. }
    unfold ug_store. rewrite put_app_new by auto. rewrite app_length, skipn_length. cbn [length].
    destruct (Nat.ltb_spec cap (length h - m + 1)).
    - destruct (Nat.le_gt_cases (length h) m) as [Hm|Hm].
      + assert (cap = 0)%nat by (unfold m in *; lia). rewrite skipn_all2 by lia. cbn [app tl].
        rewrite skipn_all2; auto. rewrite app_length. cbn. lia.
      + replace (length h + 1 - cap)%nat with (S m) by (unfold m in *; lia).
        rewrite skipn_app. replace (S m - length h)%nat with O by lia.
        change (skipn 0 [(k, v)]) with [(k, v)].
        rewrite <- tl_skipn. destruct (skipn m h) eqn:E; auto.
        apply (f_equal (@length _)) in E. rewrite skipn_length in E. cbn in E. lia.
    - replace (length h + 1 - cap)%nat with m by (unfold m in *; lia).
      rewrite skipn_app. replace (m - length h)%nat with O by (unfold m in *; lia). reflexivity.
  Qed.
  Lemma ug_store_in cap (d : memo) k v x :
    In x (ug_store keqb cap d k v) -> x = (k, v) \/ In x d.
  Proof.
    unfold ug_store. intros H.
    assert (G : In x (memo_put keqb d k v)).
    { destruct (Nat.ltb _ _); auto. destruct (memo_put keqb d k v); cbn in *; auto. }
    clear H. induction d as [|[k0 v0] d IH]; cbn [memo_put] in G.
    - destruct G as [<-|[]]; auto.
    - destruct (keqb k0 k) eqn:E.
      + apply keqb_iff in E. subst. destruct G as [<-|G]; cbn; auto.
      + destruct G as [<-|G]; [cbn; auto|]. destruct (IH G); cbn; auto.
  Qed.
  Lemma memo_get_in (d : memo) k v : memo_get keqb d k = Some v -> In (k, v) d.
  Proof.
    induction d as [|[k0 v0] d IH]; cbn [memo_get]; [discriminate|].
    destruct (keqb k0 k) eqn:E; [|cbn; auto]. apply keqb_iff in E. intros [= ->]. subst. cbn; auto.
  Qed.
End Facts.

(** ** Every reachable object *)
Section Reach.
  Context (tree : list pt -> list (list Z) -> list pt -> list Z).
  Definition tables_ok (s : ug) : Prop :=
    (length (ug_ind s) <= 6)%nat /\ NoDup (map fst (ug_ind s)) /\
    (length (ug_alpha s) <= 6)%nat /\ NoDup (map fst (ug_alpha s)).
  Lemma search_frame s m pts s' l : search tree s m pts = Ok (s', l) ->
    ug_ind s' = ug_ind s /\ ug_alpha s' = ug_alpha s /\ ug_nodes s' = ug_nodes s /\ ug_faces s' = ug_faces s.
  Proof.
    unfold search. destruct m.
    - destruct (ug_tree s) as [[n f]|]; [intros [= <- _]; auto|].
      destruct (ug_faces s) as [f|]; [|discriminate]. intros [= <- _]. cbn. auto.
    - destruct (ug_faces s) as [f|] eqn:Ef.
      + intros H. apply bind_ok in H. destruct H as (l' & _ & H). injection H as E1 E2. subst. repeat split. auto.
      + destruct pts; [intros [= <- _]; auto|discriminate].
    - discriminate.
  Qed.
  Lemma locate_tables s m memo pts one : tables_ok s -> tables_ok (fst (locate tree s m memo pts one)).
  Proof.
    intros H. unfold locate.
    destruct (if memo then _ else None); cbn [fst]; auto.
    destruct (search tree s m pts) as [[s1 l]|] eqn:E; cbn [fst]; auto.
    apply search_frame in E. destruct E as (E1 & E2 & _).
    destruct H as (H1 & H2 & H3 & H4). destruct memo; unfold tables_ok; cbn [ug_ind ug_alpha].
    - rewrite E1, E2. split; [|split; [|split]]; auto.
      + apply ug_store_length; auto.
      + apply ug_store_nodup; auto. apply pts_eqb_iff.
    - rewrite E1, E2. auto.
  Qed.
  Lemma alphas_tables s memo pts inds : tables_ok s -> tables_ok (fst (alphas_memo s memo pts inds)).
  Proof.
    intros H. unfold alphas_memo.
    destruct (if memo then _ else None); cbn [fst]; auto.
    destruct (ug_faces s); cbn [fst]; auto.
    destruct (interpolation_alphas _ _ _ _); cbn [fst]; auto.
    destruct H as (H1 & H2 & H3 & H4). destruct memo; unfold tables_ok; cbn [ug_ind ug_alpha]; auto.
    split; [|split; [|split]]; auto.
    - apply ug_store_length; auto.
    - apply ug_store_nodup; auto. apply pts_eqb_iff.
  Qed.
  Lemma interp_tables s loc data copy memo pts :
    tables_ok s -> tables_ok (fst (interpolate tree s loc data copy memo pts)).
  Proof.
    intros H. unfold interpolate.
    pose proof (locate_tables s Celltree copy pts false H) as H1.
    destruct (locate tree s Celltree copy pts false) as [s1 [o|e]]; cbn [fst] in *; auto.
    destruct loc; cbn [fst]; auto.
    pose proof (alphas_tables s1 memo pts (lout_vals o) H1) as H2.
    destruct (alphas_memo s1 memo pts (lout_vals o)) as [s2 [a|e]]; cbn [fst] in *; auto.
    destruct (ug_faces s2); cbn [fst]; auto.
  Qed.
  Lemma ug_run_tables nodes faces ops : tables_ok (ug_run tree (ug_new nodes faces) ops).
  Proof.
    unfold ug_run. assert (G : forall s, tables_ok s -> tables_ok (fold_left (ug_step tree) ops s)).
    { induction ops as [|o ops IH]; intros s H; cbn [fold_left]; auto. apply IH.
      destruct o; cbn [ug_step].
      - apply locate_tables; auto.
      - apply interp_tables; auto.
      - exact H.
      - destruct (set_faces _ _); exact H. }
    apply G. unfold tables_ok, ug_new. cbn. repeat split; try lia; constructor.
  Qed.

  (** ** Histories that only ask (and only the cell tree) *)
  Definition asks (o : ug_op) : Prop :=
    match o with OLocate m _ _ _ => m = Celltree | OInterp _ _ _ _ _ => True | _ => False end.
  Context (nodes : list pt) (faces : list (list Z)).
  Definition fresh_inv (s : ug) : Prop :=
    ug_nodes s = nodes /\ ug_faces s = Some faces /\
    (ug_tree s = None \/ ug_tree s = Some (nodes, faces)) /\
    (forall k v, In (k, v) (ug_ind s) -> v = tree nodes faces k) /\
    (forall k a, In (k, a) (ug_alpha s) -> interpolation_alphas nodes faces k (tree nodes faces k) = Ok a).
  Lemma search_fresh s pts : fresh_inv s ->
    exists s', search tree s Celltree pts = Ok (s', tree nodes faces pts) /\ fresh_inv s' /\
      ug_ind s' = ug_ind s /\ ug_alpha s' = ug_alpha s.
  Proof.
    intros (H1 & H2 & H3 & H4 & H5). unfold search. destruct H3 as [H3|H3]; rewrite H3.
    - rewrite H2. eexists. rewrite H1. split; [reflexivity|].
      split; [|auto]. unfold fresh_inv. cbn. auto.
    - exists s. split; auto. split; [|auto]. unfold fresh_inv. auto.
  Qed.
  Lemma locate_fresh s memo pts one : fresh_inv s ->
    fresh_inv (fst (locate tree s Celltree memo pts one)) /\
    (forall o, snd (locate tree s Celltree memo pts one) = Ok o ->
       o = Arr (tree nodes faces pts) \/
       (one = true /\ exists i, o = Scalar i /\ hd_error (tree nodes faces pts) = Some i)) /\
    (one = false -> snd (locate tree s Celltree memo pts one) = Ok (Arr (tree nodes faces pts))).
  Proof.
    intros H. unfold locate.
    assert (G : forall v, (if memo then memo_get pts_eqb (ug_ind s) pts else None) = Some v -> v = tree nodes faces pts).
    { intros v Hv. destruct memo; [|discriminate]. apply H. apply (memo_get_in pts_eqb pts_eqb_iff). auto. }
    destruct (if memo then memo_get pts_eqb (ug_ind s) pts else None) as [v|].
    - rewrite (G v eq_refl). cbn [fst snd]. split; auto. split; auto.
      intros o [= <-]. auto.
    - destruct (search_fresh s pts H) as (s1 & E & Hs1 & E1 & E2). rewrite E. cbn [fst snd].
      split.
      { destruct memo; auto. destruct Hs1 as (A1 & A2 & A3 & A4 & A5).
        unfold fresh_inv. cbn [ug_nodes ug_faces ug_tree ug_ind ug_alpha]. repeat split; auto.
        intros k v Hin. apply ug_store_in in Hin; [|apply pts_eqb_iff]. destruct Hin as [[= -> ->]|Hin]; auto. }
      split.
      { intros o. destruct one.
        - destruct (tree nodes faces pts) as [|i l]; [discriminate|]. intros [= <-]. eauto.
        - intros [= <-]. auto. }
      intros ->. reflexivity.
  Qed.
  Lemma alphas_fresh s memo pts : fresh_inv s ->
    fresh_inv (fst (alphas_memo s memo pts (tree nodes faces pts))) /\
    snd (alphas_memo s memo pts (tree nodes faces pts)) = interpolation_alphas nodes faces pts (tree nodes faces pts).
  Proof.
    intros H. unfold alphas_memo.
    assert (G : forall a, (if memo then memo_get pts_eqb (ug_alpha s) pts else None) = Some a ->
                interpolation_alphas nodes faces pts (tree nodes faces pts) = Ok a).
    { intros v Hv. destruct memo; [|discriminate]. apply H. apply (memo_get_in pts_eqb pts_eqb_iff). auto. }
    destruct (if memo then memo_get pts_eqb (ug_alpha s) pts else None) as [a|].
    - rewrite (G a eq_refl). auto.
    - pose proof H as (A1 & A2 & A3 & A4 & A5). rewrite A2, A1.
      destruct (interpolation_alphas nodes faces pts (tree nodes faces pts)) as [a|e] eqn:E; cbn [fst snd]; auto.
      split; auto. destruct memo; auto.
      unfold fresh_inv. cbn [ug_nodes ug_faces ug_tree ug_ind ug_alpha]. repeat split; auto.
      intros k b Hin. apply ug_store_in in Hin; [|apply pts_eqb_iff]. destruct Hin as [[= -> ->]|Hin]; auto.
  Qed.
  (** What interpolation gives on a new object with this mesh. *)
  Definition interp_fresh (loc : vloc) (data : list cell) (pts : list pt) : result (option (list cell)) :=
    match loc with
    | VNode => match interpolation_alphas nodes faces pts (tree nodes faces pts) with
               | Err e => Err e
               | Ok a => interp_values faces VNode data (tree nodes faces pts) a
               end
    | _ => interp_values [] loc data (tree nodes faces pts) []
    end.
  Lemma interpolate_fresh s loc data copy memo pts : fresh_inv s ->
    fresh_inv (fst (interpolate tree s loc data copy memo pts)) /\
    snd (interpolate tree s loc data copy memo pts) = interp_fresh loc data pts.
  Proof.
    intros H. unfold interpolate.
    destruct (locate_fresh s copy pts false H) as (H1 & _ & H2). specialize (H2 eq_refl).
    destruct (locate tree s Celltree copy pts false) as [s1 r]. cbn [fst snd] in H1, H2. subst r.
    cbn [lout_vals]. destruct loc; cbn [fst snd]; auto.
    destruct (alphas_fresh s1 memo pts H1) as (H3 & H4).
    destruct (alphas_memo s1 memo pts (tree nodes faces pts)) as [s2 [a|e]]; cbn [fst snd] in H3, H4.
    - unfold interp_fresh. rewrite <- H4. pose proof H3 as (_ & -> & _). cbn [fst snd]. auto.
    - unfold interp_fresh. rewrite <- H4. cbn [fst snd]. auto.
  Qed.
  Lemma ask_history ops : Forall asks ops -> fresh_inv (ug_run tree (ug_new nodes (Some faces)) ops).
  Proof.
    unfold ug_run. intros Ho.
    assert (G : forall s, fresh_inv s -> fresh_inv (fold_left (ug_step tree) ops s)).
    { induction Ho as [|o ops Hop Ho IH]; intros s H; cbn [fold_left]; auto. apply IH.
      destruct o; cbn [asks] in Hop; try contradiction; cbn [ug_step].
      - subst m. apply locate_fresh. auto.
      - apply interpolate_fresh. auto. }
    apply G. unfold fresh_inv, ug_new. cbn. repeat split; auto; intros ? ? [].
  Qed.
End Reach.

(** ** Repeating a query *)
Lemma repeat_query tree s m pts one o :
  (length (ug_ind s) <= 6)%nat -> NoDup (map fst (ug_ind s)) -> (one = true -> length pts = 1%nat) ->
  (forall n f q, length (tree n f q) = length q) ->
  snd (locate tree s m true pts one) = Ok o ->
  let s1 := fst (locate tree s m true pts one) in
  locate tree s1 m true pts one = (s1, Ok (Arr (lout_vals o))).
Proof.
  intros Hl Hn Hone Htree. unfold locate at 1 2.
  destruct (memo_get pts_eqb (ug_ind s) pts) as [v|] eqn:Em.
  - cbn [fst snd]. intros [= <-]. cbv zeta. unfold locate. rewrite Em. reflexivity.
  - destruct (search tree s m pts) as [[s1 l]|e] eqn:Es; cbn [fst snd]; [|discriminate].
    intros H. cbv zeta. unfold locate at 1. cbn [ug_ind].
    pose proof (search_frame _ _ _ _ _ _ Es) as (E1 & _).
    rewrite (ug_store_effect pts_eqb pts_eqb_iff) by (rewrite ?E1; auto; unfold ugrid_cap; lia).
    rewrite (keqb_refl pts_eqb pts_eqb_iff).
    assert (lout_vals o = l) as ->; auto.
    destruct one; [|injection H as <-; auto].
    destruct l as [|i r]; [discriminate|]. injection H as <-. cbn [lout_vals].
    assert (length (i :: r) = length pts) as L.
    { revert Es. unfold search. destruct m.
      - destruct (ug_tree s) as [[n f]|].
        + intros [= _ <-]. apply Htree.
        + destruct (ug_faces s); [|discriminate]. intros [= _ <-]. apply Htree.
      - destruct (ug_faces s).
        + intros E. apply bind_ok in E. destruct E as (l' & E & E'). injection E' as _ <-.
          apply mapM_ok in E. apply E.
        + destruct pts; [|discriminate]. discriminate.
      - discriminate. }
    rewrite Hone in L by auto. destruct r; [reflexivity|cbn in L; lia].
Qed.
Lemma repeat_no_memo tree s m pts one :
  let r1 := locate tree s m false pts one in
  snd (locate tree (fst r1) m false pts one) = snd r1.
Proof.
  cbv zeta. unfold locate.
  destruct (search tree s m pts) as [[s1 l]|e] eqn:Es; cbn [fst snd].
  - assert (E : exists s2, search tree s1 m pts = Ok (s2, l)).
    { revert Es. unfold search. destruct m.
      - destruct (ug_tree s) as [[n f]|] eqn:Et.
        + intros [= <- <-]. rewrite Et. eauto.
        + destruct (ug_faces s) as [f|]; [|discriminate]. intros [= <- <-]. cbn. eauto.
      - destruct (ug_faces s) as [f|] eqn:Ef.
        + intros E. apply bind_ok in E. destruct E as (l' & E & E'). injection E' as <- <-.
          rewrite Ef, E. cbn. eauto.
        + destruct pts; [|discriminate]. intros [= <- <-]. rewrite Ef. eauto.
      - discriminate. }
    destruct E as [s2 ->]. reflexivity.
  - rewrite Es. reflexivity.
Qed.
