(** C63: the item caches. *)
From Coq Require Import String.
From Verif Require Import Common CommonProofs GridTypeModel GridTypeProofs DepthModel ItemModel ItemProofs.
Open Scope list_scope.

Section Props.
  Context {D I V : Type} (get : D -> I -> result V) (str : I -> string).
  Lemma empty_ok : forall ds is, CacheOk get str ds is [].
  Proof. intros. repeat split; cbn; [constructor|lia|discriminate]. Qed.

  (** C63: at most three entries after any history, whatever str() does. *)
  Theorem c63_bounded : forall d ops, (length (uv_cache (fst (uvar_run get str (uvar_new d) ops))) <= 3)%nat.
  Proof.
    intros. destruct (run_ok get str ops (uvar_new d) [d] [] (empty_ok [d] []) (or_introl eq_refl)) as ((_ & L & _) & _). exact L.
  Qed.
  (** C63: every answer is that of the present data, or was given by some data held
      up to now for an earlier item with the same str(). *)
  Theorem c63_answers : forall d before i after, exists r,
    nth_error (snd (uvar_run get str (uvar_new d) (before ++ Item i :: after))) (length before) = Some (Some r) /\
    (r = get (last (datas before) d) i \/
     exists d' i' v, r = Ok v /\ In d' (d :: datas before) /\ In (Item i') before /\ str i' = str i /\ get d' i' = Ok v).
  Proof.
    intros d before i after. rewrite run_app.
    destruct (run_ok get str before (uvar_new d) [d] [] (empty_ok [d] []) (or_introl eq_refl)) as (HC & HD & E).
    pose proof (run_length get str before (uvar_new d)) as L.
    destruct (uvar_run get str (uvar_new d) before) as [s l]. cbn [fst snd] in *. cbn [uvar_run uvar_step].
    pose proof (lookup_ok get str ([d] ++ datas before) (items before ++ [i]) (uv_cache s) (uv_data s) i) as LK.
    destruct LK as [_ LK]. { eapply cache_more; [exact HC|intros x; auto|intros x J; cbn [app] in J; apply in_app_iff; auto]. }
    { exact HD. } { apply in_app_iff. cbn. auto. }
    destruct (lookup get str (uv_data s) (uv_cache s) i) as [c r] eqn:EL. cbn [snd] in LK.
    destruct (uvar_run get str (mkUvar (uv_data s) c) after) as [s2 l2]. exists r. cbn [fst snd].
    split; [rewrite nth_error_app2 by lia; rewrite <- L, Nat.sub_diag; reflexivity|].
    rewrite E in LK. destruct LK as [LK|(d' & i' & v & A & B & _ & S & G & K)]; [left; exact LK|right].
    destruct HC as (_ & _ & H). destruct (H _ _ K) as (d2 & i2 & J1 & J2 & J3 & J4). exists d2, i2, v.
    repeat split; auto. cbn [app] in J2. unfold items in J2. apply in_flat_map in J2. destruct J2 as ([x|x] & X1 & X2); cbn in X2; [|tauto].
    destruct X2 as [->|[]]. exact X1.
  Qed.
  (** C63: as long as the data is not replaced (always, for SGridVariable) and str()
      tells the items asked apart, every answer is that of the data. *)
  Theorem c63_same_data_partial : forall d before i after,
    datas before = [] -> (forall j, In (Item j) before -> str j = str i -> j = i) ->
    nth_error (snd (uvar_run get str (uvar_new d) (before ++ Item i :: after))) (length before) = Some (Some (get d i)).
  Proof.
    intros d before i after ND Inj. destruct (c63_answers d before i after) as (r & E & H). rewrite E. rewrite ND in H.
    destruct H as [->|(d' & i' & v & -> & [<-|[]] & J & S & G)]; [reflexivity|]. now rewrite (Inj _ J S) in G; rewrite G.
  Qed.
  (** C63: also after a replacement, for items whose str() was not asked before. *)
  Theorem c63_new_item : forall d before i after, (forall j, In (Item j) before -> str j <> str i) ->
    nth_error (snd (uvar_run get str (uvar_new d) (before ++ Item i :: after))) (length before) = Some (Some (get (last (datas before) d) i)).
  Proof.
    intros d before i after N. destruct (c63_answers d before i after) as (r & E & H). rewrite E.
    destruct H as [->|(d' & i' & v & _ & _ & J & S & _)]; [reflexivity|]. exfalso. eapply N; eauto.
  Qed.
  Lemma dget_some : forall {A} (l : dict A) n d, NoDup (map fst l) -> In (n, d) l -> dget l n = Some d.
  Proof.
    intros A l n d. induction l as [|[a x] l IH]; [intros ? []|]. cbn [map fst]. intros ND J. inversion ND as [|? ? N1 N2]; subst.
    destruct J as [[= -> ->]|J]; cbn [dget]; [now rewrite String.eqb_refl|]. destruct (String.eqb_spec n a) as [->|]; [|now apply IH].
    exfalso. apply N1. change a with (fst (a, d)). now apply in_map.
  Qed.
  Lemma dget_snoc : forall {A} (l : dict A) n d m, dget (l ++ [(n, d)]) m =
    match dget l m with Some x => Some x | None => if String.eqb m n then Some d else None end.
  Proof. intros. induction l as [|[a x] l IH]; cbn; [reflexivity|]. now destruct (String.eqb m a). Qed.
  Lemma dget_notin : forall {A} (l : dict A) n, ~ In n (map fst l) -> dget l n = None.
  Proof.
    intros A l n. induction l as [|[a x] l IH]; cbn; auto. intros N. destruct (String.eqb_spec n a) as [->|]; [exfalso; auto|apply IH; auto].
  Qed.
  Lemma row_plain : forall (vars : list (string * D)) i, NoDup (map fst vars) ->
    row get vars (map fst vars) i = mapM (fun nd => get (snd nd) i) vars.
  Proof.
    intros vars i ND. unfold row.
    assert (K : forall l, incl l vars -> mapM (fun n => match dget vars n with Some d => get d i | None => Err KeyError end) (map fst l) = mapM (fun nd => get (snd nd) i) l).
    { induction l as [|[n d] l IH]; intros S; [reflexivity|]. cbn [map mapM fst snd]. rewrite (dget_some vars n d) by (auto; apply S; cbn; auto).
      rewrite IH by (intros x J; apply S; cbn; auto). reflexivity. }
    apply K. intros x; auto.
  Qed.
  (** A group just made, and a variable that joins it before any item is asked. *)
  Lemma start_ok : forall same_shape vars m is, NoDup (map fst vars) -> umvar_new (V := V) same_shape vars = Ok m ->
    MultiOk get str is vars (map fst vars) m /\ um_cache m = [].
  Proof.
    intros same_shape vars m is ND Hm. unfold umvar_new in Hm. destruct (Nat.eqb (length vars) 1); [discriminate|].
    destruct vars as [|[n0 d0] vars']; [discriminate|]. set (vars := (n0, d0) :: vars') in *.
    destruct (negb _); [discriminate|]. injection Hm as <-. split; [|reflexivity].
    split; [reflexivity|]. split; [|repeat split; cbn; [constructor|lia|discriminate]].
    intros n. cbn [um_vars].
    assert (K : forall l o n, NoDup (map fst l) -> dget (fold_left (fun (o : dict uvar) (nd : string * D) => dset o (fst nd) (uvar_new (snd nd))) l o) n =
          match dget l n with Some d => Some (uvar_new (V := V) d) | None => dget o n end).
    { induction l as [|[a x] l IH]; intros o m NL; [reflexivity|]. cbn [fold_left fst snd]. cbn [map fst] in NL. inversion NL as [|? ? N1 N2]; subst.
      rewrite IH by auto. cbn [dget]. rewrite dget_dset. destruct (String.eqb_spec m a) as [->|]; [|reflexivity].
      now rewrite (dget_notin l a N1). }
    pose proof (K vars [] n ND) as Kn. cbn [dget] in Kn. match goal with |- match _ with Some _ => match ?X with _ => _ end | None => _ end => replace X with (match dget vars n with Some d => Some (uvar_new (V := V) d) | None => None end) by (symmetry; exact Kn) end. clear Kn. destruct (dget vars n); [|exact Logic.I]. split; [reflexivity|apply empty_ok].
  Qed.
  Lemma join_ok : forall same_shape is data s n d, MultiOk get str is data (map fst data) s -> um_cache s = [] ->
    same_shape d (um_first s) = true -> ~ In n (map fst data) ->
    let r := umvar_step get str same_shape s (MAdd n d) in
    MultiOk get str is (data ++ [(n, d)]) (map fst (data ++ [(n, d)])) (fst r) /\ um_cache (fst r) = [] /\ snd r = Ok None /\ um_first (fst r) = um_first s.
  Proof.
    intros same_shape is data s n d (N & HV & HC) E SS NI. cbv zeta. cbn [umvar_step]. rewrite SS, N. cbn [negb].
    destruct (isin n (map fst data)) eqn:EI; [apply isin_in in EI; contradiction|]. cbn [fst snd um_cache um_first].
    split; [|auto]. split; [|split; [|rewrite E; repeat split; cbn; [constructor|lia|discriminate]]].
    - cbn [um_names]. now rewrite map_app.
    - intros m. cbn [um_vars]. rewrite dget_dset, dget_snoc. specialize (HV m).
      destruct (String.eqb_spec m n) as [->|]; [rewrite (dget_notin data n NI); split; [reflexivity|apply empty_ok]|].
      destruct (dget data m); auto.
  Qed.
  (** C63: the grouped variable (UMVar), with variables that joined it before any
      item was asked, gives the columns of all its variables in that order. *)
  Theorem c63_group_partial : forall same_shape first rest joined m is,
    let vars := first :: rest ++ joined in NoDup (map fst vars) ->
    umvar_new (V := V) same_shape (first :: rest) = Ok m ->
    (forall nd, In nd joined -> same_shape (snd nd) (snd first) = true) ->
    (forall a b, In a is -> In b is -> str a = str b -> a = b) ->
    let r := umvar_run get str same_shape m (map (fun nd => MAdd (fst nd) (snd nd)) joined ++ map MItem is) in
    snd r = map (fun _ => Ok None) joined ++ map (fun i => do l <- mapM (fun nd => get (snd nd) i) vars; Ok (Some l)) is /\
    (length (um_cache (fst r)) <= 3)%nat.
  Proof.
    intros same_shape first rest joined m is vars ND Hm SS Inj. cbv zeta.
    assert (F : um_first m = snd first).
    { unfold umvar_new in Hm. destruct (Nat.eqb _ 1); [discriminate|]. destruct first as [n0 d0]. destruct (negb _); [discriminate|]. now injection Hm as <-. }
    assert (ND0 : NoDup (map fst (first :: rest))).
    { unfold vars in ND. rewrite app_comm_cons, map_app in ND. clear - ND. induction (map fst (first :: rest)) as [|x l IH]; constructor; cbn [app] in ND; inversion ND; subst; auto.
      intros J. apply H1. apply in_app_iff. auto. }
    destruct (start_ok _ _ _ is ND0 Hm) as [HM HE].
    change vars with ((first :: rest) ++ joined) in *. clear vars Hm ND0. rewrite <- F in SS. clear F.
    revert HM HE SS ND. generalize (first :: rest) as data. revert m. induction joined as [|[n d] joined IH]; intros m data HM HE SS ND.
    - rewrite app_nil_r in *. cbn [map app].
      destruct (multi_run_ok get str same_shape data (map fst data) is) with (is := is) (s := m) as [H1 H2]; auto.
      + intros n J. apply in_map_iff in J. destruct J as ([n' d] & <- & J). cbn [fst]. rewrite (dget_some data n' d ND J). discriminate.
      + intros x; auto.
      + split; [|destruct H1 as (_ & _ & _ & L & _); exact L]. etransitivity; [exact H2|]. apply map_ext. intros i. f_equal. now apply row_plain.
    - cbn [map app fst snd umvar_run].
      destruct (join_ok same_shape is data m n d HM HE) as (J1 & J2 & J3 & J4).
      + apply (SS (n, d)). now left.
      + rewrite map_app in ND. cbn [map fst] in ND. apply NoDup_remove_2 in ND. intros J. apply ND. apply in_app_iff. auto.
      + destruct (umvar_step get str same_shape m (MAdd n d)) as [m1 x]. cbn [fst snd] in *. subst x.
        specialize (IH m1 (data ++ [(n, d)]) J1 J2).
        destruct IH as [I1 I2].
        * intros nd J. rewrite J4. apply SS. now right.
        * now rewrite <- app_assoc.
        * rewrite <- app_assoc in I1. cbn [app] in I1.
          destruct (umvar_run get str same_shape m1 (map (fun nd => MAdd (fst nd) (snd nd)) joined ++ map MItem is)) as [m2 l]. cbn [fst snd] in *.
          split; [now rewrite I1|exact I2].
  Qed.
  (** C63: joining under a name in use, or with another shape, is a ValueError and
      changes nothing. *)
  Theorem c63_not_joined : forall same_shape (s : umvar (D := D) (V := V)) n d,
    same_shape d (um_first s) = false \/ In n (um_names s) -> umvar_step get str same_shape s (MAdd n d) = (s, Err ValueError).
  Proof.
    intros same_shape s n d H. cbn [umvar_step]. destruct (same_shape d (um_first s)); [|reflexivity]. cbn [negb].
    destruct H as [H|H]; [discriminate|]. apply isin_in in H. now rewrite H.
  Qed.
End Props.
Print Assumptions c63_bounded.
Print Assumptions c63_answers.
Print Assumptions c63_same_data_partial.
Print Assumptions c63_new_item.
Print Assumptions c63_group_partial.
Print Assumptions c63_not_joined.

(** C63, false: after the data of a UVar is replaced, an item asked before is still
    answered from the old data. *)
Theorem c63_replaced_refuted : exists d d' i, let r := snd (uvar_run get1 np_str (uvar_new d) [Item i; SetData d'; Item i]) in
  nth_error r 2 = Some (Some (get1 d i)) /\ get1 d i <> get1 d' i.
Proof. exists [7; 8; 9]%Z, [1; 2; 3]%Z, (IInt 1). vm_compute. split; [reflexivity|discriminate]. Qed.
Print Assumptions c63_replaced_refuted.
(** C63, false: two long index arrays that differ in the middle have the same str(),
    so the second gets the values of the first. *)
Theorem c63_long_index_refuted : exists d i j, let r := snd (uvar_run get1 np_str (uvar_new d) [Item i; Item j]) in
  nth_error r 1 = Some (Some (get1 d i)) /\ get1 d i <> get1 d j.
Proof.
  exists [5; 6]%Z, (IArray (repeat 0%Z 1001)), (IArray (repeat 0%Z 500 ++ [1%Z] ++ repeat 0%Z 500)). vm_compute. split; [reflexivity|discriminate].
Qed.
Print Assumptions c63_long_index_refuted.
(** C63, false for UMVar: a variable added later does not show in items asked
    before, and of two variables with the same name only the last one is used. *)
Definition same_len (a b : list Z) : bool := Nat.eqb (length a) (length b).
Theorem c63_added_refuted : exists vars n d i m, umvar_new same_len vars = Ok m /\
  let r := snd (umvar_run get1 np_str same_len m [MItem i; MAdd n d; MItem i]) in
  nth_error r 1 = Some (Ok None) /\ nth_error r 2 = nth_error r 0 /\
  exists l, nth_error r 2 = Some (Ok (Some l)) /\ length l = length vars.
Proof.
  exists [("u", [1; 2]); ("v", [3; 4])]%string%Z, "w"%string, [5; 6]%Z, (IInt 0). eexists. split; [vm_compute; reflexivity|].
  vm_compute. repeat split. eexists. split; reflexivity.
Qed.
Print Assumptions c63_added_refuted.
Theorem c63_same_name_refuted : exists vars i m l, umvar_new same_len vars = Ok m /\
  nth_error (snd (umvar_run get1 np_str same_len m [MItem i])) 0 = Some (Ok (Some l)) /\
  Ok l <> mapM (fun nd => get1 (snd nd) i) vars.
Proof.
  exists [("u", [1; 2]); ("u", [3; 4])]%string%Z, (IInt 0). eexists. eexists. split; [vm_compute; reflexivity|]. split; [vm_compute; reflexivity|]. vm_compute. discriminate.
Qed.
Print Assumptions c63_same_name_refuted.

Example c63_example :
  uvar_run get1 np_str (uvar_new [4; 5; 6; 7]%Z) [Item (IInt 0); Item (IInt 1); Item (IArray [2; 3]%Z); Item (IInt 9); Item (IInt (-1)); Item (IInt 0)] =
  (mkUvar [4; 5; 6; 7]%Z [("[2 3 ]", [6; 7]); ("-1", [7]); ("0", [4])]%string%Z,
   [Some (Ok [4]); Some (Ok [5]); Some (Ok [6; 7]); Some (Err IndexError); Some (Ok [7]); Some (Ok [4])]%Z).
Proof. vm_compute. reflexivity. Qed.
