From Coq Require Import String.
From Verif Require Import Common CommonProofs GridTypeModel GridTypeProofs DepthModel ItemModel.
Open Scope list_scope.

Section Cache.
  Context {D I V : Type} (get : D -> I -> result V) (str : I -> string).
  Notation lookup := (lookup get str).
  Notation uvar_step := (uvar_step get str).
  Notation uvar_run := (uvar_run get str).

  Lemma dset_length : forall (c : dict V) k v, dget c k = None -> length (dset c k v) = S (length c).
  Proof.
    induction c as [|[k' v'] c IH]; intros k v H; [reflexivity|]. cbn in *. destruct (String.eqb k k'); [discriminate|]. cbn. now rewrite IH.
  Qed.
  Lemma dget_tl : forall (c : dict V) k v k' v', NoDup (map fst ((k', v') :: c)) -> dget c k = Some v -> dget ((k', v') :: c) k = Some v.
  Proof.
    intros c k v k' v' N H. cbn. destruct (String.eqb_spec k k') as [->|]; [|auto]. exfalso. inversion N as [|? ? N1 _]; subst. apply N1.
    clear - H. induction c as [|[a b] c IH]; [discriminate|]. cbn in *. destruct (String.eqb_spec k' a); auto.
  Qed.
  Lemma dset_keys : forall (c : dict V) k v, dget c k = None -> map fst (dset c k v) = map fst c ++ [k].
  Proof.
    induction c as [|[k' v'] c IH]; intros k v H; [reflexivity|]. cbn in *. destruct (String.eqb k k'); [discriminate|]. cbn. now rewrite IH.
  Qed.
  Lemma dget_none_keys : forall (c : dict V) k, dget c k = None -> ~ In k (map fst c).
  Proof.
    induction c as [|[k' v'] c IH]; intros k H; cbn in *; [tauto|]. destruct (String.eqb_spec k k'); [discriminate|]. intros [E|J]; [congruence|]. eapply IH; eauto.
  Qed.
  Lemma nodup_snoc : forall l (k : string), NoDup l -> ~ In k l -> NoDup (l ++ [k]).
  Proof.
    induction l as [|a l IH]; intros k N H; cbn; [repeat constructor; auto|]. inversion N; subst. constructor.
    - rewrite in_app_iff. cbn in *. intros [J|[J|[]]]; [auto|]. subst. tauto.
    - apply IH; cbn in *; tauto.
  Qed.

  (** Keys are distinct, at most three, and every entry is an answer of [get] for one
      of the datas [ds] and an item of [is] with that name. *)
  Definition CacheOk (ds : list D) (is : list I) (c : dict V) : Prop :=
    NoDup (map fst c) /\ (length c <= 3)%nat /\
    forall k v, dget c k = Some v -> exists d i, In d ds /\ In i is /\ str i = k /\ get d i = Ok v.
  Lemma cache_more : forall ds is c ds' is', CacheOk ds is c -> incl ds ds' -> incl is is' -> CacheOk ds' is' c.
  Proof.
    intros ds is c ds' is' (N & L & H) H1 H2. split; [auto|split; [auto|]]. intros k v E. destruct (H k v E) as (d & i & A & B & C).
    exists d, i. split; [auto|split; auto].
  Qed.
  Lemma cache_put_ok : forall ds is c i d v, CacheOk ds is c -> In d ds -> In i is -> dget c (str i) = None -> get d i = Ok v ->
    CacheOk ds is (cache_put c (str i) v).
  Proof.
    intros ds is c i d v (N & L & H) Hd Hi G E. unfold cache_put, cache_cap.
    assert (N' : NoDup (map fst (dset c (str i) v))) by (rewrite dset_keys by auto; apply nodup_snoc; auto; now apply dget_none_keys).
    assert (H' : forall k v', dget (dset c (str i) v) k = Some v' -> exists d i, In d ds /\ In i is /\ str i = k /\ get d i = Ok v').
    { intros k v' E'. rewrite dget_dset in E'. destruct (String.eqb_spec k (str i)) as [->|]; [|auto].
      injection E' as <-. exists d, i. auto. }
    pose proof (dset_length c (str i) v G) as Ln.
    destruct (Nat.ltb_spec 3 (length (dset c (str i) v))) as [B|B]; [|split; [auto|split; auto]].
    destruct (dset c (str i) v) as [|[k0 v0] c'] eqn:Ec; [cbn in *; lia|]. cbn [tl]. split; [|split].
    - cbn in N'. now inversion N'.
    - cbn in Ln. lia.
    - intros k v' E'. apply H'. now apply dget_tl.
  Qed.
  Lemma lookup_ok : forall ds is c d i, CacheOk ds is c -> In d ds -> In i is ->
    CacheOk ds is (fst (lookup d c i)) /\
    (snd (lookup d c i) = get d i \/
     exists d' i' v, snd (lookup d c i) = Ok v /\ In d' ds /\ In i' is /\ str i' = str i /\ get d' i' = Ok v /\ dget c (str i) = Some v).
  Proof.
    intros ds is c d i HC Hd Hi. unfold ItemModel.lookup. destruct (dget c (str i)) as [v|] eqn:G.
    - split; [exact HC|]. right. destruct HC as (_ & _ & H). destruct (H _ _ G) as (d' & i' & A & B & C & E). exists d', i', v. cbn. tauto.
    - destruct (get d i) as [v|e] eqn:E; cbn [fst snd]; [|auto]. split; [|auto]. eapply cache_put_ok; eauto.
  Qed.

  Definition datas (ops : list (uop (D := D) (I := I))) : list D := flat_map (fun o => match o with SetData d => [d] | Item _ => [] end) ops.
  Definition items (ops : list (uop (D := D) (I := I))) : list I := flat_map (fun o => match o with Item i => [i] | SetData _ => [] end) ops.

  Lemma run_app : forall a b s, uvar_run s (a ++ b) =
    let (s1, l1) := uvar_run s a in let (s2, l2) := uvar_run s1 b in (s2, l1 ++ l2).
  Proof.
    induction a as [|o a IH]; intros b s; cbn [app ItemModel.uvar_run]; [destruct (uvar_run s b); reflexivity|].
    destruct (uvar_step s o) as [s1 x]. rewrite IH. destruct (uvar_run s1 a) as [s2 l]. destruct (uvar_run s2 b) as [s3 l']. reflexivity.
  Qed.
  Lemma run_length : forall a s, length (snd (uvar_run s a)) = length a.
  Proof.
    induction a as [|o a IH]; intros s; cbn [ItemModel.uvar_run]; [reflexivity|]. destruct (uvar_step s o) as [s1 x].
    specialize (IH s1). destruct (uvar_run s1 a). cbn in *. congruence.
  Qed.
  Lemma run_ok : forall a s ds is, CacheOk ds is (uv_cache s) -> In (uv_data s) ds ->
    CacheOk (ds ++ datas a) (is ++ items a) (uv_cache (fst (uvar_run s a))) /\
    In (uv_data (fst (uvar_run s a))) (ds ++ datas a) /\
    uv_data (fst (uvar_run s a)) = last (datas a) (uv_data s).
  Proof.
    induction a as [|o a IH]; intros s ds is HC Hd; cbn [ItemModel.uvar_run].
    - cbn. now rewrite !app_nil_r.
    - destruct o as [i|d]; cbn [ItemModel.uvar_step].
      + destruct (lookup_ok ds (is ++ [i]) (uv_cache s) (uv_data s) i) as [H _].
        { eapply cache_more; [exact HC|intros x; auto|intros x Hx; apply in_app_iff; auto]. }
        { exact Hd. } { apply in_app_iff. cbn. auto. }
        destruct (lookup (uv_data s) (uv_cache s) i) as [c r]. cbn [fst] in H.
        specialize (IH (mkUvar (uv_data s) c) ds (is ++ [i]) H Hd).
        destruct (uvar_run (mkUvar (uv_data s) c) a) as [s2 l]. cbn [fst] in *.
        change (datas (Item i :: a)) with (datas a). change (items (Item i :: a)) with (i :: items a). rewrite <- app_assoc in IH. exact IH.
      + specialize (IH (mkUvar d (uv_cache s)) (ds ++ [d]) is). cbn [uv_cache uv_data] in IH.
        destruct IH as (I1 & I2 & I3).
        { eapply cache_more; [exact HC|intros x Hx; apply in_app_iff; auto|intros x; auto]. }
        { apply in_app_iff. cbn. auto. }
        destruct (uvar_run (mkUvar d (uv_cache s)) a) as [s2 l]. cbn [fst] in *.
        change (datas (SetData d :: a)) with (d :: datas a). change (items (SetData d :: a)) with (items a).
        rewrite <- app_assoc in I1, I2. split; [exact I1|]. split; [exact I2|]. rewrite I3.
        destruct (datas a) as [|x r]; [reflexivity|]. cbn [last]. clear. revert x d. induction r; intros; [reflexivity|]. cbn [last] in *. destruct r; auto.
  Qed.
End Cache.

Section Multi.
  Context {D I V : Type} (get : D -> I -> result V) (str : I -> string) (same_shape : D -> D -> bool).
  Notation columns := (columns get str).
  Notation umvar_step := (umvar_step get str same_shape).
  Notation umvar_run := (umvar_run get str same_shape).

  (** Every name has its data, and a good cache. *)
  Definition VarsOk (is : list I) (data : dict D) (vs : dict (uvar (D := D) (V := V))) : Prop :=
    forall n, match dget data n, dget vs n with
              | Some d, Some u => uv_data u = d /\ CacheOk get str [d] is (uv_cache u)
              | None, None => True
              | _, _ => False
              end.
  Lemma vars_more : forall is is' data vs, VarsOk is data vs -> incl is is' -> VarsOk is' data vs.
  Proof.
    intros is is' data vs H J n. specialize (H n). destruct (dget data n), (dget vs n); auto.
    destruct H. split; auto. eapply cache_more; eauto. intros x; auto.
  Qed.
  Lemma columns_ok : forall is data i, In i is -> (forall a b, In a is -> In b is -> str a = str b -> a = b) ->
    forall names vs, VarsOk is data vs -> (forall n, In n names -> dget data n <> None) ->
    VarsOk is data (fst (columns names vs i)) /\
    snd (columns names vs i) = mapM (fun n => match dget data n with Some d => get d i | None => Err KeyError end) names.
  Proof.
    intros is data i Hi Inj. induction names as [|n names IH]; intros vs HV Hn; cbn [ItemModel.columns mapM]; [auto|].
    pose proof (HV n) as Hd. pose proof (Hn n (or_introl eq_refl)) as HN.
    destruct (dget data n) as [d|] eqn:Ed; [|congruence]. destruct (dget vs n) as [u|] eqn:Eu; [|tauto].
    destruct Hd as [Ud Uc]. subst d.
    destruct (lookup_ok get str [uv_data u] is (uv_cache u) (uv_data u) i Uc (or_introl eq_refl) Hi) as [HC HA].
    assert (A : snd (lookup get str (uv_data u) (uv_cache u) i) = get (uv_data u) i).
    { destruct HA as [HA|(d' & i' & v & E & [<-|[]] & Hi' & S & G & _)]; [exact HA|]. rewrite E. apply Inj in S; auto. now subst. }
    destruct (lookup get str (uv_data u) (uv_cache u) i) as [c x]. cbn [fst snd] in HC, A. subst x.
    assert (HV' : VarsOk is data (dset vs n (mkUvar (uv_data u) c))).
    { intros m. rewrite dget_dset. destruct (String.eqb_spec m n) as [->|]; [|apply HV]. rewrite Ed. cbn. auto. }
    destruct (get (uv_data u) i) as [v|e]; cbn [fst snd bind]; [|auto].
    specialize (IH (dset vs n (mkUvar (uv_data u) c)) HV' (fun m J => Hn m (or_intror J))).
    destruct (columns names (dset vs n (mkUvar (uv_data u) c)) i) as [vs2 y]. cbn [fst snd] in *. destruct IH as [I1 I2].
    split; [exact I1|]. rewrite I2. reflexivity.
  Qed.
  Definition row (data : dict D) (names : list string) (i : I) : result (list V) :=
    mapM (fun n => match dget data n with Some d => get d i | None => Err KeyError end) names.
  Definition MultiOk (is : list I) (data : dict D) (names : list string) (s : umvar (D := D) (V := V)) : Prop :=
    um_names s = names /\ VarsOk is data (um_vars s) /\
    CacheOk (fun ns i => row data ns i) str [names] is (um_cache s).
  Lemma step_ok : forall is data names s i, MultiOk is data names s -> In i is ->
    (forall a b, In a is -> In b is -> str a = str b -> a = b) -> (forall n, In n names -> dget data n <> None) ->
    MultiOk is data names (fst (umvar_step s (MItem i))) /\
    snd (umvar_step s (MItem i)) = (do l <- row data names i; Ok (Some l)).
  Proof.
    intros is data names s i (N & HV & HC) Hi Inj Hn. cbn [ItemModel.umvar_step]. subst names.
    destruct (columns_ok is data i Hi Inj (um_names s) (um_vars s) HV Hn) as [HV' E].
    destruct (dget (um_cache s) (str i)) as [l|] eqn:G.
    - split; [split; [auto|split; auto]|]. destruct HC as (_ & _ & H). destruct (H _ _ G) as (ns & i' & [<-|[]] & Hi' & S & R).
      apply Inj in S; auto. subst i'. cbn [snd]. rewrite R. reflexivity.
    - destruct (columns (um_names s) (um_vars s) i) as [vs x]. cbn [fst snd] in HV', E. fold (row data (um_names s) i) in E. rewrite <- E.
      destruct x as [l|e]; cbn [fst snd bind]; (split; [|reflexivity]); (split; [reflexivity|split; [exact HV'|]]); cbn [um_cache]; [|exact HC].
      eapply cache_put_ok; eauto. cbn. auto.
  Qed.
  Lemma multi_run_ok : forall data names all, (forall n, In n names -> dget data n <> None) ->
    (forall a b, In a all -> In b all -> str a = str b -> a = b) ->
    forall is s, incl is all -> MultiOk all data names s ->
    MultiOk all data names (fst (umvar_run s (map MItem is))) /\
    snd (umvar_run s (map MItem is)) = map (fun i => do l <- row data names i; Ok (Some l)) is.
  Proof.
    intros data names all Hn Inj. induction is as [|i is IH]; intros s Hi HM; cbn [map ItemModel.umvar_run]; [auto|].
    destruct (step_ok all data names s i HM (Hi i (or_introl eq_refl)) Inj Hn) as [H1 H2].
    destruct (umvar_step s (MItem i)) as [s1 x]. cbn [fst snd] in H1, H2.
    destruct (IH s1 (fun y J => Hi y (or_intror J)) H1) as [I1 I2].
    destruct (umvar_run s1 (map MItem is)) as [s2 l]. cbn [fst snd] in *. split; [auto|]. congruence.
  Qed.
End Multi.
