From Coq Require Import String Lqa.
From Verif Require Import Common CommonProofs TimeModel TimeSpec TimeProofs TimeHeapProofs
  VariableModel VariableSpec.
Open Scope Z_scope.

(** ** Dimension ordering *)
Definition horizontal (g : grid_kind) : list dim :=
  match g with GStructured => [DLon; DLat] | GOther => [DEle] end.

Lemma ordering_ok g ndim ht hd o :
  dimension_ordering None g ndim ht hd = Ok o ->
  length o = ndim /\
  ((o = [DTime; DDepth] ++ horizontal g) \/
   (o = [DTime] ++ horizontal g /\ ht = true) \/
   (o = [DDepth] ++ horizontal g /\ ht = false /\ hd = true) \/
   o = horizontal g).
Proof.
  unfold dimension_ordering. destruct g; cbn [length].
  - destruct (Z.eqb_spec (Z.of_nat 4 - Z.of_nat ndim) 0).
    + intros H; injection H as <-. cbn. split; [lia|]. auto.
    + destruct (Z.eqb_spec (Z.of_nat 4 - Z.of_nat ndim) 1).
      * destruct ht; [|destruct hd; [|discriminate]]; intros H; injection H as <-; cbn; (split; [lia|]); intuition auto.
      * destruct (Z.eqb_spec (Z.of_nat 4 - Z.of_nat ndim) 2); [|discriminate].
        intros H; injection H as <-. cbn. split; [lia|]. auto.
  - destruct (Z.eqb_spec (Z.of_nat 3 - Z.of_nat ndim) 0).
    + intros H; injection H as <-. cbn. split; [lia|]. auto.
    + destruct (Z.eqb_spec (Z.of_nat 3 - Z.of_nat ndim) 1).
      * destruct ht; [|destruct hd; [|discriminate]]; intros H; injection H as <-; cbn; (split; [lia|]); intuition auto.
      * destruct (Z.eqb_spec (Z.of_nat 3 - Z.of_nat ndim) 2); [|discriminate].
        intros H; injection H as <-. cbn. split; [lia|]. auto.
Qed.

Lemma ordering_total g ndim ht hd :
  let full := (2 + length (horizontal g))%nat in
  match dimension_ordering None g ndim ht hd with
  | Ok o => (ndim = full \/ (ndim = full - 1 /\ (ht || hd = true)) \/ ndim = full - 2)%nat
  | Err e => e = ValueError /\
             ~ (ndim = full \/ (ndim = full - 1 /\ (ht || hd = true)) \/ ndim = full - 2)%nat
  end.
Proof.
  unfold dimension_ordering.
  destruct g; cbn [horizontal length Nat.add Nat.sub].
  - destruct (Z.eqb_spec (Z.of_nat 4 - Z.of_nat ndim) 0); [left; lia|].
    destruct (Z.eqb_spec (Z.of_nat 4 - Z.of_nat ndim) 1).
    + destruct ht, hd; cbn; try (right; left; split; [lia|reflexivity]).
      split; auto. intros [?|[[? ?]|?]]; try lia; discriminate.
    + destruct (Z.eqb_spec (Z.of_nat 4 - Z.of_nat ndim) 2); [right; right; lia|].
      split; auto. intros [?|[[? ?]|?]]; lia.
  - destruct (Z.eqb_spec (Z.of_nat 3 - Z.of_nat ndim) 0); [left; lia|].
    destruct (Z.eqb_spec (Z.of_nat 3 - Z.of_nat ndim) 1).
    + destruct ht, hd; cbn; try (right; left; split; [lia|reflexivity]).
      split; auto. intros [?|[[? ?]|?]]; try lia; discriminate.
    + destruct (Z.eqb_spec (Z.of_nat 3 - Z.of_nat ndim) 2); [right; right; lia|].
      split; auto. intros [?|[[? ?]|?]]; lia.
Qed.

(** ** Setters *)
Definition Consistent (v : var_state) : Prop :=
  forall o, vs_time v = Some o -> (1 < length (t_data o))%nat ->
  exists r, vs_shape v = length (t_data o) :: r.

Lemma time_init_plain l o : time_init l None None None None = Ok o -> t_data o = l.
Proof.
  unfold time_init; simpl. intros H.
  destruct (negb (timeseries_is_ascending l)); [discriminate|].
  destruct (has_duplicates l); [discriminate|]. injection H as <-. reflexivity.
Qed.

Lemma set_time_consistent v t v' : set_time v t = Ok v' ->
  Consistent v' /\ vs_shape v' = vs_shape v.
Proof.
  unfold set_time. intros H. destruct t as [|o|l].
  - injection H as <-. split; auto. intros o Ho. discriminate.
  - apply bind_ok in H as (u & H1 & H2). injection H2 as <-. split; auto.
    intros o' Ho Hlen. simpl in *. injection Ho as <-.
    destruct (vs_shape v) as [|d r]; [discriminate|].
    destruct (Nat.eqb_spec (length (t_data o)) d); [subst; eauto|].
    simpl in H1. destruct (Nat.ltb_spec 1 (length (t_data o))); [discriminate|lia].
  - apply bind_ok in H as (u & H1 & H). apply bind_ok in H as (o & H2 & H3).
    injection H3 as <-. split; auto. intros o' Ho Hlen. simpl in *. injection Ho as <-.
    apply time_init_plain in H2. rewrite H2 in *.
    destruct (vs_shape v) as [|d r]; [discriminate|].
    destruct (Nat.eqb_spec (length l) d); [subst; eauto|].
    simpl in H1. destruct (Nat.ltb_spec 1 (length l)); [discriminate|lia].
Qed.

Lemma set_data_consistent infer v s v' : set_data infer v s = Ok v' ->
  Consistent v' /\ vs_shape v' = s /\ vs_time v' = vs_time v.
Proof.
  unfold set_data. intros H. apply bind_ok in H as (u & H1 & H2).
  assert (E : vs_shape v' = s /\ vs_time v' = vs_time v).
  { destruct infer as [f|]; [|injection H2 as <-; auto].
    destruct (vs_loc v); [injection H2 as <-; auto|].
    destruct (f s); [injection H2 as <-; auto|discriminate]. }
  destruct E as [E1 E2]. split; auto.
  intros o Ho Hlen. rewrite E2 in Ho. rewrite Ho in H1. rewrite E1.
  destruct s as [|d r]; [discriminate|].
  destruct (Nat.eqb_spec d (length (t_data o))); [subst; eauto|discriminate].
Qed.

Lemma var_step_consistent infer v o : Consistent v -> Consistent (var_step infer v o).
Proof.
  intros Hc. unfold var_step. destruct (var_assign infer v o) as [v'|e] eqn:E; auto.
  destruct o; simpl in E; [apply set_time_consistent in E|apply set_data_consistent in E]; tauto.
Qed.
Lemma var_history_consistent infer shape t loc v ops :
  var_init infer shape t loc = Ok v -> Consistent (fold_left (var_step infer) ops v).
Proof.
  intros H. apply bind_ok in H as (v0 & _ & H). apply set_time_consistent in H as [H _].
  revert v H. induction ops as [|o ops IH]; intros v H; auto.
  simpl. apply IH. apply var_step_consistent; auto.
Qed.

(** Which assignments are accepted. *)
Lemma set_time_accepts v o d r : vs_shape v = d :: r ->
  (length (t_data o) = d \/ length (t_data o) <= 1)%nat <->
  set_time v (TObj o) = Ok (mkVS (vs_shape v) (Some o) (vs_loc v)).
Proof.
  intros Hs. unfold set_time. rewrite Hs.
  destruct (Nat.eqb_spec (length (t_data o)) d); simpl.
  - split; auto.
  - destruct (Nat.ltb_spec 1 (length (t_data o))); simpl; split; auto; try lia; try discriminate.
Qed.
Lemma set_time_rejects v o d r : vs_shape v = d :: r ->
  (length (t_data o) <> d /\ 1 < length (t_data o))%nat -> set_time v (TObj o) = Err ValueError.
Proof.
  intros Hs [H1 H2]. unfold set_time. rewrite Hs.
  destruct (Nat.eqb_spec (length (t_data o)) d); [contradiction|].
  destruct (Nat.ltb_spec 1 (length (t_data o))); [reflexivity|lia].
Qed.
Lemma set_data_rejects infer v o d r : vs_time v = Some o -> d <> length (t_data o) ->
  set_data infer v (d :: r) = Err ValueError.
Proof.
  intros Ht Hd. unfold set_data. rewrite Ht. destruct (Nat.eqb_spec d (length (t_data o))); [contradiction|reflexivity].
Qed.
Lemma set_data_accepts v o d r : vs_time v = Some o -> d = length (t_data o) ->
  (forall f l, vs_loc v = Some l ->
     set_data (Some f) v (d :: r) = Ok (mkVS (d :: r) (Some o) (Some l))) /\
  (forall f, vs_loc v = None -> set_data (Some f) v (d :: r) =
     match f (d :: r) with
     | Some l => Ok (mkVS (d :: r) (Some o) (Some l)) | None => Err ValueError end) /\
  set_data None v (d :: r) = Ok (mkVS (d :: r) (Some o) (vs_loc v)).
Proof.
  intros Ht ->. unfold set_data. rewrite Ht, Nat.eqb_refl. cbn [bind].
  split; [|split]; auto.
  - intros f l ->. reflexivity.
  - intros f ->. destruct (f (length (t_data o) :: r)); reflexivity.
Qed.

(** ** Memo *)
Lemma tl_skipn {A} (l : list A) m : tl (skipn m l) = skipn (S m) l.
Proof. revert m; induction l as [|a l IH]; intros [|m]; simpl; auto. apply IH. Qed.
Section MemoFacts.
  Context {K V : Type} (keqb : K -> K -> bool).
  Context (keqb_iff : forall a b, keqb a b = true <-> a = b).
  Notation memo := (list (K * V)).
  Lemma keqb_refl k : keqb k k = true.
  Proof. apply keqb_iff. reflexivity. Qed.
  Lemma keqb_neq a b : a <> b -> keqb a b = false.
  Proof. intros H. destruct (keqb a b) eqn:E; auto. apply keqb_iff in E. contradiction. Qed.
  Lemma K_dec (a b : K) : {a = b} + {a <> b}.
  Proof. destruct (keqb a b) eqn:E; [left; apply keqb_iff; auto|right; intros H; apply keqb_iff in H; congruence]. Qed.

  Lemma get_put_same (d : memo) k v : memo_get keqb (memo_put keqb d k v) k = Some v.
  Proof.
    induction d as [|[k' v'] d IH]; simpl.
    - rewrite keqb_refl. reflexivity.
    - destruct (keqb k' k) eqn:E; simpl; rewrite E; auto.
  Qed.
  Lemma get_put_other (d : memo) k k' v : k <> k' -> memo_get keqb (memo_put keqb d k v) k' = memo_get keqb d k'.
  Proof.
    intros H. induction d as [|[k0 v0] d IH]; simpl.
    - rewrite keqb_neq; auto.
    - destruct (keqb k0 k) eqn:E; simpl.
      + apply keqb_iff in E. subst. rewrite !keqb_neq; auto.
      + destruct (keqb k0 k'); auto.
  Qed.
  Lemma get_none_iff (d : memo) k : memo_get keqb d k = None <-> ~ In k (map fst d).
  Proof.
    induction d as [|[k0 v0] d IH]; simpl; [tauto|].
    destruct (keqb k0 k) eqn:E.
    - apply keqb_iff in E. split; [discriminate|intros H; exfalso; auto].
    - split.
      + intros H [->|H']; [rewrite keqb_refl in E; discriminate|tauto].
      + intros H. apply IH. tauto.
  Qed.
  Lemma put_keys (d : memo) k v :
    map fst (memo_put keqb d k v) = if existsb (fun k' => keqb k' k) (map fst d) then map fst d else map fst d ++ [k].
  Proof.
    induction d as [|[k0 v0] d IH]; simpl; auto.
    destruct (keqb k0 k) eqn:E; simpl; auto. rewrite IH.
    destruct (existsb (fun k' => keqb k' k) (map fst d)); auto.
  Qed.
  Lemma existsb_key l k : existsb (fun k' => keqb k' k) l = true <-> In k l.
  Proof.
    rewrite existsb_exists. split.
    - intros (x & Hx & E). apply keqb_iff in E. subst. auto.
    - intros H. exists k. split; auto. apply keqb_refl.
  Qed.
  Lemma put_nodup (d : memo) k v : NoDup (map fst d) -> NoDup (map fst (memo_put keqb d k v)).
  Proof.
    intros H. rewrite put_keys. destruct (existsb _ _) eqn:E; auto.
    apply NoDup_app_remove_l with (l := []) || idtac.
    assert (~ In k (map fst d)).
    { intros Hin. apply existsb_key in Hin. congruence. }
    clear E. induction (map fst d) as [|a l IH]; simpl.
    - constructor; [simpl; tauto|constructor].
    - inversion H; subst. constructor.
      + rewrite in_app_iff. simpl. intros [?|[?|[]]]; subst; auto. apply H0. left; auto.
      + apply IH; auto. intros ?. apply H0. right; auto.
  Qed.
  Lemma put_length (d : memo) k v : (length (memo_put keqb d k v) <= S (length d))%nat.
  Proof. induction d as [|[k0 v0] d IH]; simpl; auto. destruct (keqb k0 k); simpl; lia. Qed.
  Lemma put_app_new (d : memo) k v : ~ In k (map fst d) -> memo_put keqb d k v = d ++ [(k, v)].
  Proof.
    induction d as [|[k0 v0] d IH]; simpl; auto. intros H.
    rewrite keqb_neq by tauto. rewrite IH by tauto. reflexivity.
  Qed.

  Definition evicted (cap : nat) (d : memo) : memo := if Nat.ltb cap (length d) then tl d else d.

  Lemma evicted_length cap (d : memo) : (length d <= S cap)%nat -> (length (evicted cap d) <= cap)%nat.
  Proof.
    intros H. unfold evicted. destruct (Nat.ltb_spec cap (length d)); [|lia].
    destruct d; simpl in *; lia.
  Qed.
  Lemma tl_nodup (d : memo) : NoDup (map fst d) -> NoDup (map fst (tl d)).
  Proof. destruct d; simpl; auto. intros H. inversion H; auto. Qed.
  Lemma evicted_nodup cap (d : memo) : NoDup (map fst d) -> NoDup (map fst (evicted cap d)).
  Proof. unfold evicted. destruct (Nat.ltb cap (length d)); auto using tl_nodup. Qed.

  Lemma store_eq cap (d : memo) k v : memo_store keqb cap d k v = memo_put keqb (evicted cap d) k v.
  Proof. reflexivity. Qed.
  Lemma store_length cap (d : memo) k v : (length d <= S cap)%nat ->
    (length (memo_store keqb cap d k v) <= S cap)%nat.
  Proof.
    intros H. apply evicted_length in H. pose proof (put_length (evicted cap d) k v).
    rewrite store_eq. lia.
  Qed.
  Lemma store_nodup cap (d : memo) k v : NoDup (map fst d) -> NoDup (map fst (memo_store keqb cap d k v)).
  Proof. intros H. apply put_nodup. apply evicted_nodup; auto. Qed.

  Lemma run_snoc cap (h : memo) k v : memo_run keqb cap (h ++ [(k, v)]) = memo_store keqb cap (memo_run keqb cap h) k v.
  Proof. unfold memo_run. rewrite fold_left_app. reflexivity. Qed.

  Lemma run_bounded cap (h : memo) : (length (memo_run keqb cap h) <= S cap)%nat /\ NoDup (map fst (memo_run keqb cap h)).
  Proof.
    induction h as [|[k v] h IH] using rev_ind.
    - simpl. split; [lia|constructor].
    - rewrite run_snoc. destruct IH. split; [apply store_length; auto|apply store_nodup; auto].
  Qed.

  Lemma store_hit cap (d : memo) k v : memo_get keqb (memo_store keqb cap d k v) k = Some v.
  Proof. apply get_put_same. Qed.

  Lemma store_other cap (d : memo) k v k' : k <> k' ->
    memo_get keqb (memo_store keqb cap d k v) k' = memo_get keqb (evicted cap d) k'.
  Proof. intros H. rewrite store_eq. apply get_put_other; auto. Qed.

  Lemma evicted_get cap (d : memo) k v : memo_get keqb (evicted cap d) k = Some v ->
    NoDup (map fst d) -> memo_get keqb d k = Some v.
  Proof.
    unfold evicted. destruct (Nat.ltb cap (length d)); auto.
    destruct d as [|[k0 v0] d]; simpl; auto. intros H Hn. inversion Hn; subst.
    rewrite keqb_neq; auto. intros ->.
    assert (memo_get keqb d k = None) by (apply get_none_iff; auto). congruence.
  Qed.

  Lemma run_latest cap (h : memo) k v : memo_get keqb (memo_run keqb cap h) k = Some v -> LatestStore h k v.
  Proof.
    revert k v. induction h as [|[k0 v0] h IH] using rev_ind; intros k v H.
    - discriminate.
    - rewrite run_snoc in H. destruct (K_dec k0 k) as [->|Hne].
      + rewrite store_hit in H. injection H as <-. exists h, []. split; auto.
      + rewrite store_other in H by auto.
        apply evicted_get in H; [|apply run_bounded].
        destruct (IH _ _ H) as (h1 & h2 & -> & Hn).
        exists h1, (h2 ++ [(k0, v0)]). split; [rewrite <- app_assoc; reflexivity|].
        rewrite map_app, in_app_iff. simpl. intuition.
  Qed.

  (** Exactly which lookups change when something is stored. *)
  Lemma store_effect cap (d : memo) k v : NoDup (map fst d) ->
    let full := Nat.ltb cap (length d) in
    forall k', memo_get keqb (memo_store keqb cap d k v) k' =
      if keqb k k' then Some v
      else if full && match d with (k0, _) :: _ => keqb k0 k' | [] => false end then None
      else memo_get keqb d k'.
  Proof.
    intros Hn full k'. destruct (keqb k k') eqn:E.
    - apply keqb_iff in E. subst. apply store_hit.
    - rewrite store_other by (intros ->; rewrite keqb_refl in E; discriminate).
      unfold evicted. fold full. destruct full; simpl; auto.
      destruct d as [|[k0 v0] d]; simpl; auto.
      destruct (keqb k0 k') eqn:E0; auto.
      apply keqb_iff in E0. subst. apply get_none_iff. inversion Hn; auto.
  Qed.

  (** When every store is of a new key the cache is the tail of the history. *)
  Lemma run_tail cap (h : memo) : NoDup (map fst h) ->
    memo_run keqb cap h = skipn (length h - S cap) h.
  Proof.
    induction h as [|[k v] h IH] using rev_ind; intros Hn; auto.
    rewrite run_snoc.
    rewrite map_app in Hn. simpl in Hn.
    assert (Hk : ~ In k (map fst h)).
    { apply NoDup_remove_2 in Hn. rewrite app_nil_r in Hn. auto. }
    assert (Hn' : NoDup (map fst h)).
    { apply NoDup_remove_1 in Hn. rewrite app_nil_r in Hn. auto. }
    rewrite IH by auto. rewrite app_length. cbn [length].
    set (m := (length h - S cap)%nat).
    assert (Hin : forall j, ~ In k (map fst (skipn j h))).
    { intros j Hj. apply Hk. rewrite <- (firstn_skipn j h), map_app, in_app_iff. auto. }
    unfold memo_store. rewrite skipn_length.
    destruct (Nat.ltb_spec cap (length h - m)).
    - assert (E : tl (skipn m h) = skipn (S m) h).
      { apply tl_skipn. }
      rewrite E, put_app_new by auto.
      replace (length h + 1 - S cap)%nat with (S m) by (unfold m in *; lia).
      rewrite skipn_app. replace (S m - length h)%nat with O by (unfold m in *; lia). reflexivity.
    - rewrite put_app_new by auto.
      replace (length h + 1 - S cap)%nat with m by (unfold m in *; lia).
      rewrite skipn_app. replace (m - length h)%nat with O by (unfold m in *; lia). reflexivity.
  Qed.
End MemoFacts.

(** ** Cached at *)
Lemma Qpair_eqb_iff a b : Qpair_eqb a b = true <-> a = b.
Proof.
  unfold Qpair_eqb. rewrite andb_true_iff, Z.eqb_eq, Pos.eqb_eq.
  destruct a, b; simpl. split; [intros [-> ->]; auto|intros H; injection H; auto].
Qed.
Lemma list_eqbQ_iff a b : list_eqbQ a b = true <-> a = b.
Proof.
  revert b; induction a as [|x a IH]; intros [|y b]; simpl; split; intros H; try discriminate; auto.
  - apply andb_true_iff in H as [H1 H2]. apply Qpair_eqb_iff in H1. apply IH in H2. congruence.
  - injection H as -> ->. rewrite (proj2 (Qpair_eqb_iff y y) eq_refl). apply IH. reflexivity.
Qed.
Lemma key_eqb_iff a b : key_eqb a b = true <-> a = b.
Proof.
  unfold key_eqb. rewrite andb_true_iff, list_eqbQ_iff, Z.eqb_eq.
  destruct a, b; simpl. split; [intros [-> ->]; auto|intros H; injection H; auto].
Qed.

Lemma concat_inj {A} c (a b : list (list A)) : (0 < c)%nat ->
  Forall (fun r => length r = c) a -> Forall (fun r => length r = c) b ->
  concat a = concat b -> a = b.
Proof.
  intros Hc Ha. revert b. induction Ha as [|x a Hx Ha IH]; intros b Hb E.
  - destruct Hb as [|y b Hy Hb]; auto. destruct y; simpl in *; [lia|discriminate].
  - destruct Hb as [|y b Hy Hb]; simpl in E.
    + destruct x; simpl in *; [lia|discriminate].
    + assert (x = y /\ concat a = concat b).
      { assert (L : length x = length y) by congruence. clear - E L. revert y L E.
        induction x as [|u x IHx]; intros [|w y] L E; simpl in *; try discriminate; auto.
        injection E as -> E. destruct (IHx y) as [-> ?]; auto. }
      destruct H as [-> H]. f_equal. auto.
Qed.

Definition uniform (cols opts : nat) (r : request) : Prop :=
  Forall (fun row => length row = cols) (rq_pts r) /\ rq_opts r = opts.
Lemma uniform_key c o r1 r2 : (0 < c)%nat -> uniform c o r1 -> uniform c o r2 ->
  rq_key r1 = rq_key r2 -> r1 = r2.
Proof.
  intros Hc [H1 E1] [H2 E2] H. unfold rq_key in H. injection H as Hp Ht.
  apply (concat_inj c) in Hp; auto. destruct r1, r2; simpl in *. congruence.
Qed.

Section CachedAtFacts.
  Context {D V : Type} (compute : D -> request -> result V).
  Definition memo_sound (c o : nat) (s : at_state (D := D) (V := V)) : Prop :=
    forall k v, memo_get key_eqb (as_memo s) k = Some v ->
      exists r, uniform c o r /\ rq_key r = k /\ compute (as_data s) r = Ok v.

  Lemma at_step_sound c o s r : (0 < c)%nat -> memo_sound c o s -> NoDup (map fst (as_memo s)) ->
    uniform c o r ->
    exists s', at_step compute s (Call r) = (s', Some (compute (as_data s) r)) /\
      memo_sound c o s' /\ NoDup (map fst (as_memo s')) /\ as_data s' = as_data s.
  Proof.
    intros Hc Hs Hn Hu. cbn [at_step].
    destruct (memo_get key_eqb (as_memo s) (rq_key r)) as [v|] eqn:E.
    - destruct (Hs _ _ E) as (r' & Hu' & Hk & Hv).
      apply (uniform_key c o) in Hk; auto. subst r'. rewrite Hv. eauto.
    - destruct (compute (as_data s) r) as [v|e] eqn:Ec; eauto.
      eexists. split; [reflexivity|]. split; [|split; [apply store_nodup; auto using key_eqb_iff|reflexivity]].
      intros k w Hk. cbn [as_memo as_data] in *.
      destruct (K_dec key_eqb key_eqb_iff (rq_key r) k) as [<-|Hne].
      + rewrite store_hit in Hk by apply key_eqb_iff. injection Hk as <-. eauto.
      + rewrite store_other in Hk by (auto; apply key_eqb_iff).
        apply evicted_get in Hk; auto using key_eqb_iff.
  Qed.

  Lemma at_run_transparent c o ops : (0 < c)%nat ->
    forall s, memo_sound c o s -> NoDup (map fst (as_memo s)) ->
    Forall (fun op => match op with Call r => uniform c o r | SetData _ => False end) ops ->
    snd (at_run compute s ops) = at_ref compute (as_data s) ops.
  Proof.
    intros Hc. induction ops as [|op ops IH]; intros s Hs Hn Hf; auto.
    inversion Hf as [|? ? Ho Hf']; subst. destruct op as [r|d]; [|tauto].
    destruct (at_step_sound c o s r Hc Hs Hn Ho) as (s' & E & Hs' & Hn' & Ed).
    cbn [at_run at_ref]. rewrite E.
    specialize (IH s' Hs' Hn' Hf'). destruct (at_run compute s' ops) as [s2 xs].
    cbn [snd] in *. rewrite IH, Ed. reflexivity.
  Qed.
  Lemma at_run_transparent_fresh c o d ops : (0 < c)%nat ->
    Forall (fun op => match op with Call r => uniform c o r | SetData _ => False end) ops ->
    snd (at_run compute (mkAt d []) ops) = at_ref compute d ops.
  Proof.
    intros Hc Hf. apply (at_run_transparent c o); auto.
    - intros k v H. discriminate.
    - constructor.
  Qed.

  (** In any history at all the cache stays bounded with distinct keys. *)
  Lemma at_run_bounded ops : forall s,
    (length (as_memo s) <= 5)%nat -> NoDup (map fst (as_memo s)) ->
    (length (as_memo (fst (at_run compute s ops))) <= 5)%nat /\
    NoDup (map fst (as_memo (fst (at_run compute s ops)))).
  Proof.
    induction ops as [|op ops IH]; intros s H1 H2; auto.
    cbn [at_run]. destruct (at_step compute s op) as [s1 x] eqn:E.
    assert (K : (length (as_memo s1) <= 5)%nat /\ NoDup (map fst (as_memo s1))).
    { destruct op as [r|d]; cbn [at_step] in E.
      - destruct (memo_get key_eqb (as_memo s) (rq_key r)); [injection E as <- <-; auto|].
        destruct (compute (as_data s) r); injection E as <- <-; auto.
        cbn [as_memo]. split; [apply store_length; auto|apply store_nodup; auto using key_eqb_iff].
      - injection E as <- <-. auto. }
    specialize (IH s1 (proj1 K) (proj2 K)).
    destruct (at_run compute s1 ops). exact IH.
  Qed.
End CachedAtFacts.

(** ** Names *)
Lemma find_first {A} (p : A -> bool) l x : find p l = Some x -> FirstWith (fun y => p y = true) l x.
Proof.
  induction l as [|a l IH]; simpl; [discriminate|]. destruct (p a) eqn:E.
  - intros H. injection H as <-. exists [], l. repeat split; auto.
  - intros H. destruct (IH H) as (pre & post & -> & Hx & Hn).
    exists (a :: pre), post. repeat split; auto.
    intros y [->|Hy]; [congruence|auto].
Qed.
Lemma find_none' {A} (p : A -> bool) l : find p l = None -> NoneWith (fun y => p y = true) l.
Proof. intros H y Hy E. rewrite (find_none _ _ H y Hy) in E. discriminate. Qed.

Definition InFile (file : list nc_var) (n : string) : Prop := exists v, In v file /\ nc_name v = n.
Definition Labelled (n : string) (v : nc_var) : Prop := nc_std v = Some n \/ nc_long v = Some n.
Lemma has_name_iff file n : has_name file n = true <-> InFile file n.
Proof.
  unfold has_name, InFile. rewrite existsb_exists. split; intros (v & H & E); exists v; split; auto;
  apply String.eqb_eq; auto.
Qed.
Lemma opt_is_iff o n : opt_is o n = true <-> o = Some n.
Proof.
  destruct o as [s|]; simpl; [|split; discriminate]. rewrite String.eqb_eq.
  split; [intros ->; auto|intros H; injection H; auto].
Qed.
Lemma matches_std_iff v n : matches_std v n = true <-> Labelled n v.
Proof. unfold matches_std, Labelled. rewrite orb_true_iff, !opt_is_iff. tauto. Qed.
Lemma FirstWith_ext {A} (P Q : A -> Prop) l x : (forall y, P y <-> Q y) -> FirstWith P l x -> FirstWith Q l x.
Proof.
  intros H (pre & post & E & Hx & Hn). exists pre, post. split; [auto|split; [apply H; auto|]].
  intros y Hy HQ. apply (Hn y Hy). apply H. auto.
Qed.

Lemma gen_std_spec file stds :
  match gen_std file stds with
  | Ok n => exists s v, FirstWith (fun s => exists v, In v file /\ Labelled s v) stds s /\
                        FirstWith (Labelled s) file v /\ nc_name v = n
  | Err e => e = ValueError /\ NoneWith (fun s => exists v, In v file /\ Labelled s v) stds
  end.
Proof.
  induction stds as [|s stds IH]; cbn [gen_std].
  - split; auto. intros y [].
  - destruct (find (fun v => matches_std v s) file) as [v|] eqn:E.
    + apply find_first in E. pose proof (FirstWith_ext _ (Labelled s) _ _ (fun y => matches_std_iff y s) E) as F.
      exists s, v. split; [|split; auto].
      exists [], stds. split; [reflexivity|]. split; [|intros y []].
      destruct F as (pre & post & -> & Hl & _). exists v. rewrite in_app_iff. simpl. auto.
    + assert (N : ~ exists v, In v file /\ Labelled s v).
      { intros (v & Hv & Hl). apply matches_std_iff in Hl. apply (find_none _ _ E v) in Hv. congruence. }
      destruct (gen_std file stds) as [n|e].
      * destruct IH as (s' & v & (pre & post & -> & Hs & Hn) & F & Hv).
        exists s', v. split; auto. exists (s :: pre), post. split; [reflexivity|]. split; [auto|].
        intros y [<-|Hy]; auto.
      * destruct IH as [-> IH]. split; auto. intros y [<-|Hy]; auto.
Qed.

Lemma gen_varname_spec file names stds :
  match gen_varname file names stds with
  | Ok n => FirstWith (InFile file) names n \/
            (NoneWith (InFile file) names /\
             exists s v, FirstWith (fun s => exists v, In v file /\ Labelled s v) stds s /\
                         FirstWith (Labelled s) file v /\ nc_name v = n)
  | Err e => e = ValueError /\ NoneWith (InFile file) names /\
             NoneWith (fun s => exists v, In v file /\ Labelled s v) stds
  end.
Proof.
  unfold gen_varname. destruct (find (has_name file) names) as [n|] eqn:E.
  - left. apply find_first in E. eapply FirstWith_ext; [|exact E]. intros y. apply has_name_iff.
  - assert (N : NoneWith (InFile file) names).
    { intros y Hy Hi. apply has_name_iff in Hi. rewrite (find_none _ _ E y Hy) in Hi. discriminate. }
    pose proof (gen_std_spec file stds) as H. destruct (gen_std file stds); intuition.
Qed.

(** The vector search: the LAST matching candidate of each list. *)
Definition LastWith {A} (P : A -> Prop) (l : list A) (x : A) : Prop :=
  exists pre post, l = pre ++ x :: post /\ P x /\ forall y, In y post -> ~ P y.
Lemma fold_last_names file names acc :
  (NoneWith (InFile file) names /\
   fold_left (fun acc n => if has_name file n then Some n else acc) names acc = acc) \/
  (exists n, LastWith (InFile file) names n /\
   fold_left (fun acc n => if has_name file n then Some n else acc) names acc = Some n).
Proof.
  revert acc. induction names as [|a names IH] using rev_ind; intros acc; simpl.
  - left. split; auto. intros y [].
  - rewrite fold_left_app. cbn [fold_left]. destruct (has_name file a) eqn:E.
    + right. exists a. split; auto. exists names, []. split; [reflexivity|split; [apply has_name_iff; auto|intros y []]].
    + assert (Na : ~ InFile file a) by (intros H; apply has_name_iff in H; congruence).
      destruct (IH acc) as [[N H]|(n & (pre & post & -> & Hn & Hp) & H)].
      * left. split; auto. intros y Hy. apply in_app_iff in Hy as [Hy|[<-|[]]]; auto.
      * right. exists n. split; auto. exists pre, (post ++ [a]). rewrite <- app_assoc. split; [reflexivity|].
        split; auto. intros y Hy. apply in_app_iff in Hy as [Hy|[<-|[]]]; auto.
Qed.
Lemma gen_varnames_default file names stds :
  match gen_varnames_comp file names stds with
  | Some n =>
      LastWith (InFile file) names n \/
      (NoneWith (InFile file) names /\
       exists s v, LastWith (fun s => exists v, In v file /\ Labelled s v) stds s /\
                   FirstWith (Labelled s) file v /\ nc_name v = n)
  | None => NoneWith (InFile file) names /\
            NoneWith (fun s => exists v, In v file /\ Labelled s v) stds
  end.
Proof.
  unfold gen_varnames_comp.
  set (F := fun acc n => match find (fun v => matches_std v n) file with Some v => Some (nc_name v) | None => acc end).
  assert (G : forall stds (acc : option string),
     (NoneWith (fun s => exists v, In v file /\ Labelled s v) stds /\ fold_left F stds acc = acc) \/
     exists s v, LastWith (fun s => exists v, In v file /\ Labelled s v) stds s /\
       FirstWith (Labelled s) file v /\ fold_left F stds acc = Some (nc_name v)).
  { induction stds0 as [|s l IH] using rev_ind; intros acc.
    - left. split; auto. intros y [].
    - rewrite fold_left_app. cbn [fold_left]. unfold F at 1 3.
      destruct (find (fun v => matches_std v s) file) as [v|] eqn:E.
      + right. exists s, v. pose proof (find_first _ _ _ E) as F1.
        apply find_some in E as [E1 E2]. apply matches_std_iff in E2.
        split; [|split; auto].
        * exists l, []. split; [reflexivity|]. split; [eauto|intros y []].
        * eapply FirstWith_ext; [|exact F1]. intros y. apply matches_std_iff.
      + assert (N : ~ exists v, In v file /\ Labelled s v).
        { intros (v & Hv & Hl). apply matches_std_iff in Hl. apply (find_none _ _ E v) in Hv. congruence. }
        destruct (IH acc) as [[N' H]|(s' & v & (pre & post & -> & Hs & Hn) & Hf & H)].
        * left. split; auto. intros y Hy. apply in_app_iff in Hy as [Hy|[<-|[]]]; auto.
        * right. exists s', v. split; auto.
          exists pre, (post ++ [s]). rewrite <- app_assoc. split; [reflexivity|]. split; auto.
          intros y Hy. apply in_app_iff in Hy as [Hy|[<-|[]]]; auto. }
  destruct (fold_last_names file names None) as [[N E]|(n & L & E)]; rewrite E.
  - destruct (G stds None) as [[N' E']|(s & v & Hs & Hf & E')]; rewrite E'; auto.
    right. split; auto. exists s, v. auto.
  - auto.
Qed.
