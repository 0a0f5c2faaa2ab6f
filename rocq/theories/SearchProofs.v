(** Proofs about the variable search. *)
From Coq Require Import String.
From Verif Require Import Common GridTypeModel GridTypeProofs SearchModel SearchSpec.
Open Scope list_scope.

Section Dict.
  Context {V : Type}.
  Definition keys (d : dict V) : list string := map fst d.

  Lemma dget_in : forall (d : dict V) k v, dget d k = Some v -> In (k, v) d.
  Proof.
    induction d as [|[a x] d IH]; intros k v H; [discriminate|]. cbn in H.
    destruct (String.eqb_spec k a); [subst; injection H as <-; now left|]. right. auto.
  Qed.
  Lemma dget_key : forall (d : dict V) k, dget d k <> None <-> In k (keys d).
  Proof.
    induction d as [|[a x] d IH]; intros k; cbn; [tauto|].
    destruct (String.eqb_spec k a).
    - subst. split; auto. discriminate.
    - rewrite IH. split; auto. intros [->|]; auto. congruence.
  Qed.
  Lemma dget_none : forall (d : dict V) k, dget d k = None <-> ~ In k (keys d).
  Proof. intros. rewrite <- dget_key. destruct (dget d k); split; intros; try congruence. exfalso. apply H. discriminate. Qed.
  Lemma in_dget : forall (d : dict V) k v, NoDup (keys d) -> In (k, v) d -> dget d k = Some v.
  Proof.
    induction d as [|[a x] d IH]; intros k v ND H; [destruct H|]. inversion ND; subst. cbn.
    destruct H as [[= -> ->]|H]; [now rewrite String.eqb_refl|].
    destruct (String.eqb_spec k a); [|auto]. subst. exfalso. apply H2. apply (in_map fst) in H. exact H.
  Qed.
  Lemma dget_app : forall (d e : dict V) k,
    dget (d ++ e) k = match dget d k with Some v => Some v | None => dget e k end.
  Proof. induction d as [|[a x] d IH]; intros; cbn; auto. destruct (String.eqb k a); auto. Qed.
  Lemma keys_dset : forall (d : dict V) k v, keys (dset d k v) = if has d k then keys d else keys d ++ [k].
  Proof.
    induction d as [|[a x] d IH]; intros k v; cbn; auto. unfold has in *. cbn.
    destruct (String.eqb_spec k a); cbn; [now subst|]. rewrite IH. destruct (dget d k); reflexivity.
  Qed.
  Lemma nodup_dset : forall (d : dict V) k v, NoDup (keys d) -> NoDup (keys (dset d k v)).
  Proof.
    intros d k v H. rewrite keys_dset. destruct (has d k) eqn:E; auto.
    unfold has in E. destruct (dget d k) eqn:G; [discriminate|]. apply dget_none in G.
    apply NoDup_rev in H. rewrite <- (rev_involutive (keys d ++ [k])). apply NoDup_rev.
    rewrite rev_app_distr. cbn. constructor; auto. now rewrite <- in_rev.
  Qed.
End Dict.

Lemma nodup_app_l : forall A (l m : list A), NoDup (l ++ m) -> NoDup l.
Proof. induction l; cbn; intros; constructor; inversion H; subst; [rewrite in_app_iff in H2; tauto|eauto]. Qed.
Lemma nodup_snoc : forall A (l : list A) x, NoDup (l ++ [x]) -> ~ In x l.
Proof. induction l; cbn; intros x H; auto. inversion H; subst. intros [->|I]; [apply H2; rewrite in_app_iff; cbn; auto|exact (IHl _ H3 I)]. Qed.

(** One search. *)
Lemma search_get : forall look (t : roles) k, NoDup (keys t) ->
  dget (search look t) k = option_map (first_query look) (dget t k).
Proof.
  intros look t k. unfold search. induction t as [|[a qs] t IH] using rev_ind; intros ND; [reflexivity|].
  unfold keys in *. rewrite map_app in ND. rewrite fold_left_app. cbn [fold_left fst snd].
  rewrite dget_dset, dget_app. rewrite IH by (eapply nodup_app_l; eauto).
  apply nodup_snoc in ND. cbn [dget fst] in *.
  destruct (String.eqb_spec k a).
  - subst. rewrite (proj2 (dget_none t a)) by auto. reflexivity.
  - destruct (dget t k); reflexivity.
Qed.
Lemma search_nodup : forall look (t : roles), NoDup (keys (search look t)).
Proof.
  intros look t. unfold search. induction t as [|x t IH] using rev_ind; [constructor|].
  rewrite fold_left_app. cbn. now apply nodup_dset.
Qed.

(** Merging. *)
Definition prefer (a b : option (option nvar)) : option (option nvar) :=
  match a with
  | Some (Some v) => Some (Some v)
  | Some None => match b with Some x => Some x | None => Some None end
  | None => b
  end.
Lemma merge_get : forall d1 d2 k, NoDup (keys d2) -> dget (merge d1 d2) k = prefer (dget d1 k) (dget d2 k).
Proof.
  intros d1 d2 k. unfold merge. induction d2 as [|[a x] d2 IH] using rev_ind; intros ND.
  - cbn. destruct (dget d1 k) as [[|]|]; reflexivity.
  - unfold keys in *. rewrite map_app in ND. rewrite fold_left_app. cbn [fold_left fst snd].
    specialize (IH (nodup_app_l _ _ _ ND)). apply nodup_snoc in ND. cbn [fst] in ND.
    set (acc := fold_left (merge_step d1) d2 d1) in *.
    assert (HN : dget d2 a = None) by (apply dget_none; exact ND).
    rewrite dget_app. cbn [dget]. unfold merge_step. cbn [fst snd].
    destruct (String.eqb_spec k a).
    + subst k. rewrite HN in *. destruct (dget d1 a) as [[v|]|] eqn:E; cbn [prefer] in *.
      * rewrite IH. exact IH.
      * rewrite IH. rewrite dget_dset, String.eqb_refl. reflexivity.
      * rewrite dget_dset, String.eqb_refl. reflexivity.
    + assert (R : dget (dset acc a x) k = dget acc k).
      { rewrite dget_dset. destruct (String.eqb_spec k a); congruence. }
      replace (match dget d2 k with Some v => Some v | None => None end) with (dget d2 k) by (destruct (dget d2 k); auto).
      destruct (dget d1 a); [destruct (dget acc a) as [[|]|]|]; rewrite ?R; exact IH.
Qed.
Lemma merge_nodup : forall d1 d2, NoDup (keys d1) -> NoDup (keys (merge d1 d2)).
Proof.
  intros d1 d2 H. unfold merge. induction d2 as [|[a x] d2 IH] using rev_ind; auto.
  rewrite fold_left_app. cbn [fold_left fst snd]. set (acc := fold_left (merge_step d1) d2 d1) in *. unfold merge_step. cbn [fst snd].
  destruct (dget d1 a); [destruct (dget acc a) as [[|]|]|]; auto using nodup_dset.
Qed.
Lemma search_vars_nodup : forall def cf ds dg, NoDup (keys (search_vars def cf ds dg)).
Proof.
  intros. unfold search_vars. destruct (Nat.eqb _ _).
  - apply merge_nodup, search_nodup.
  - apply merge_nodup, merge_nodup, search_nodup.
Qed.

(** The first element of a filtered list. *)
Lemma filter_first : forall A (f : A -> bool) l,
  match head_opt (filter f l) with
  | Some v => FirstOf (fun x => f x = true) l v
  | None => NoneOf (fun x => f x = true) l
  end.
Proof.
  induction l as [|a l IH]; cbn; [intros x []|]. destruct (f a) eqn:E; cbn.
  - exists [], l. repeat split; auto.
  - destruct (head_opt (filter f l)).
    + destruct IH as (pre & post & -> & H1 & H2). exists (a :: pre), post. repeat split; auto.
      intros x [<-|I]; [congruence|auto].
    + intros x [<-|I]; [congruence|exact (IH x I)].
Qed.
Lemma first_of_ext : forall A (P Q : A -> Prop) l v, (forall x, P x <-> Q x) -> FirstOf P l v -> FirstOf Q l v.
Proof. intros A P Q l v H (pre & post & -> & H1 & H2). exists pre, post. repeat split; [now apply H|]. intros x I. rewrite <- H. auto. Qed.
Lemma none_of_ext : forall A (P Q : A -> Prop) l, (forall x, P x <-> Q x) -> NoneOf P l -> NoneOf Q l.
Proof. intros A P Q l H N x I. rewrite <- H. exact (N x I). Qed.
Lemma first_none : forall A (P : A -> Prop) l v, FirstOf P l v -> NoneOf P l -> False.
Proof. intros A P l v (pre & post & -> & H1 & _) N. apply (N v); auto. apply in_or_app. cbn. auto. Qed.
Lemma first_unique' : forall A (P : A -> Prop) l v w, FirstOf P l v -> FirstOf P l w -> v = w.
Proof.
  intros A P l v w (p1 & q1 & -> & H1 & N1) (p2 & q2 & E & H2 & N2).
  revert p2 E N2. induction p1 as [|a p1 IH]; intros [|b p2] E N2; cbn in E; injection E; intros; subst; auto.
  - exfalso. apply (N2 b); cbn; auto.
  - exfalso. apply (N1 w); cbn; auto.
  - eapply IH; eauto.
    + intros x I. apply N1. now right.
    + intros x I. apply N2. now right.
Qed.
Lemma attr_is_iff : forall o q, attr_is o q = true <-> o = Some q.
Proof. intros [s|] q; cbn; [rewrite String.eqb_eq; split; congruence|split; discriminate]. Qed.

Lemma long_look : forall f q, match head_opt (by_long f q ++ by_std f q) with
  | Some v => LongAnswer f q v
  | None => forall v, ~ LongAnswer f q v
  end.
Proof.
  intros f q. unfold by_long, by_std.
  pose proof (filter_first _ (fun v => attr_is (v_long v) q) (f_vars f)) as HL.
  pose proof (filter_first _ (fun v => attr_is (v_std v) q) (f_vars f)) as HS.
  destruct (filter (fun v => attr_is (v_long v) q) (f_vars f)) as [|a l]; cbn [app head_opt] in *.
  - assert (NL : NoneOf (fun x => v_long x = Some q) (f_vars f)) by (eapply none_of_ext; [|exact HL]; intros; apply attr_is_iff).
    destruct (head_opt _).
    + right. split; auto. eapply first_of_ext; [|exact HS]. intros; apply attr_is_iff.
    + intros v [H|[_ H]]; [exact (first_none _ _ _ _ H NL)|].
      refine (first_none _ _ _ _ H _). eapply none_of_ext; [|exact HS]. intros; apply attr_is_iff.
  - left. eapply first_of_ext; [|exact HL]. intros; apply attr_is_iff.
Qed.
Lemma name_look : forall f q, match by_name f q with
  | Some v => NameAnswer f q v
  | None => forall v, ~ NameAnswer f q v
  end.
Proof.
  intros f q. unfold by_name, NameAnswer. induction (f_vars f) as [|a l IH]; cbn.
  - intros v (pre & post & E & _). destruct pre; discriminate.
  - destruct (String.eqb_spec (v_name a) q).
    + exists [], l. repeat split; auto.
    + destruct (find _ l).
      * destruct IH as (pre & post & -> & H1 & H2). exists (a :: pre), post. repeat split; auto.
        intros x [<-|I]; auto.
      * intros v (pre & post & E & H1 & H2). destruct pre as [|b pre]; cbn in E; injection E; intros; subst; auto.
        apply (IH v). exists pre, post. repeat split; auto. intros x I. apply H2. now right.
Qed.

Lemma query_answer : forall (look : string -> option nvar) ans qs,
  (forall q, match look q with Some v => ans q v | None => forall v, ~ ans q v end) ->
  match first_query look qs with
  | Some v => RoleAnswer ans qs v
  | None => NoAnswer ans qs
  end.
Proof.
  intros look ans qs HL. induction qs as [|q qs IH]; cbn; [intros q []|].
  specialize (HL q). destruct (look q) as [v|].
  - exists q. split; auto. exists [], qs. repeat split; eauto.
  - destruct (first_query look qs).
    + destruct IH as (q' & (pre & post & -> & H1 & H2) & H3). exists q'. split; auto.
      exists (q :: pre), post. repeat split; auto.
      intros x [<-|I]; [intros [v Hv]; exact (HL v Hv)|auto].
    + intros x [<-|I] v; [apply HL|exact (IH x I v)].
Qed.
Lemma long_role : forall f qs, match first_query (fun q => head_opt (by_long f q ++ by_std f q)) qs with
  | Some v => RoleAnswer (LongAnswer f) qs v | None => NoAnswer (LongAnswer f) qs end.
Proof. intros. apply query_answer. apply long_look. Qed.
Lemma name_role : forall f qs, match first_query (by_name f) qs with
  | Some v => RoleAnswer (NameAnswer f) qs v | None => NoAnswer (NameAnswer f) qs end.
Proof. intros. apply query_answer. apply name_look. Qed.
Lemma no_queries : forall ans, NoAnswer ans [].
Proof. intros ans q []. Qed.

Lemma listed_get : forall (t : roles) k qs, NoDup (keys t) -> Listed t k qs ->
  dget t k = Some qs \/ (dget t k = None /\ qs = []).
Proof.
  intros t k qs ND [H|[H ->]]; [left; now apply in_dget|right]. split; auto.
  apply dget_none. intros I. apply H. unfold keys in I. apply in_map_iff in I. destruct I as ([a l] & E & I).
  cbn in E. subst. eauto.
Qed.
Lemma is_role_get : forall (t : roles) k, IsRole t k <-> dget t k <> None.
Proof.
  intros. rewrite dget_key. unfold IsRole, keys. split.
  - intros [l I]. apply (in_map fst) in I. exact I.
  - intros I. apply in_map_iff in I. destruct I as ([a l] & E & I). cbn in E. subst. eauto.
Qed.
