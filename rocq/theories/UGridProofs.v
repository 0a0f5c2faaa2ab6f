(** Proofs about the unstructured-grid topology model. *)
From Verif Require Import Common CommonProofs UGridModel UGridSpec.
Open Scope Z_scope.

(** ** min / max *)
Lemma fold_max_spec r x :
  (x <= fold_left Z.max r x) /\ (forall y, In y r -> y <= fold_left Z.max r x) /\
  (fold_left Z.max r x = x \/ In (fold_left Z.max r x) r).
Proof.
  revert x. induction r as [|a r IH]; intros x; cbn [fold_left].
  - repeat split; try lia. intros y [].
  - destruct (IH (Z.max x a)) as (H1 & H2 & H3). repeat split; try lia.
    + intros y [->|Hy]; [lia|auto].
    + destruct H3 as [H3|H3]; [|right; right; exact H3].
      rewrite H3. destruct (Z.max_spec x a) as [[_ ->]|[_ ->]]; [right; left; auto|left; auto].
Qed.
Lemma fold_min_spec r x :
  (fold_left Z.min r x <= x) /\ (forall y, In y r -> fold_left Z.min r x <= y) /\
  (fold_left Z.min r x = x \/ In (fold_left Z.min r x) r).
Proof.
  revert x. induction r as [|a r IH]; intros x; cbn [fold_left].
  - repeat split; try lia. intros y [].
  - destruct (IH (Z.min x a)) as (H1 & H2 & H3). repeat split; try lia.
    + intros y [->|Hy]; [lia|auto].
    + destruct H3 as [H3|H3]; [|right; right; exact H3].
      rewrite H3. destruct (Z.min_spec x a) as [[_ ->]|[_ ->]]; [left; auto|right; left; auto].
Qed.
Lemma zmax_ok l m : zmax l = Ok m -> In m l /\ forall y, In y l -> y <= m.
Proof.
  destruct l as [|x r]; [discriminate|]. cbn [zmax]. intros [= <-].
  destruct (fold_max_spec r x) as (H1 & H2 & H3). split.
  - destruct H3 as [->|H3]; [left; auto|right; auto].
  - intros y [<-|Hy]; auto.
Qed.
Lemma zmin_ok l m : zmin l = Ok m -> In m l /\ forall y, In y l -> m <= y.
Proof.
  destruct l as [|x r]; [discriminate|]. cbn [zmin]. intros [= <-].
  destruct (fold_min_spec r x) as (H1 & H2 & H3). split.
  - destruct H3 as [->|H3]; [left; auto|right; auto].
  - intros y [<-|Hy]; auto.
Qed.
Lemma zmax_total l : l <> [] -> exists m, zmax l = Ok m.
Proof. destruct l; [congruence|]. intros _. eexists. reflexivity. Qed.
Lemma zmin_total l : l <> [] -> exists m, zmin l = Ok m.
Proof. destruct l; [congruence|]. intros _. eexists. reflexivity. Qed.

(** ** The faces setter *)
Lemma concat_map_map {A B} (g : A -> B) f : concat (map (map g) f) = map g (concat f).
Proof. induction f as [|r f IH]; cbn; auto. rewrite IH, map_app. reflexivity. Qed.
Lemma map_map_ext_in {A B} (g h : A -> B) f :
  (forall x, In x (concat f) -> g x = h x) -> map (map g) f = map (map h) f.
Proof.
  induction f as [|r f IH]; cbn; intros H; auto. f_equal.
  - apply map_ext_in. intros x Hx. apply H, in_or_app. auto.
  - apply IH. intros x Hx. apply H, in_or_app. auto.
Qed.

Lemma set_faces_one_based n f : OneBased n f ->
  set_faces n f = Ok (map (map (fun x => x - 1)) f).
Proof.
  intros [Hin Hall]. unfold set_faces.
  assert (Hne : concat f <> []) by (intros E; rewrite E in Hin; destruct Hin).
  destruct (zmax_total _ Hne) as [mx Hmx]. rewrite Hmx. cbn [bind].
  destruct (zmax_ok _ _ Hmx) as [M1 M2].
  assert (mx = Z.of_nat n). { specialize (M2 _ Hin). specialize (Hall _ M1). lia. } subst mx.
  rewrite Z.gtb_ltb, Z.ltb_irrefl, Z.eqb_refl.
  destruct (zmin_total _ Hne) as [mn Hmn]. rewrite Hmn. cbn [bind].
  destruct (zmin_ok _ _ Hmn) as [N1 N2].
  assert (1 <= mn) by (apply Hall; auto).
  rewrite Z.geb_leb. destruct (Z.leb_spec 1 mn); [|lia]. cbn [bind].
  rewrite (map_map_ext_in _ (fun x => x - 1)).
  2: { intros x Hx. specialize (Hall _ Hx). rewrite Z.gtb_ltb. destruct (Z.ltb_spec 0 x); lia. }
  rewrite concat_map_map.
  destruct (zmin_total (map (fun x => x - 1) (concat f))) as [m2 Hm2].
  { intros E. apply map_eq_nil in E. contradiction. }
  rewrite Hm2. cbn [bind]. destruct (zmin_ok _ _ Hm2) as [K1 _].
  apply in_map_iff in K1. destruct K1 as (x & <- & Hx). specialize (Hall _ Hx).
  destruct (Z.ltb_spec (x - 1) (-1)); [lia|reflexivity].
Qed.
Lemma set_faces_zero_based n f : ZeroBased n f -> set_faces n f = Ok f.
Proof.
  intros [Hne Hall]. unfold set_faces.
  destruct (zmax_total _ Hne) as [mx Hmx]. rewrite Hmx. cbn [bind].
  destruct (zmax_ok _ _ Hmx) as [M1 _]. pose proof (Hall _ M1).
  rewrite Z.gtb_ltb. destruct (Z.ltb_spec (Z.of_nat n) mx); [lia|].
  destruct (Z.eqb_spec mx (Z.of_nat n)); [lia|]. cbn [bind].
  destruct (zmin_total _ Hne) as [mn Hmn]. rewrite Hmn. cbn [bind].
  destruct (zmin_ok _ _ Hmn) as [N1 _]. pose proof (Hall _ N1).
  destruct (Z.ltb_spec mn (-1)); [lia|reflexivity].
Qed.
Lemma set_faces_other n f : ~ OneBased n f -> ~ ZeroBased n f -> set_faces n f = Err ValueError.
Proof.
  intros H1 H0. unfold set_faces.
  destruct (zmax (concat f)) as [mx|e] eqn:Hmx.
  2: { destruct (concat f); [injection Hmx as <-; reflexivity|discriminate]. }
  cbn [bind]. destruct (zmax_ok _ _ Hmx) as [M1 M2].
  assert (Hne : concat f <> []) by (intros E; rewrite E in M1; destruct M1).
  rewrite Z.gtb_ltb. destruct (Z.ltb_spec (Z.of_nat n) mx); [reflexivity|].
  destruct (zmin_total _ Hne) as [mn Hmn]. destruct (zmin_ok _ _ Hmn) as [N1 N2].
  destruct (Z.eqb_spec mx (Z.of_nat n)) as [->|Hneq].
  - rewrite Hmn. cbn [bind]. rewrite Z.geb_leb. destruct (Z.leb_spec 1 mn); [|reflexivity].
    exfalso. apply H1. split; auto. intros x Hx. split; [specialize (N2 _ Hx); lia|auto].
  - cbn [bind]. rewrite Hmn. cbn [bind]. destruct (Z.ltb_spec mn (-1)); [reflexivity|].
    exfalso. apply H0. split; auto. intros x Hx.
    specialize (M2 _ Hx). specialize (N2 _ Hx). lia.
Qed.
Lemma one_based_dec n f : {OneBased n f} + {~ OneBased n f}.
Proof.
  destruct (in_dec Z.eq_dec (Z.of_nat n) (concat f)) as [Hin|Hn].
  2: right; intros [H _]; auto.
  destruct (forallb (fun x => (1 <=? x) && (x <=? Z.of_nat n)) (concat f)) eqn:E.
  - left. split; auto. intros x Hx. rewrite forallb_forall in E. specialize (E _ Hx).
    apply andb_true_iff in E. lia.
  - right. intros [_ H]. rewrite <- not_true_iff_false in E. apply E, forallb_forall.
    intros x Hx. specialize (H _ Hx). apply andb_true_iff. lia.
Qed.
Lemma set_faces_valid n f f' : set_faces n f = Ok f' ->
  forall x, In x (concat f') -> x = -1 \/ 0 <= x < Z.of_nat n.
Proof.
  intros H x Hx. destruct (one_based_dec n f) as [H1|H1].
  - rewrite (set_faces_one_based _ _ H1) in H. injection H as <-.
    rewrite concat_map_map in Hx. apply in_map_iff in Hx. destruct Hx as (y & <- & Hy).
    destruct H1 as [_ H1]. specialize (H1 _ Hy). lia.
  - destruct (list_eq_dec Z.eq_dec (concat f) []) as [E|Hne].
    { unfold set_faces in H. rewrite E in H. discriminate. }
    destruct (forallb (fun x => (-1 <=? x) && (x <? Z.of_nat n)) (concat f)) eqn:E.
    + assert (ZeroBased n f) as H0.
      { split; auto. intros y Hy. rewrite forallb_forall in E. specialize (E _ Hy).
        apply andb_true_iff in E. lia. }
      rewrite (set_faces_zero_based _ _ H0) in H. injection H as <-.
      destruct H0 as [_ H0]. specialize (H0 _ Hx). lia.
    + rewrite set_faces_other in H; auto; [discriminate|].
      intros [_ H0]. rewrite <- not_true_iff_false in E. apply E, forallb_forall.
      intros y Hy. specialize (H0 _ Hy). apply andb_true_iff. lia.
Qed.
Lemma set_faces_shape n f f' : set_faces n f = Ok f' -> map (@length Z) f' = map (@length Z) f.
Proof.
  unfold set_faces. destruct (zmax (concat f)); [|discriminate]. cbn [bind].
  destruct (_ >? _); [discriminate|].
  assert (G : forall f1, (if z =? Z.of_nat n then
      do mn <- zmin (concat f); if mn >=? 1 then Ok (map (map (fun x => if x >? 0 then x - 1 else x)) f)
      else Err ValueError else Ok f) = Ok f1 -> map (@length Z) f1 = map (@length Z) f).
  { intros f1. destruct (z =? Z.of_nat n).
    - destruct (zmin (concat f)); [|discriminate]. cbn [bind]. destruct (_ >=? _); [|discriminate].
      intros [= <-]. rewrite map_map. apply map_ext. intros. apply map_length.
    - intros [= <-]. reflexivity. }
  destruct (if z =? Z.of_nat n then _ else _) as [f1|]; [|discriminate]. cbn [bind].
  destruct (zmin (concat f1)); [|discriminate]. cbn [bind]. destruct (_ <? _); [discriminate|].
  intros [= <-]. apply G. reflexivity.
Qed.

(** C18: exactly when the last node is used is one-based input recognised. *)
Lemma one_based_recognised n f0 : concat f0 <> [] ->
  (forall x, In x (concat f0) -> 0 <= x < Z.of_nat n) ->
  (set_faces n (map (map (fun x => x + 1)) f0) = Ok f0 <-> In (Z.of_nat n - 1) (concat f0)).
Proof.
  intros Hne Hall. split.
  - intros H. destruct (in_dec Z.eq_dec (Z.of_nat n - 1) (concat f0)) as [Hin|Hn]; auto. exfalso.
    rewrite set_faces_zero_based in H.
    + injection H as H. destruct (concat f0) as [|y r] eqn:E; [congruence|].
      assert (concat (map (map (fun x => x + 1)) f0) = concat f0) as H' by (rewrite H; auto).
      rewrite concat_map_map, E in H'. cbn [map] in H'. injection H' as H' _. lia.
    + unfold ZeroBased. rewrite concat_map_map. split.
      * intros E. apply map_eq_nil in E. auto.
      * intros x Hx. apply in_map_iff in Hx. destruct Hx as (y & <- & Hy).
        specialize (Hall _ Hy). assert (y <> Z.of_nat n - 1) by congruence. lia.
  - intros Hin. rewrite set_faces_one_based.
    + rewrite map_map. f_equal. rewrite <- (map_id f0) at 2. apply map_ext. intros r.
      rewrite map_map. rewrite <- (map_id r) at 2. apply map_ext. intros. lia.
    + unfold OneBased. rewrite concat_map_map. split.
      * replace (Z.of_nat n) with (Z.of_nat n - 1 + 1) by lia.
        apply (in_map (fun x => x + 1)). auto.
      * intros x Hx. apply in_map_iff in Hx. destruct Hx as (y & <- & Hy).
        specialize (Hall _ Hy). lia.
Qed.

(** ** Tables *)
Lemma lset_length {A} (l : list A) i v : length (lset l i v) = length l.
Proof. revert i. induction l as [|x l IH]; intros [|i]; cbn; auto. Qed.
Lemma lset_nth {A} (l : list A) i v k d :
  nth k (lset l i v) d = if (k =? i)%nat && (i <? length l)%nat then v else nth k l d.
Proof.
  revert i k. induction l as [|x l IH]; intros i k.
  - cbn. rewrite andb_false_r. reflexivity.
  - destruct i as [|i], k as [|k]; cbn [lset nth length]; auto.
    rewrite IH. reflexivity.
Qed.
Lemma lset_nth_error {A} (l : list A) i v k :
  nth_error (lset l i v) k = if (k =? i)%nat && (i <? length l)%nat then Some v else nth_error l k.
Proof.
  revert i k. induction l as [|x l IH]; intros i k.
  - cbn. rewrite andb_false_r. destruct i; reflexivity.
  - destruct i as [|i], k as [|k]; cbn [lset nth_error length]; auto.
    rewrite IH. reflexivity.
Qed.
Definition tin (nf nv : nat) (p : pos) : Prop := (fst p < nf)%nat /\ (snd p < nv)%nat.
Definition tshape (nf nv : nat) (t : list (list Z)) : Prop := length t = nf /\ Rect nv t.
Lemma tshape_row nf nv t i : tshape nf nv t -> (i < nf)%nat -> length (nth i t []) = nv.
Proof.
  intros [Hl Hr] Hi. unfold Rect in Hr. rewrite Forall_forall in Hr. apply Hr, nth_In. lia.
Qed.
Lemma lset_Forall {A} (P : A -> Prop) l i v : Forall P l -> P v -> Forall P (lset l i v).
Proof.
  intros H Hv. revert i. induction H as [|x l Hx H IH]; intros [|i]; cbn; auto.
Qed.
Lemma tset_shape nf nv t p v : tshape nf nv t -> tin nf nv p -> tshape nf nv (tset t p v).
Proof.
  intros Hs [Hi Hj]. split.
  - unfold tset. rewrite lset_length. apply Hs.
  - apply lset_Forall; [apply Hs|]. rewrite lset_length. eapply tshape_row; eauto.
Qed.
Definition pos_eqb (p q : pos) : bool := ((fst p =? fst q) && (snd p =? snd q))%nat.
Lemma pos_eqb_spec p q : reflect (p = q) (pos_eqb p q).
Proof.
  unfold pos_eqb. destruct p as [a b], q as [c d]. cbn [fst snd].
  destruct (Nat.eqb_spec a c), (Nat.eqb_spec b d); constructor; congruence.
Qed.
Lemma tget_tset nf nv t p v q : tshape nf nv t -> tin nf nv p ->
  tget (tset t p v) q = if pos_eqb p q then v else tget t q.
Proof.
  intros Hs [Hi Hj]. unfold tget, tset. destruct p as [i j], q as [k l]. cbn [fst snd] in *.
  rewrite lset_nth. unfold pos_eqb. cbn [fst snd].
  pose proof (proj1 Hs). pose proof (tshape_row _ _ _ i Hs Hi).
  rewrite (Nat.eqb_sym i k), (Nat.eqb_sym j l).
  destruct (Nat.eqb_spec k i) as [->|]; cbn [andb]; auto.
  destruct (Nat.ltb_spec i (length t)); [|lia].
  rewrite lset_nth. destruct (Nat.eqb_spec l j); cbn [andb]; auto.
  destruct (Nat.ltb_spec j (length (nth i t []))); [reflexivity|lia].
Qed.

(** ** The dictionary *)
Lemma edge_eqb_spec a b : reflect (a = b) (edge_eqb a b).
Proof.
  unfold edge_eqb. destruct a as [a1 a2], b as [b1 b2]. cbn [fst snd].
  destruct (Z.eqb_spec a1 b1), (Z.eqb_spec a2 b2); constructor; congruence.
Qed.
Lemma edge_eqb_refl a : edge_eqb a a = true.
Proof. destruct (edge_eqb_spec a a); congruence. Qed.
Lemma edict_get_del d e e' :
  edict_get (edict_del d e) e' = if edge_eqb e e' then None else edict_get d e'.
Proof.
  unfold edict_del. induction d as [|[k p] d IH]; cbn [filter edict_get fst].
  - destruct (edge_eqb e e'); reflexivity.
  - destruct (edge_eqb_spec k e) as [->|Hk]; cbn [negb].
    + rewrite IH. destruct (edge_eqb e e'); reflexivity.
    + cbn [edict_get]. rewrite IH. destruct (edge_eqb_spec k e') as [->|]; auto.
      destruct (edge_eqb_spec e e'); congruence.
Qed.

(** ** The pairing invariant of build_face_face *)
Definition occ (P : list (pos * edge)) (e : edge) : list pos :=
  map fst (filter (fun s => edge_eqb (snd s) e) P).
Lemma occ_app P p e e' :
  occ (P ++ [(p, e)]) e' = if edge_eqb e e' then occ P e' ++ [p] else occ P e'.
Proof.
  unfold occ. rewrite filter_app, map_app. cbn [filter snd].
  destruct (edge_eqb e e'); cbn [map fst]; auto. apply app_nil_r.
Qed.
Lemma occ_in P e p : In p (occ P e) <-> In (p, e) P.
Proof.
  unfold occ. rewrite in_map_iff. split.
  - intros ([p' e'] & E & H). cbn in E. subst p'.
    apply filter_In in H. destruct H as [H1 H2]. cbn [snd] in H2.
    destruct (edge_eqb_spec e' e); [subst; auto|discriminate].
  - intros H. exists (p, e). split; auto. apply filter_In. split; auto.
    apply edge_eqb_refl.
Qed.

Definition partner {A} (l : list A) (k : nat) : option A :=
  if Nat.even k then nth_error l (S k) else nth_error l (k - 1).
Definition pval (o : option pos) : Z :=
  match o with Some q => Z.of_nat (fst q) | None => -1 end.

Definition ff_inv (nf nv : nat) (P : list (pos * edge)) (st : list (list Z) * edict) : Prop :=
  tshape nf nv (fst st) /\
  (forall e, edict_get (snd st) e =
     if Nat.odd (length (occ P e)) then nth_error (occ P e) (length (occ P e) - 1) else None) /\
  (forall e k p, nth_error (occ P e) k = Some p ->
     tget (fst st) p = pval (partner (occ P e) k)) /\
  (forall p, ~ In p (map fst P) -> tin nf nv p -> tget (fst st) p = -1).

Lemma partner_even {A} (l : list A) k : Nat.even k = true -> partner l k = nth_error l (S k).
Proof. unfold partner. intros ->. reflexivity. Qed.
Lemma partner_odd {A} (l : list A) k : Nat.odd k = true -> partner l k = nth_error l (k - 1).
Proof. unfold partner, Nat.odd. destruct (Nat.even k); [discriminate|reflexivity]. Qed.
Lemma even_odd_false k : Nat.even k = true -> Nat.odd k = false.
Proof. unfold Nat.odd. intros ->. reflexivity. Qed.

(** Appending changes nobody's partner unless the last one was unmatched. *)
Lemma partner_app {A} (l : list A) x k : (k < length l)%nat ->
  (Nat.odd (length l) = true -> k <> length l - 1)%nat ->
  partner (l ++ [x]) k = partner l k.
Proof.
  intros Hk Hlast. unfold partner. destruct (Nat.even k) eqn:E.
  - assert (S k < length l)%nat.
    { destruct (Nat.eq_dec (S k) (length l)) as [H|]; [|lia]. exfalso. apply Hlast; [|lia].
      rewrite <- H. unfold Nat.odd. rewrite Nat.even_succ, (even_odd_false _ E). reflexivity. }
    rewrite nth_error_app1; auto.
  - rewrite nth_error_app1; auto. lia.
Qed.

Lemma NoDup_fst_unique (P : list (pos * edge)) p e e' :
  NoDup (map fst P) -> In (p, e) P -> In (p, e') P -> e = e'.
Proof.
  induction P as [|[q x] P IH]; cbn; intros Hn H1 H2; [destruct H1|].
  inversion Hn as [|? ? Hn1 Hn2]; subst.
  destruct H1 as [H1|H1], H2 as [H2|H2]; try congruence.
  - injection H1 as -> ->. exfalso. apply Hn1. apply (in_map fst) in H2. exact H2.
  - injection H2 as -> ->. exfalso. apply Hn1. apply (in_map fst) in H1. exact H1.
  - auto.
Qed.
Lemma nth_error_inj {A} (l : list A) i j x :
  NoDup l -> nth_error l i = Some x -> nth_error l j = Some x -> i = j.
Proof.
  intros Hn Hi Hj. apply (proj1 (NoDup_nth_error l) Hn).
  - eapply nth_error_Some_lt; eauto.
  - congruence.
Qed.
Lemma occ_NoDup P e : NoDup (map fst P) -> NoDup (occ P e).
Proof.
  unfold occ. induction P as [|[q x] P IH]; cbn [filter map snd]; intros Hn; [constructor|].
  inversion Hn as [|? ? Hn1 Hn2]; subst. destruct (edge_eqb x e); auto.
  cbn [map fst]. constructor; auto. intros H. apply Hn1.
  apply in_map_iff in H. destruct H as ([a b] & E & H). cbn in E. subst a.
  apply filter_In in H.
  destruct H as [H _]. apply (in_map fst) in H. exact H.
Qed.

Lemma ff_inv_step nf nv P st p e :
  NoDup (map fst (P ++ [(p, e)])) -> tin nf nv p ->
  (forall q, In q (map fst P) -> tin nf nv q) ->
  ff_inv nf nv P st -> ff_inv nf nv (P ++ [(p, e)]) (ff_step st (p, e)).
Proof.
  intros Hnd Hp HP (Hs & Hd & Ht & Hu). destruct st as [t d]. cbn [fst snd] in *.
  assert (HndP : NoDup (map fst P)).
  { rewrite map_app in Hnd. apply NoDup_remove_1 in Hnd. rewrite app_nil_r in Hnd. exact Hnd. }
  assert (Hnp : ~ In p (map fst P)).
  { rewrite map_app in Hnd. apply NoDup_remove_2 in Hnd. rewrite app_nil_r in Hnd. exact Hnd. }
  assert (Hocc : forall e', ~ In p (occ P e')).
  { intros e' H. apply occ_in in H. apply Hnp. apply (in_map fst) in H. exact H. }
  unfold ff_step. rewrite (Hd e).
  destruct (Nat.odd (length (occ P e))) eqn:Eodd.
  - (* a partner is waiting *)
    assert (Hpos : (0 < length (occ P e))%nat) by (destruct (length (occ P e)); [discriminate|lia]).
    destruct (nth_error_lt_Some (occ P e) (length (occ P e) - 1)) as [q Hq]; [lia|].
    rewrite Hq.
    assert (HqP : In (q, e) P) by (apply occ_in; eapply nth_error_In; eauto).
    assert (Hqin : tin nf nv q) by (apply HP; apply (in_map fst) in HqP; exact HqP).
    assert (Hqp : q <> p) by (intros ->; apply (Hocc e); apply occ_in; auto).
    assert (Hs1 : tshape nf nv (tset t p (Z.of_nat (fst q)))) by (apply tset_shape; auto).
    split; [|split; [|split]]; cbn [fst snd].
    + apply tset_shape; auto.
    + intros e'. rewrite edict_get_del, occ_app. destruct (edge_eqb_spec e e') as [<-|Hne].
      * rewrite app_length. cbn [length]. rewrite Nat.add_1_r, Nat.odd_succ.
        unfold Nat.odd in Eodd. apply negb_true_iff in Eodd. rewrite Eodd. reflexivity.
      * apply Hd.
    + intros e' k r Hr. rewrite occ_app in Hr |- *.
      rewrite (tget_tset nf nv) by auto. rewrite (tget_tset nf nv) by auto.
      destruct (edge_eqb_spec e e') as [<-|Hne].
      * destruct (Nat.lt_ge_cases k (length (occ P e))) as [Hk|Hk].
        -- rewrite nth_error_app1 in Hr by auto.
           destruct (pos_eqb_spec q r) as [<-|Hqr].
           ++ assert (k = (length (occ P e) - 1)%nat).
              { exact (nth_error_inj (occ P e) _ _ q (occ_NoDup P e HndP) Hr Hq). } subst k.
              rewrite partner_even.
              2: { destruct (length (occ P e)) as [|m] eqn:El; [lia|]. cbn [Nat.sub]. rewrite Nat.sub_0_r.
                   rewrite Nat.odd_succ in Eodd. exact Eodd. }
              replace (S (length (occ P e) - 1)) with (length (occ P e)) by lia.
              rewrite nth_error_app2 by lia. rewrite Nat.sub_diag. reflexivity.
           ++ destruct (pos_eqb_spec p r) as [<-|Hpr].
              { exfalso. apply (Hocc e). eapply nth_error_In; eauto. }
              rewrite (Ht _ _ _ Hr). rewrite partner_app; auto.
              intros _ E. subst k. congruence.
        -- rewrite nth_error_app2 in Hr by auto.
           assert (k = length (occ P e)).
           { apply nth_error_Some_lt in Hr. cbn in Hr. lia. } subst k.
           rewrite Nat.sub_diag in Hr. cbn in Hr. injection Hr as <-.
           destruct (pos_eqb_spec q p); [contradiction|].
           destruct (pos_eqb_spec p p); [|congruence].
           rewrite partner_odd by auto. rewrite nth_error_app1 by lia. rewrite Hq. reflexivity.
      * assert (Hrin : In (r, e') P) by (apply occ_in; eapply nth_error_In; eauto).
        destruct (pos_eqb_spec q r) as [<-|_].
        { exfalso. apply Hne. eapply NoDup_fst_unique; eauto. }
        destruct (pos_eqb_spec p r) as [<-|_].
        { exfalso. apply (Hocc e'). apply occ_in. auto. }
        apply Ht. auto.
    + intros r Hr Hrin. rewrite map_app in Hr. rewrite in_app_iff in Hr. cbn in Hr.
      rewrite (tget_tset nf nv) by auto. rewrite (tget_tset nf nv) by auto.
      destruct (pos_eqb_spec q r) as [<-|_].
      { exfalso. apply Hr. left. apply (in_map fst) in HqP. exact HqP. }
      destruct (pos_eqb_spec p r) as [<-|_]; [exfalso; auto|]. apply Hu; auto.
  - (* first of a pair *)
    split; [|split; [|split]]; cbn [fst snd]; auto.
    + intros e'. cbn [edict_get]. rewrite occ_app. destruct (edge_eqb_spec e e') as [<-|Hne].
      * rewrite app_length. cbn [length]. rewrite Nat.add_1_r, Nat.odd_succ.
        unfold Nat.odd in Eodd. apply negb_false_iff in Eodd. rewrite Eodd.
        replace (S (length (occ P e)) - 1)%nat with (length (occ P e)) by lia.
        rewrite nth_error_app2 by lia. rewrite Nat.sub_diag. reflexivity.
      * apply Hd.
    + intros e' k r Hr. rewrite occ_app in Hr |- *.
      destruct (edge_eqb_spec e e') as [<-|Hne]; [|apply Ht; auto].
      destruct (Nat.lt_ge_cases k (length (occ P e))) as [Hk|Hk].
      * rewrite nth_error_app1 in Hr by auto. rewrite partner_app; auto. congruence.
      * rewrite nth_error_app2 in Hr by auto.
        assert (k = length (occ P e)).
        { apply nth_error_Some_lt in Hr. cbn in Hr. lia. } subst k.
        rewrite Nat.sub_diag in Hr. cbn in Hr. injection Hr as <-.
        rewrite Hu; auto. unfold Nat.odd in Eodd. apply negb_false_iff in Eodd.
        rewrite partner_even by auto.
        assert (nth_error (occ P e ++ [p]) (S (length (occ P e))) = None) as ->; [|reflexivity].
        apply nth_error_None. rewrite app_length. cbn. lia.
    + intros r Hr Hrin. apply Hu; auto. intros H. apply Hr.
      rewrite map_app, in_app_iff. auto.
Qed.

Lemma ff_inv_run nf nv P :
  NoDup (map fst P) -> (forall q, In q (map fst P) -> tin nf nv q) ->
  ff_inv nf nv P (fold_left ff_step P (repeat (repeat (-1) nv) nf, [])).
Proof.
  induction P as [|[p e] P IH] using rev_ind; intros Hnd Hin.
  - cbn [fold_left]. split; [|split; [|split]]; cbn [fst snd].
    + split; [apply repeat_length|]. apply Forall_forall. intros r Hr.
      apply repeat_spec in Hr. subst. apply repeat_length.
    + reflexivity.
    + intros e k p Hk. destruct k; discriminate.
    + intros [i j] _ [Hi Hj]. cbn [fst snd] in *. unfold tget. cbn [fst snd].
      assert (Hrow : nth i (repeat (repeat (-1) nv) nf) [] = repeat (-1) nv).
      { eapply repeat_spec. apply nth_In. rewrite repeat_length. exact Hi. }
      rewrite Hrow. apply (repeat_spec nv (-1)). apply nth_In. rewrite repeat_length. exact Hj.
  - rewrite fold_left_app. cbn [fold_left]. apply ff_inv_step; auto.
    + apply Hin. rewrite map_app, in_app_iff. right. left. reflexivity.
    + intros q Hq. apply Hin. rewrite map_app, in_app_iff. auto.
    + apply IH.
      * rewrite map_app in Hnd. apply NoDup_remove_1 in Hnd. rewrite app_nil_r in Hnd. exact Hnd.
      * intros q Hq. apply Hin. rewrite map_app, in_app_iff. auto.
Qed.
