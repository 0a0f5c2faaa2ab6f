From Verif Require Import Common CommonProofs DepthModel UGridModel UGridSpec UGridProofs UGridTopoProofs UGridGeomModel UObjModel UObjSpec.
Open Scope list_scope.
Open Scope nat_scope.

(** ** Fields *)
Lemma slot_dec (s s' : slot) : {s = s'} + {s <> s'}. Proof. decide equality. Qed.
Lemma get_put {T} s s' v (g : grid T) : get s (put s' v g) = if slot_dec s s' then v else get s g.
Proof. destruct (slot_dec s s') as [->|N]; [destruct g, s'; reflexivity|]. destruct g, s, s'; try reflexivity; contradiction. Qed.
Lemma get_nodes {T} s n (g : grid T) : get s (with_nodes n g) = get s g.
Proof. destruct g, s; reflexivity. Qed.
Lemma get_ec {T} s n (g : grid T) : get s (with_edge_c n g) = get s g.
Proof. destruct g, s; reflexivity. Qed.
Lemma get_fc {T} s n (g : grid T) : get s (with_face_c n g) = get s g.
Proof. destruct g, s; reflexivity. Qed.
Lemma get_bc {T} s n (g : grid T) : get s (with_bound_c n g) = get s g.
Proof. destruct g, s; reflexivity. Qed.
Lemma get_unset {T} s s' (g : grid T) i : get s (unset s' g) = Some i -> get s g = Some i.
Proof. destruct g, s, s'; cbn; auto; discriminate. Qed.
Lemma get_delete {T} s s' (g : grid T) i : get s (delete s' g) = Some i -> get s g = Some i.
Proof. destruct g, s, s'; cbn; auto; discriminate. Qed.
Lemma get_delete_nodes {T} s (g : grid T) i : get s (delete_nodes g) = Some i -> get s g = Some i.
Proof. destruct g, s; cbn; auto; discriminate. Qed.

Section Gmap.
  Context {A B : Type} (h : A -> B).
  Lemma gmap_get s g : get s (gmap h g) = option_map h (get s g). Proof. destruct g, s; reflexivity. Qed.
  Lemma gmap_put s v g : gmap h (put s v g) = put s (option_map h v) (gmap h g). Proof. destruct g, s; reflexivity. Qed.
  Lemma gmap_nodes n g : gmap h (with_nodes n g) = with_nodes n (gmap h g). Proof. destruct g; reflexivity. Qed.
  Lemma gmap_ec n g : gmap h (with_edge_c n g) = with_edge_c n (gmap h g). Proof. destruct g; reflexivity. Qed.
  Lemma gmap_fc n g : gmap h (with_face_c n g) = with_face_c n (gmap h g). Proof. destruct g; reflexivity. Qed.
  Lemma gmap_bc n g : gmap h (with_bound_c n g) = with_bound_c n (gmap h g). Proof. destruct g; reflexivity. Qed.
  Lemma gmap_unset s g : gmap h (unset s g) = unset s (gmap h g). Proof. destruct g, s; reflexivity. Qed.
  Lemma gmap_delete s g : gmap h (delete s g) = delete s (gmap h g). Proof. destruct g, s; reflexivity. Qed.
  Lemma gmap_delete_nodes g : gmap h (delete_nodes g) = delete_nodes (gmap h g). Proof. destruct g; reflexivity. Qed.
End Gmap.
Lemma gmap_ext {A B} (h h' : A -> B) g : (forall s i, get s g = Some i -> h i = h' i) -> gmap h g = gmap h' g.
Proof.
  intros H. destruct g as [n f e b ff fe ec fc bc]. unfold gmap.
  pose proof (H Faces) as H1. pose proof (H Edges) as H2. pose proof (H Bounds) as H3. pose proof (H FF) as H4. pose proof (H FE) as H5.
  cbn in *. f_equal; [destruct f|destruct e|destruct b|destruct ff|destruct fe]; cbn; f_equal; auto.
Qed.

(** ** The heap *)
Lemma write_length h i t : length (write h i t) = length h.
Proof. revert i. induction h; intros [|i]; cbn; auto. Qed.
Lemma read_write_same h i t : i < length h -> read (write h i t) i = t.
Proof.
  unfold read. revert i. induction h as [|x h IH]; intros [|i] H; cbn in *; try lia; auto. apply IH. lia.
Qed.
Lemma read_write_other h i j t : i <> j -> read (write h i t) j = read h j.
Proof.
  unfold read. revert i j. induction h as [|x h IH]; intros [|i] [|j] H; cbn; auto; try lia.
Qed.
Lemma read_app h t i : i < length h -> read (h ++ [t]) i = read h i.
Proof. intros H. unfold read. apply app_nth1. exact H. Qed.
Lemma read_app_new h t : read (h ++ [t]) (length h) = t.
Proof. unfold read. rewrite app_nth2 by lia. rewrite Nat.sub_diag. reflexivity. Qed.

(** ** The checks *)
Lemma shape_ok_iff f t : shape_ok f t = true <-> SameShape f t.
Proof.
  unfold shape_ok, SameShape. rewrite andb_true_iff, Nat.eqb_eq, forallb_forall, Forall_forall.
  split; intros [H K]; split; auto; intros r Hr; specialize (K r Hr); apply Nat.eqb_eq; auto.
Qed.
Lemma based_dec n f : {OneBased n f} + {ZeroBased n f} + {~ OneBased n f /\ ~ ZeroBased n f}.
Proof.
  destruct (in_dec Z.eq_dec (Z.of_nat n) (concat f)) as [I|I].
  - destruct (forallb (fun x => (1 <=? x) && (x <=? Z.of_nat n))%Z (concat f)) eqn:E.
    + left; left. split; auto. rewrite forallb_forall in E. intros x Hx. specialize (E x Hx). lia.
    + right. split.
      * intros [_ H]. rewrite <- not_true_iff_false in E. apply E, forallb_forall. intros x Hx. specialize (H x Hx). lia.
      * intros [_ H]. specialize (H _ I). lia.
  - destruct (list_eq_dec Z.eq_dec (concat f) []) as [N|N].
    + right. split; [intros [H _]; auto|intros [H _]; auto].
    + destruct (forallb (fun x => (-1 <=? x) && (x <? Z.of_nat n))%Z (concat f)) eqn:E.
      * left; right. split; auto. rewrite forallb_forall in E. intros x Hx. specialize (E x Hx). lia.
      * right. split; [intros [H _]; auto|]. intros [_ H]. rewrite <- not_true_iff_false in E. apply E, forallb_forall.
        intros x Hx. specialize (H x Hx). lia.
Qed.
Lemma based_both n f : OneBased n f -> ZeroBased n f -> False.
Proof. intros [I _] [_ H]. specialize (H _ I). lia. Qed.
Lemma numbered_iff n f f' : set_faces n f = Ok f' <-> Numbered n f f'.
Proof.
  destruct (based_dec n f) as [[H|H]|[H1 H2]].
  - rewrite (set_faces_one_based _ _ H). split.
    + injection 1 as <-. constructor 2. exact H.
    + inversion 1; subst; auto. destruct (based_both _ _ H H1).
  - rewrite (set_faces_zero_based _ _ H). split.
    + injection 1 as <-. constructor 1. exact H.
    + inversion 1; subst; auto. destruct (based_both _ _ H1 H).
  - rewrite (set_faces_other _ _ H1 H2). split; [discriminate|]. inversion 1; subst; contradiction.
Qed.
Lemma check_iff s g t t' : check s g t = Ok t' <-> Accepts g s t t'.
Proof.
  destruct s; cbn [check].
  - rewrite numbered_iff. split; [constructor; auto|inversion 1; auto].
  - split; [injection 1 as <-; constructor|inversion 1; auto].
  - split; [injection 1 as <-; constructor|inversion 1; auto].
  - destruct (gr_faces g) as [f|] eqn:F.
    + destruct (shape_ok f t) eqn:E.
      * split; [injection 1 as <-; econstructor; [exact F|apply shape_ok_iff; exact E]|inversion 1; auto].
      * split; [discriminate|]. inversion 1; subst. assert (f0 = f) by congruence. subst. apply shape_ok_iff in H1. congruence.
    + split; [discriminate|]. inversion 1; congruence.
  - destruct (gr_faces g) as [f|] eqn:F.
    + destruct (shape_ok f t) eqn:E.
      * split; [injection 1 as <-; econstructor; [exact F|apply shape_ok_iff; exact E]|inversion 1; auto].
      * split; [discriminate|]. inversion 1; subst. assert (f0 = f) by congruence. subst. apply shape_ok_iff in H1. congruence.
    + split; [discriminate|]. inversion 1; congruence.
Qed.
Lemma check_err s g t e : check s g t = Err e -> forall t', ~ Accepts g s t t'.
Proof. intros H t' A. apply check_iff in A. congruence. Qed.

(** ** One operation *)
(** The arrays a grid holds are there. *)
Definition Held (h : heap) (g : grid nat) : Prop := forall s i, get s g = Some i -> i < length h.

Lemma stores_ok l : forall h g h' g', fold_left store l (h, g) = (h', g') -> Held h g ->
  length h <= length h' /\ (forall i, i < length h -> read h' i = read h i) /\ Held h' g' /\
  (forall s i, get s g' = Some i -> get s g = Some i \/ length h <= i) /\
  (forall s s' i, get s g' = Some i -> get s' g' = Some i -> length h <= i -> s = s') /\
  shown h' g' = fold_left (fun g sv => put (fst sv) (snd sv) g) l (shown h g).
Proof.
  induction l as [|(s, v) l IH] using rev_ind; intros h g h' g'.
  - cbn [fold_left]. intros [= <- <-] H. repeat split; auto.
    intros s s' i G _ L. specialize (H s i G). lia.
  - rewrite fold_left_app. cbn [fold_left]. destruct (fold_left store l (h, g)) as [h1 g1] eqn:E.
    intros K H. destruct (IH _ _ _ _ E H) as (L1 & R1 & H1 & O1 & U1 & S1).
    rewrite fold_left_app. cbn [fold_left fst snd]. rewrite <- S1.
    unfold store in K. cbn [fst snd] in K. destruct v as [t|]; injection K as <- <-.
    + rewrite app_length. cbn [length]. split; [lia|]. split; [|split; [|split; [|split]]].
      * intros i Hi. rewrite read_app by lia. auto.
      * intros s' i. rewrite get_put, app_length. cbn [length]. destruct (slot_dec s' s); [intros [= <-]; lia|].
        intros G. specialize (H1 _ _ G). lia.
      * intros s' i. rewrite get_put. destruct (slot_dec s' s); [intros [= <-]; right; lia|]. auto.
      * intros s' s'' i. rewrite !get_put. destruct (slot_dec s' s) as [->|N], (slot_dec s'' s) as [->|N']; auto.
        -- intros [= <-] G _. specialize (H1 _ _ G). lia.
        -- intros G [= <-] _. specialize (H1 _ _ G). lia.
        -- apply U1.
      * unfold shown. rewrite gmap_put. cbn [option_map]. rewrite read_app_new. f_equal.
        apply gmap_ext. intros s' i G. apply read_app. eapply H1; eauto.
    + split; [exact L1|]. split; [exact R1|]. split; [|split; [|split]].
      * intros s' i. rewrite get_put. destruct (slot_dec s' s); [discriminate|]. apply H1.
      * intros s' i. rewrite get_put. destruct (slot_dec s' s); [discriminate|]. apply O1.
      * intros s' s'' i. rewrite !get_put. destruct (slot_dec s' s), (slot_dec s'' s); try discriminate. apply U1.
      * unfold shown. rewrite gmap_put. reflexivity.
Qed.

(** Everything about one operation, its array (if any) being unheld and as at
    the start. *)
Lemma hstep_ok h0 h g o h' g' e :
  hstep h g o = ((h', g'), e) -> Held h g ->
  (forall i, In i (arrays_op o) -> i < length h /\ read h i = read h0 i /\ forall s, get s g <> Some i) ->
  length h <= length h' /\
  (forall i, i < length h -> ~ In i (arrays_op o) -> read h' i = read h i) /\
  Held h' g' /\
  (forall s i, get s g' = Some i -> get s g = Some i \/ In i (arrays_op o) \/ length h <= i) /\
  ((forall s s' i, get s g = Some i -> get s' g = Some i -> s = s') ->
   forall s s' i, get s g' = Some i -> get s' g' = Some i -> s = s') /\
  Does h0 (shown h g) o (shown h' g').
Proof.
  intros E H A.
  assert (Same : forall gg hh, hh = h -> (forall s i, get s gg = Some i -> get s g = Some i) ->
    length h <= length hh /\
    (forall i, i < length h -> ~ In i (arrays_op o) -> read hh i = read h i) /\
    Held hh gg /\
    (forall s i, get s gg = Some i -> get s g = Some i \/ In i (arrays_op o) \/ length h <= i) /\
    ((forall s s' i, get s g = Some i -> get s' g = Some i -> s = s') ->
     forall s s' i, get s gg = Some i -> get s' gg = Some i -> s = s')).
  { intros gg hh -> Sub. repeat split; auto.
    - intros s i G. eapply H; eauto.
    - intros U s s' i G G'. eapply U; eauto. }
  assert (Fin : forall (P1 P2 P3 P4 P5 P6 : Prop), (P1 /\ P2 /\ P3 /\ P4 /\ P5) -> P6 -> P1 /\ P2 /\ P3 /\ P4 /\ P5 /\ P6) by tauto.
  assert (Bld : In o [BuildFF; BuildEdges; BuildBounds] ->
    (let r := built o (shown h g) in (fold_left store (fst r) (h, g), snd r)) = ((h', g'), e) ->
    length h <= length h' /\
    (forall i, i < length h -> ~ In i (arrays_op o) -> read h' i = read h i) /\
    Held h' g' /\
    (forall s i, get s g' = Some i -> get s g = Some i \/ In i (arrays_op o) \/ length h <= i) /\
    ((forall s s' i, get s g = Some i -> get s' g = Some i -> s = s') ->
     forall s s' i, get s g' = Some i -> get s' g' = Some i -> s = s') /\
    Does h0 (shown h g) o (shown h' g')).
  { intros Io K. cbn zeta in K. injection K as K _.
    destruct (stores_ok _ _ _ _ _ K H) as (L & R & H' & O & U & D).
    split; [exact L|]. split; [auto|]. split; [exact H'|]. split; [|split].
    - intros s i G. destruct (O s i G); auto.
    - intros U0 s s' i G G'. destruct (le_lt_dec (length h) i) as [Li|Li]; [eapply U; eauto|].
      destruct (O _ _ G) as [G1|]; [|lia]. destruct (O _ _ G') as [G2|]; [|lia]. eapply U0; eauto.
    - rewrite D. apply does_build. exact Io. }
  destruct o as [n| |s a|s|c|c|c| | |]; cbn [hstep] in E.
  - injection E as <- <- <-. apply Fin; [apply Same; auto; intros s i; rewrite get_nodes; auto|]. unfold shown. rewrite gmap_nodes. constructor.
  - injection E as <- <- <-. apply Fin; [apply Same; auto; intros s i; apply get_delete_nodes|]. unfold shown. rewrite gmap_delete_nodes. constructor.
  - destruct a as [|t|i0].
    + injection E as <- <- <-. apply Fin; [apply Same; auto; intros s' i; apply get_unset|]. unfold shown. rewrite gmap_unset. constructor. reflexivity.
    + destruct (check s (shown h g) t) as [t'|x] eqn:C; injection E as <- <- <-.
      * rewrite app_length. cbn [length]. split; [lia|]. split; [|split; [|split; [|split]]].
        -- intros i Hi _. apply read_app. exact Hi.
        -- intros s' i. rewrite get_put, app_length. cbn [length]. destruct (slot_dec s' s); [intros [= <-]; lia|].
           intros G. specialize (H _ _ G). lia.
        -- intros s' i. rewrite get_put. destruct (slot_dec s' s); [intros [= <-]; right; right; lia|]. auto.
        -- intros U s' s'' i. rewrite !get_put. destruct (slot_dec s' s) as [->|N], (slot_dec s'' s) as [->|N']; auto.
           ++ intros [= <-] G. specialize (H _ _ G). lia.
           ++ intros G [= <-]. specialize (H _ _ G). lia.
           ++ apply U.
        -- unfold shown at 2. rewrite gmap_put. cbn [option_map]. rewrite read_app_new.
           replace (gmap (read (h ++ [t'])) g) with (shown h g).
           { eapply does_set; [reflexivity|]. apply check_iff. exact C. }
           apply gmap_ext. intros s' i G. symmetry. apply read_app. eapply H; eauto.
      * apply Fin; [apply Same; auto|]. eapply does_not; [reflexivity|]. eapply check_err; eauto.
    + destruct (A i0) as (Li & Ri & Ni); [left; reflexivity|].
      destruct (check s (shown h g) (read h i0)) as [t'|x] eqn:C; injection E as <- <- <-.
      * rewrite write_length. split; [lia|]. split; [|split; [|split; [|split]]].
        -- intros i Hi N. apply read_write_other. intros ->. apply N. left; reflexivity.
        -- intros s' i. rewrite get_put, write_length. destruct (slot_dec s' s); [intros [= <-]; exact Li|]. apply H.
        -- intros s' i. rewrite get_put. destruct (slot_dec s' s); [intros [= <-]; right; left; left; reflexivity|]. auto.
        -- intros U s' s'' i. rewrite !get_put. destruct (slot_dec s' s) as [->|N], (slot_dec s'' s) as [->|N']; auto.
           ++ intros [= <-] G. destruct (Ni _ G).
           ++ intros G [= <-]. destruct (Ni _ G).
           ++ apply U.
        -- unfold shown at 2. rewrite gmap_put. cbn [option_map]. rewrite read_write_same by exact Li.
           replace (gmap (read (write h i0 t')) g) with (shown h g).
           { eapply does_set; [cbn [value_of]; reflexivity|]. rewrite <- Ri. apply check_iff. exact C. }
           apply gmap_ext. intros s' i G. symmetry. apply read_write_other. intros ->. exact (Ni _ G).
      * apply Fin; [apply Same; auto|]. eapply does_not; [cbn [value_of]; reflexivity|]. rewrite <- Ri. eapply check_err; eauto.
  - injection E as <- <- <-. apply Fin; [apply Same; auto; intros s' i; apply get_delete|]. unfold shown. rewrite gmap_delete. constructor.
  - injection E as <- <- <-. apply Fin; [apply Same; auto; intros s' i; rewrite get_ec; auto|]. unfold shown. rewrite gmap_ec. constructor.
  - injection E as <- <- <-. apply Fin; [apply Same; auto; intros s' i; rewrite get_fc; auto|]. unfold shown. rewrite gmap_fc. constructor.
  - injection E as <- <- <-. apply Fin; [apply Same; auto; intros s' i; rewrite get_bc; auto|]. unfold shown. rewrite gmap_bc. constructor.
  - apply Bld; [left; reflexivity|exact E].
  - apply Bld; [right; left; reflexivity|exact E].
  - apply Bld; [right; right; left; reflexivity|exact E].
Qed.
(** A refused assignment raises; the other assignments do not. *)
Lemma hstep_refused h0 h g s a h' g' e :
  hstep h g (Set_ s a) = ((h', g'), e) -> (forall i, In i (array_of a) -> read h i = read h0 i) ->
  (e = None <-> ~ Refused h0 (shown h g) (Set_ s a)).
Proof.
  intros E A. destruct a as [|t|i]; cbn [hstep] in E.
  - injection E as <- <- <-. split; auto. intros _ (s1 & a1 & t & [= <- <-] & V & _). discriminate.
  - destruct (check s (shown h g) t) as [t'|x] eqn:C; injection E as <- <- <-.
    + split; auto. intros _ (s1 & a1 & t1 & [= <- <-] & V & N). injection V as <-. apply (N t'), check_iff. exact C.
    + split; [discriminate|]. intros N. destruct N. exists s, (Alike t), t. repeat split. eapply check_err; eauto.
  - rewrite (A i) in E by (left; reflexivity).
    destruct (check s (shown h g) (read h0 i)) as [t'|x] eqn:C; injection E as <- <- <-.
    + split; auto. intros _ (s1 & a1 & t1 & [= <- <-] & V & N). injection V as <-. apply (N t'), check_iff. exact C.
    + split; [discriminate|]. intros N. destruct N. exists s, (Array i), (read h0 i). repeat split. eapply check_err; eauto.
Qed.
Lemma hstep_raise h g o h' g' x : hstep h g o = ((h', g'), Some x) -> h' = h /\ g' = g.
Proof.
  destruct o as [n| |s a|s|c|c|c| | |]; cbn [hstep]; try (intros [=]; fail).
  - destruct a as [|t|i]; [intros [=]| |].
    + destruct (check s (shown h g) t); intros [= <- <-]; auto.
    + destruct (check s (shown h g) (read h i)); intros [= <- <-]; auto.
  - cbn [built]. destruct (gr_faces (shown h g)); cbn; intros [= <- <-]; auto.
  - cbn [built]. destruct (gr_faces (shown h g)), (gr_ff (shown h g)); cbn; try (intros [=]; fail).
    + destruct (within _ _); cbn; intros [= <- <-]; auto.
    + destruct (existsb _ _); cbn; intros [= <- <-]; auto.
    + intros [= <- <-]; auto.
Qed.

(** ** Several objects *)
Lemma replace_nth {A} (l : list A) k x j : nth_error (replace l k x) j =
  if Nat.eq_dec j k then option_map (fun _ => x) (nth_error l k) else nth_error l j.
Proof.
  revert k j. induction l as [|y l IH]; intros k j.
  - destruct k, j; cbn [replace nth_error option_map]; destruct (Nat.eq_dec _ _); reflexivity.
  - destruct k as [|k], j as [|j]; cbn [replace nth_error option_map]; try (destruct (Nat.eq_dec _ _); (reflexivity || lia)).
    rewrite IH. destruct (Nat.eq_dec j k), (Nat.eq_dec (S j) (S k)); auto; lia.
Qed.
Lemma replace_length {A} (l : list A) k x : length (replace l k x) = length l.
Proof. revert k. induction l; intros [|k]; cbn; auto. Qed.
Lemma replace_last {A} (l : list A) x y : replace (l ++ [x]) (length l) y = l ++ [y].
Proof. induction l; cbn; auto. f_equal. exact IHl. Qed.
Lemma nth_last {A} (l : list A) x : nth_error (l ++ [x]) (length l) = Some x.
Proof. rewrite nth_error_app2 by lia. rewrite Nat.sub_diag. reflexivity. Qed.

Record Inv (h0 h : heap) (gs : list (grid nat)) (rest : list nat) : Prop := mkInv {
  inv_len : length h0 <= length h;
  inv_rest : forall i, In i rest -> i < length h0 /\ read h i = read h0 i;
  inv_held : forall k g, nth_error gs k = Some g -> Held h g;
  inv_free : forall k g s i, nth_error gs k = Some g -> get s g = Some i -> ~ In i rest;
  inv_uniq : forall k g k' g' s s' i, nth_error gs k = Some g -> nth_error gs k' = Some g' ->
    get s g = Some i -> get s' g' = Some i -> k = k' /\ s = s' }.

Lemma inv_sub h0 h gs r r' : Inv h0 h gs r -> incl r' r -> Inv h0 h gs r'.
Proof. intros [] I. split; auto. intros k g s i Hg G Hi. eapply inv_free0; eauto. Qed.
Lemma inv_prefix h0 h gs gs' r : Inv h0 h (gs ++ gs') r -> Inv h0 h gs r.
Proof.
  assert (P : forall k g, nth_error gs k = Some g -> nth_error (gs ++ gs') k = Some g).
  { intros k g H. rewrite nth_error_app1; auto. apply nth_error_Some. congruence. }
  intros []. split; auto.
  - intros k g Hg. eapply inv_held0; eauto.
  - intros k g s i Hg. eapply inv_free0; eauto.
  - intros k g k' g' s s' i Hg Hg'. eapply inv_uniq0; eauto.
Qed.
Lemma inv_empty h0 h gs r : Inv h0 h gs r -> Inv h0 h (gs ++ [empty_grid]) r.
Proof.
  assert (P : forall k g s i, nth_error (gs ++ [empty_grid]) k = Some g -> get s g = Some i -> nth_error gs k = Some g).
  { intros k g s i H G. destruct (lt_dec k (length gs)); [rewrite nth_error_app1 in H; auto|].
    rewrite nth_error_app2 in H by lia. destruct (k - length gs) as [|[|]]; try discriminate. injection H as <-. destruct s; discriminate. }
  intros []. split; auto.
  - intros k g Hg s i G. eapply inv_held0; eauto.
  - intros k g s i Hg G. eapply inv_free0; eauto.
  - intros k g k' g' s s' i Hg Hg' G G'. eapply inv_uniq0; eauto.
Qed.

Lemma inv_step h0 h gs k g o h' g' e rest :
  Inv h0 h gs (arrays_op o ++ rest) -> NoDup (arrays_op o ++ rest) -> nth_error gs k = Some g -> hstep h g o = ((h', g'), e) ->
  Inv h0 h' (replace gs k g') rest /\ Does h0 (shown h g) o (shown h' g') /\
  (forall j gj, j <> k -> nth_error gs j = Some gj -> shown h' gj = shown h gj).
Proof.
  intros I ND Hg E.
  assert (Fresh : forall i, In i (arrays_op o) -> i < length h /\ read h i = read h0 i /\ forall s, get s g <> Some i).
  { intros i Hi. assert (In i (arrays_op o ++ rest)) as Hi' by (apply in_or_app; auto).
    destruct (inv_rest _ _ _ _ I _ Hi') as [L R]. pose proof (inv_len _ _ _ _ I). split; [lia|]. split; [exact R|].
    intros s G. exact (inv_free _ _ _ _ I _ _ _ _ Hg G Hi'). }
  destruct (hstep_ok _ _ _ _ _ _ _ E (inv_held _ _ _ _ I _ _ Hg) Fresh) as (L & R & H' & O & U & D).
  assert (Dj : forall i, In i (arrays_op o) -> In i rest -> False).
  { intros i H1 H2. clear - ND H1 H2. induction (arrays_op o) as [|x l IH]; [destruct H1|].
    cbn in ND. inversion ND; subst. destruct H1 as [->|H1]; [apply H3, in_or_app; auto|apply IH; auto]. }
  assert (Ot : forall j gj s i, j <> k -> nth_error gs j = Some gj -> get s gj = Some i -> i < length h /\ ~ In i (arrays_op o)).
  { intros j gj s i N Hj G. split; [exact (inv_held _ _ _ _ I _ _ Hj _ _ G)|].
    intros Hi. apply (inv_free _ _ _ _ I _ _ _ _ Hj G). apply in_or_app; auto. }
  split; [|split; [exact D|]].
  2:{ intros j gj N Hj. apply gmap_ext. intros s i G. destruct (Ot _ _ _ _ N Hj G). apply R; auto. }
  assert (Nth : forall j gj, nth_error (replace gs k g') j = Some gj -> (j = k /\ gj = g') \/ (j <> k /\ nth_error gs j = Some gj)).
  { intros j gj. rewrite replace_nth. destruct (Nat.eq_dec j k); auto. rewrite Hg. intros [= <-]. auto. }
  split.
  - pose proof (inv_len _ _ _ _ I). lia.
  - intros i Hi. destruct (inv_rest _ _ _ _ I i) as [Li Ri]; [apply in_or_app; auto|]. split; auto.
    pose proof (inv_len _ _ _ _ I). rewrite R; auto; [lia|]. intros Hi'. exact (Dj _ Hi' Hi).
  - intros j gj Hj. destruct (Nth _ _ Hj) as [[-> ->]|[N Hj']]; auto.
    intros s i G. destruct (Ot _ _ _ _ N Hj' G). lia.
  - intros j gj s i Hj G Hr. destruct (Nth _ _ Hj) as [[-> ->]|[N Hj']].
    + destruct (O _ _ G) as [G0|[G0|G0]].
      * apply (inv_free _ _ _ _ I _ _ _ _ Hg G0). apply in_or_app; auto.
      * exact (Dj _ G0 Hr).
      * destruct (inv_rest _ _ _ _ I i) as [Li _]; [apply in_or_app; auto|]. pose proof (inv_len _ _ _ _ I). lia.
    + apply (inv_free _ _ _ _ I _ _ _ _ Hj' G). apply in_or_app; auto.
  - assert (Mixed : forall j gj s s' i, j <> k -> nth_error gs j = Some gj -> get s gj = Some i -> get s' g' = Some i -> False).
    { intros j gj s s' i N Hj G G'. destruct (Ot _ _ _ _ N Hj G) as [Li Ni].
      destruct (O _ _ G') as [G0|[G0|G0]]; [|contradiction|lia].
      destruct (inv_uniq _ _ _ _ I _ _ _ _ _ _ _ Hj Hg G G0). contradiction. }
    intros j gj j' gj' s s' i Hj Hj' G G'.
    destruct (Nth _ _ Hj) as [[-> ->]|[N N0]], (Nth _ _ Hj') as [[-> ->]|[N' N0']].
    + split; auto. eapply U; eauto. intros s1 s2 i' G1 G2. exact (proj2 (inv_uniq _ _ _ _ I _ _ _ _ _ _ _ Hg Hg G1 G2)).
    + destruct (Mixed _ _ _ _ _ N' N0' G' G).
    + destruct (Mixed _ _ _ _ _ N N0 G G').
    + exact (inv_uniq _ _ _ _ I _ _ _ _ _ _ _ N0 N0' G G').
Qed.

(** ** The constructor *)
Definition IsAssign (o : op) : Prop :=
  match o with SetNodes _ | Set_ _ _ | SetEdgeC _ | SetFaceC _ | SetBoundC _ => True | _ => False end.
Lemma assign_refused h0 h g o h' g' e : IsAssign o ->
  hstep h g o = ((h', g'), e) -> (forall i, In i (arrays_op o) -> read h i = read h0 i) ->
  (e = None <-> ~ Refused h0 (shown h g) o).
Proof.
  intros A E R. destruct o; cbn in A; try contradiction.
  2:{ eapply hstep_refused; eauto. }
  all: injection E as <- <- <-; split; auto; intros _ (s1 & a1 & t & [=] & _).
Qed.
Lemma accepts_fun g s t t1 t2 : Accepts g s t t1 -> Accepts g s t t2 -> t1 = t2.
Proof. intros A B. apply check_iff in A. apply check_iff in B. congruence. Qed.
Lemma does_fun h0 g o g1 g2 : Does h0 g o g1 -> Does h0 g o g2 -> g1 = g2.
Proof.
  intros A B. destruct A; inversion B; subst; auto; try congruence;
  try (exfalso; cbn in *; intuition discriminate).
  all: repeat match goal with H : value_of ?hh ?a = Some ?t, K : value_of ?hh ?a = Some ?t' |- _ =>
         lazymatch t with t' => fail | _ => assert (t' = t) by congruence; subst end end.
  all: try match goal with N : forall t', ~ Accepts _ _ _ t', A : Accepts _ _ _ _ |- _ => destruct (N _ A) end.
  do 2 f_equal. eapply accepts_fun; eauto.
Qed.

Lemma until_ok h0 ops : forall h gs g h' g' e rest, Forall IsAssign ops ->
  Inv h0 h (gs ++ [g]) (flat_map arrays_op ops ++ rest) -> NoDup (flat_map arrays_op ops ++ rest) ->
  until_error h g ops = ((h', g'), e) ->
  Inv h0 h' (gs ++ [g']) rest /\
  (forall j gj, nth_error gs j = Some gj -> shown h' gj = shown h gj) /\
  (e = None -> Chain h0 (shown h g) ops (shown h' g')) /\
  (e <> None -> forall v, ~ Chain h0 (shown h g) ops v).
Proof.
  induction ops as [|o ops IH]; intros h gs g h' g' e rest As I ND E.
  - injection E as <- <- <-. cbn [flat_map app] in *. split; [exact I|]. split; [auto|]. split; [constructor|congruence].
  - cbn [flat_map] in *. rewrite <- app_assoc in *. cbn [until_error] in E. inversion As as [|? ? A As']; subst.
    destruct (hstep h g o) as [[h1 g1] e1] eqn:S1.
    pose proof (inv_step _ _ _ _ _ _ _ _ _ _ I ND (nth_last gs g) S1) as (I1 & D1 & O1). rewrite replace_last in I1.
    assert (Rf : e1 = None <-> ~ Refused h0 (shown h g) o).
    { eapply assign_refused; eauto. intros i Hi. apply (inv_rest _ _ _ _ I). apply in_or_app; auto. }
    assert (O1' : forall j gj, nth_error gs j = Some gj -> shown h1 gj = shown h gj).
    { intros j gj Hj. assert (j < length gs) by (apply nth_error_Some; congruence).
      apply (O1 j); [lia|]. rewrite nth_error_app1; auto. }
    destruct e1 as [x|].
    + injection E as <- <- <-. destruct (hstep_raise _ _ _ _ _ _ S1) as [-> ->].
      split; [eapply inv_sub; [exact I1|apply incl_appr, incl_refl]|]. split; [exact O1'|]. split; [discriminate|].
      intros _ v C. inversion C; subst. assert (Some x = None) by (apply Rf; assumption). discriminate.
    + assert (ND1 : NoDup (flat_map arrays_op ops ++ rest)).
      { clear - ND. induction (arrays_op o); auto. cbn in ND. inversion ND; auto. }
      destruct (IH _ _ _ _ _ _ _ As' I1 ND1 E) as (I2 & O2 & C2 & N2).
      split; [exact I2|]. split; [intros j gj Hj; rewrite (O2 _ _ Hj); apply (O1' _ _ Hj)|]. split.
      * intros He. econstructor; [exact D1|apply Rf; reflexivity|auto].
      * intros He v C. inversion C as [|? ? g2 ? ? D2 R2 C3]; subst. rewrite (does_fun _ _ _ _ _ D2 D1) in C3. eapply N2; eauto.
Qed.
Lemma arrays_assignments n a : flat_map arrays_op (assignments n a) = arrays (New a).
Proof. cbn. rewrite !app_nil_r. reflexivity. Qed.
Lemma combine_fst_snd (n : list pt) : combine (map fst n) (map snd n) = n.
Proof. induction n as [|[x y] n IH]; cbn; auto. f_equal. exact IH. Qed.
Lemma combine_maps (x y : list Q) : length x = length y -> map fst (combine x y) = x /\ map snd (combine x y) = y.
Proof.
  revert y. induction x as [|a x IH]; intros [|b y]; cbn; try discriminate; auto.
  intros [= L]. destruct (IH _ L) as [-> ->]. auto.
Qed.
Lemma args_nodes_iff a n : args_nodes a = Ok n <-> NodesGiven a n.
Proof.
  unfold args_nodes. split.
  - destruct (ar_nodes a) as [v|] eqn:N, (ar_lon a) as [x|] eqn:X, (ar_lat a) as [y|] eqn:Y; try discriminate.
    + intros [= <-]. constructor 1; auto.
    + destruct (Nat.eqb_spec (length x) (length y)); [|discriminate]. intros [= <-].
      destruct (combine_maps x y e) as [F S0]. constructor 2; congruence.
    + intros [= <-]. constructor 3; auto.
    + intros [= <-]. constructor 3; auto.
    + intros [= <-]. constructor 3; auto.
  - destruct 1 as [n N X Y|n N X Y|N [X|Y]].
    + rewrite N, X, Y. reflexivity.
    + rewrite N, X, Y. rewrite !map_length, Nat.eqb_refl, combine_fst_snd. reflexivity.
    + rewrite N, X. reflexivity.
    + rewrite N. destruct (ar_lon a); rewrite ?Y; reflexivity.
Qed.
Lemma nodup_app_r {A} (l r : list A) : NoDup (l ++ r) -> NoDup r.
Proof. induction l; auto. cbn. inversion 1; auto. Qed.

Lemma new_ok h0 h gs a h' gs' e rest :
  Inv h0 h gs (arrays (New a) ++ rest) -> NoDup (arrays (New a) ++ rest) -> wstep (h, gs) (New a) = ((h', gs'), e) ->
  Inv h0 h' gs' rest /\
  (forall j gj, nth_error gs j = Some gj -> nth_error gs' j = Some gj /\ shown h' gj = shown h gj) /\
  (e = None -> exists g, gs' = gs ++ [g] /\ Made h0 a (shown h' g)) /\
  (e <> None -> gs' = gs /\ forall v, ~ Made h0 a v).
Proof.
  intros I ND E. cbn [wstep] in E. destruct (args_nodes a) as [n|x] eqn:N.
  - destruct (until_error h empty_grid (assignments n a)) as [[h1 g1] e1] eqn:U.
    rewrite <- (arrays_assignments n) in I, ND.
    assert (As : Forall IsAssign (assignments n a)) by (repeat constructor).
    destruct (until_ok _ _ _ _ _ _ _ _ _ As (inv_empty _ _ _ _ I) ND U) as (I1 & O1 & C1 & N1).
    replace (shown h empty_grid) with (@empty_grid rows) in * by reflexivity.
    destruct e1 as [x|]; injection E as <- <- <-.
    + split; [eapply inv_prefix; eauto|]. split; [intros j gj Hj; split; [exact Hj|exact (O1 _ _ Hj)]|]. split; [discriminate|]. intros _. split; [reflexivity|].
      intros v (n' & Gn & C). apply args_nodes_iff in Gn. assert (n' = n) by congruence. subst. revert C. apply N1. congruence.
    + split; [exact I1|]. split; [|split].
      * intros j gj Hj. split; [|exact (O1 _ _ Hj)]. rewrite nth_error_app1; auto. apply nth_error_Some. congruence.
      * intros _. exists g1. split; auto. exists n. split; [apply args_nodes_iff; exact N|]. apply C1. reflexivity.
      * congruence.
  - injection E as <- <- <-. split; [eapply inv_sub; [exact I|apply incl_appr, incl_refl]|]. split; [auto|]. split; [discriminate|].
    intros _. split; auto. intros v (n & Gn & _). apply args_nodes_iff in Gn. congruence.
Qed.

(** ** Programs *)
Lemma wstep_ok h0 h gs o h' gs' e rest :
  Inv h0 h gs (arrays o ++ rest) -> NoDup (arrays o ++ rest) -> wstep (h, gs) o = ((h', gs'), e) ->
  Inv h0 h' gs' rest /\
  (forall j gj, nth_error gs j = Some gj -> exists gj', nth_error gs' j = Some gj' /\
     match o with
     | On k p => if Nat.eq_dec k j then Does h0 (shown h gj) p (shown h' gj') else shown h' gj' = shown h gj
     | _ => shown h' gj' = shown h gj
     end).
Proof.
  intros I ND E. destruct o as [a|k p|i t].
  - destruct (new_ok _ _ _ _ _ _ _ _ I ND E) as (I1 & O1 & _). split; auto.
    intros j gj Hj. destruct (O1 _ _ Hj). eauto.
  - cbn [wstep] in E. cbn [arrays] in *. destruct (nth_error gs k) as [g|] eqn:Hg.
    + destruct (hstep h g p) as [[h1 g1] e1] eqn:S1. injection E as <- <- <-.
      destruct (inv_step _ _ _ _ _ _ _ _ _ _ I ND Hg S1) as (I1 & D1 & O1). split; [exact I1|].
      intros j gj Hj. rewrite replace_nth, Hg. cbn [option_map].
      destruct (Nat.eq_dec j k) as [->|Nj], (Nat.eq_dec k k) as [_|F]; try contradiction.
      * exists g1. split; auto. assert (g = gj) by congruence. subst. exact D1.
      * exists gj. split; auto. destruct (Nat.eq_dec k j); [congruence|]. eauto.
    + injection E as <- <- <-. split; [eapply inv_sub; [exact I|apply incl_appr, incl_refl]|].
      intros j gj Hj. exists gj. split; auto. destruct (Nat.eq_dec k j); [congruence|reflexivity].
  - injection E as <- <- <-. cbn [arrays] in *.
    assert (Other : forall j gj s i', nth_error gs j = Some gj -> get s gj = Some i' -> i <> i').
    { intros j gj s i' Hj G ->. apply (inv_free _ _ _ _ I _ _ _ _ Hj G). left; reflexivity. }
    split.
    + destruct I. split; rewrite ?write_length; auto.
      * intros j Hj. destruct (inv_rest0 j) as [Lj Rj]; [right; exact Hj|]. split; auto. rewrite read_write_other; auto.
        intros ->. cbn in ND. inversion ND; contradiction.
      * intros k g Hg s j G. rewrite write_length. eapply inv_held0; eauto.
      * intros k g s j Hg G Hj. eapply inv_free0; eauto. right. exact Hj.
    + intros j gj Hj. exists gj. split; auto. apply gmap_ext. intros s i' G. apply read_write_other. eauto.
Qed.
Lemma wrun_cons w o ops : wrun w (o :: ops) = wrun (fst (wstep w o)) ops. Proof. reflexivity. Qed.
Lemma wrun_app w a b : wrun w (a ++ b) = wrun (wrun w a) b. Proof. unfold wrun. apply fold_left_app. Qed.
Lemma wrun_ok h0 ops : forall h gs h' gs' rest,
  Inv h0 h gs (flat_map arrays ops ++ rest) -> NoDup (flat_map arrays ops ++ rest) -> wrun (h, gs) ops = (h', gs') ->
  Inv h0 h' gs' rest /\
  (forall j gj, nth_error gs j = Some gj -> exists gj', nth_error gs' j = Some gj' /\ Evolves h0 j (shown h gj) ops (shown h' gj')).
Proof.
  induction ops as [|o ops IH]; intros h gs h' gs' rest I ND E.
  - injection E as <- <-. split; auto. intros j gj Hj. exists gj. split; auto. constructor.
  - rewrite wrun_cons in E. destruct (wstep (h, gs) o) as [[h1 gs1] e1] eqn:S1. cbn [fst] in E.
    cbn [flat_map] in *. rewrite <- app_assoc in *.
    destruct (wstep_ok _ _ _ _ _ _ _ _ I ND S1) as (I1 & O1).
    destruct (IH _ _ _ _ _ I1 (nodup_app_r _ _ ND) E) as (I2 & O2). split; [exact I2|].
    intros j gj Hj. destruct (O1 _ _ Hj) as (g1 & H1 & D1). destruct (O2 _ _ H1) as (g2 & H2 & V2). exists g2. split; auto.
    destruct o as [a|k p|i t].
    + rewrite <- D1. apply evolves_other; [discriminate|exact V2].
    + destruct (Nat.eq_dec k j) as [->|N].
      * eapply evolves_on; eauto.
      * rewrite <- D1. apply evolves_other; [congruence|exact V2].
    + rewrite <- D1. apply evolves_other; [discriminate|exact V2].
Qed.
Lemma inv_start h0 rest : (forall i, In i rest -> i < length h0) -> Inv h0 h0 [] rest.
Proof. intros H. split; auto; intros [|k]; discriminate. Qed.

Lemma independent h0 pre a post h gs h1 gs1 e h2 gs2 :
  NoDup (flat_map arrays (pre ++ New a :: post)) -> (forall i, In i (flat_map arrays (pre ++ New a :: post)) -> i < length h0) ->
  wrun (h0, []) pre = (h, gs) -> wstep (h, gs) (New a) = ((h1, gs1), e) -> wrun (h1, gs1) post = (h2, gs2) ->
  (e = None <-> exists v, Made h0 a v) /\
  (forall v, Made h0 a v -> exists g, nth_error gs2 (length gs) = Some g /\ Evolves h0 (length gs) v post (shown h2 g)).
Proof.
  intros ND Lt E E1 E2. rewrite flat_map_app in ND, Lt. cbn [flat_map] in ND, Lt.
  destruct (wrun_ok h0 pre _ _ _ _ _ (inv_start h0 _ Lt) ND E) as (I & _).
  apply nodup_app_r in ND.
  destruct (new_ok _ _ _ _ _ _ _ _ I ND E1) as (I1 & _ & Ok1 & Bad1). apply nodup_app_r in ND.
  rewrite <- (app_nil_r (flat_map arrays post)) in I1, ND.
  destruct (wrun_ok h0 post _ _ _ _ _ I1 ND E2) as (_ & O2).
  assert (Fun : forall v v', Made h0 a v -> Made h0 a v' -> v = v').
  { intros v v' (n & Gn & C) (n' & Gn' & C'). apply args_nodes_iff in Gn. apply args_nodes_iff in Gn'.
    assert (n' = n) by congruence. subst. clear - C C'.
    revert C'. induction C as [|g o g1 os g2 D R C IH]; intros C'; inversion C' as [|? ? g3 ? ? D2 R2 C3]; subst; auto.
    apply IH. rewrite (does_fun _ _ _ _ _ D D2). assumption. }
  split.
  - split.
    + intros He. destruct (Ok1 He) as (g & _ & M). eauto.
    + intros (v & M). destruct e as [x|]; auto. destruct Bad1 as [_ B]; [discriminate|]. destruct (B _ M).
  - intros v M. destruct e as [x|].
    { destruct Bad1 as [_ B]; [discriminate|]. destruct (B _ M). }
    destruct Ok1 as (g & -> & M'); auto. rewrite (Fun _ _ M M'). apply O2. apply nth_last.
Qed.

(** ** Arrays changed *)
Lemma put_put_read h g s i t' : check s g (read h i) = Ok t' -> s <> Faces -> t' = read h i.
Proof.
  destruct s; cbn [check]; intros H N; try congruence; destruct (gr_faces g); try discriminate;
    destruct (shape_ok _ _); congruence.
Qed.
Lemma fold_store_read l : forall h g, let h' := fst (fold_left store l (h, g)) in
  length h <= length h' /\ forall i, i < length h -> read h' i = read h i.
Proof.
  cbn zeta. induction l as [|(s, v) l IH]; intros h g; cbn [fold_left]; [auto|]. destruct v as [t|].
  - change (store (h, g) (s, Some t)) with (h ++ [t], put s (Some (length h)) g).
    destruct (IH (h ++ [t]) (put s (Some (length h)) g)) as [L R]. 
    assert (Ln : length (h ++ [t]) = S (length h)) by (rewrite app_length; cbn; lia).
    split; [eapply Nat.le_trans; [|exact L]; rewrite Ln; auto|]. intros i Hi. rewrite R; [apply read_app; exact Hi|rewrite Ln; auto].
  - apply (IH h (put s None g)).
Qed.
Lemma hstep_frame h g o h' g' e : hstep h g o = ((h', g'), e) ->
  length h <= length h' /\ forall i, i < length h -> o <> Set_ Faces (Array i) -> read h' i = read h i.
Proof.
  intros E.
  assert (B : forall r, (fold_left store (fst r) (h, g), snd r) = ((h', g'), e) ->
    length h <= length h' /\ forall i, i < length h -> o <> Set_ Faces (Array i) -> read h' i = read h i).
  { intros [l x]. cbn [fst snd]. intros [= K _]. pose proof (fold_store_read l h g) as Q. cbn zeta in Q. rewrite K in Q. cbn [fst] in Q.
    destruct Q as [L R]. split; auto. }
  destruct o as [n| |s a|s|c|c|c| | |]; cbn [hstep] in E; try (injection E as <- <- <-; auto; fail); try (eapply B; exact E).
  destruct a as [|t|i0]; [injection E as <- <- <-; auto| |].
  - destruct (check s (shown h g) t); injection E as <- <- <-; auto. rewrite app_length. split; [lia|]. intros i Hi _. apply read_app. exact Hi.
  - destruct (check s (shown h g) (read h i0)) as [t'|] eqn:C; injection E as <- <- <-; auto. rewrite write_length. split; [lia|].
    intros i Hi N. destruct (Nat.eq_dec i0 i) as [->|Ni]; [|apply read_write_other; exact Ni].
    rewrite read_write_same by exact Hi. eapply put_put_read; [exact C|]. intros ->. apply N. reflexivity.
Qed.
Lemma until_frame ops : forall h g h' g' e, until_error h g ops = ((h', g'), e) ->
  length h <= length h' /\ forall i, i < length h -> ~ In (Set_ Faces (Array i)) ops -> read h' i = read h i.
Proof.
  induction ops as [|o ops IH]; intros h g h' g' e E; cbn [until_error] in E.
  - injection E as <- <- <-. auto.
  - destruct (hstep h g o) as [[h1 g1] e1] eqn:S1. destruct (hstep_frame _ _ _ _ _ _ S1) as [L1 R1].
    destruct e1 as [x|].
    + injection E as <- <- <-. split; auto. intros i Hi N. apply R1; auto. intros ->. apply N. left; reflexivity.
    + destruct (IH _ _ _ _ _ E) as [L2 R2]. split; [lia|]. intros i Hi N. rewrite R2; [|lia|intros K; apply N; right; exact K].
      apply R1; auto. intros ->. apply N. left; reflexivity.
Qed.

(** ** Careful histories *)
Lemma fits_empty : Fits empty_grid.
Proof. split; [discriminate|]. intros s t [-> | ->]; discriminate. Qed.
Lemma numbered_range n t t' x : Numbered n t t' -> In x (concat t') -> (-1 <= x < Z.of_nat n)%Z.
Proof.
  destruct 1 as [t H|t H]; intros I; [apply H; exact I|].
  rewrite concat_map_map in I. apply in_map_iff in I. destruct I as (y & <- & I). destruct H as [_ H]. specialize (H _ I). lia.
Qed.
Lemma bff_same f : SameShape f (build_face_face f).
Proof. destruct (build_ff_shape f) as [A B]. split; auto. Qed.
Lemma fits_same (g g' : grid rows) : Fits g -> gr_nodes g' = gr_nodes g -> gr_faces g' = gr_faces g ->
  (forall s t, s = FF \/ s = FE -> get s g' = Some t -> get s g = Some t \/ exists f, gr_faces g = Some f /\ SameShape f t) -> Fits g'.
Proof.
  intros [F1 F2] N F S0. split.
  - intros f x. rewrite F, N. apply F1.
  - intros s t Hs G. rewrite F. destruct (S0 s t Hs G) as [G'|]; eauto.
Qed.
Lemma fits_noface (g : grid rows) : gr_faces g = None -> gr_ff g = None -> gr_fe g = None -> Fits g.
Proof. intros F A B. split; [congruence|]. intros s t [-> | ->]; cbn; congruence. Qed.
Lemma does_fits h0 g o g' : Does h0 g o g' -> Careful g o -> Fits g -> Fits g'.
Proof.
  intros D C F. destruct D as [g n|g|g s a V|g s a t t' V A|g s a t V N|g s|g c|g c|g c|g o Io].
  - destruct g as [n0 f e b ff fe ec fc bc]; cbn in *. subst f. destruct F as [_ F2]. apply fits_noface; auto; cbn.
    + destruct ff as [t|]; auto. destruct (F2 FF t (or_introl eq_refl) eq_refl) as (? & ? & _). discriminate.
    + destruct fe as [t|]; auto. destruct (F2 FE t (or_intror eq_refl) eq_refl) as (? & ? & _). discriminate.
  - destruct g as [n0 f e b ff fe ec fc bc]; cbn in *. destruct C as [-> ->]. apply fits_noface; auto.
  - destruct s; destruct g as [n0 f e b ff fe ec fc bc]; cbn in *.
    + apply fits_noface; auto.
    + eapply fits_same; [exact F|reflexivity|reflexivity|]. intros s t [-> | ->]; cbn; auto. discriminate.
    + eapply fits_same; [exact F|reflexivity|reflexivity|]. intros s t [-> | ->]; cbn; auto.
    + eapply fits_same; [exact F|reflexivity|reflexivity|]. intros s t [-> | ->]; cbn; auto. discriminate.
    + eapply fits_same; [exact F|reflexivity|reflexivity|]. intros s t [-> | ->]; cbn; auto. discriminate.
  - destruct A as [t t' Nu|t|t|t f Hf Sh|t f Hf Sh].
    + assert (Cl : gr_ff g = None /\ gr_fe g = None) by (destruct a; [discriminate| |]; exact C).
      destruct g as [n0 f e b ff fe ec fc bc]; cbn in *. destruct Cl as [-> ->]. split; cbn.
      * intros f0 x [= <-] I. eapply numbered_range; eauto.
      * intros s t0 [-> | ->]; discriminate.
    + eapply fits_same; [exact F|destruct g; reflexivity|destruct g; reflexivity|]. intros s t0 [-> | ->]; destruct g; cbn; auto.
    + eapply fits_same; [exact F|destruct g; reflexivity|destruct g; reflexivity|]. intros s t0 [-> | ->]; destruct g; cbn; auto.
    + eapply fits_same; [exact F|destruct g; reflexivity|destruct g; reflexivity|]. intros s t0 [-> | ->]; destruct g; cbn in *; auto.
      intros [= <-]. eauto.
    + eapply fits_same; [exact F|destruct g; reflexivity|destruct g; reflexivity|]. intros s t0 [-> | ->]; destruct g; cbn in *; auto.
      intros [= <-]. eauto.
  - exact F.
  - destruct s; destruct g as [n0 f e b ff fe ec fc bc]; cbn in *.
    + apply fits_noface; auto.
    + eapply fits_same; [exact F|reflexivity|reflexivity|]. intros s t [-> | ->]; cbn; auto. discriminate.
    + eapply fits_same; [exact F|reflexivity|reflexivity|]. intros s t [-> | ->]; cbn; auto.
    + eapply fits_same; [exact F|reflexivity|reflexivity|]. intros s t [-> | ->]; cbn; auto. discriminate.
    + eapply fits_same; [exact F|reflexivity|reflexivity|]. intros s t [-> | ->]; cbn; auto. discriminate.
  - eapply fits_same; [exact F|destruct g; reflexivity|destruct g; reflexivity|]. intros s t0 [-> | ->]; destruct g; cbn; auto.
  - eapply fits_same; [exact F|destruct g; reflexivity|destruct g; reflexivity|]. intros s t0 [-> | ->]; destruct g; cbn; auto.
  - eapply fits_same; [exact F|destruct g; reflexivity|destruct g; reflexivity|]. intros s t0 [-> | ->]; destruct g; cbn; auto.
  - clear C. destruct Io as [<-|[<-|[<-|[]]]]; cbn [built].
    + destruct (gr_faces g) as [f|] eqn:Hf; [|exact F]. cbn [fst fold_left snd].
      eapply fits_same; [exact F|destruct g; reflexivity|destruct g; reflexivity|]. intros s t0 [-> | ->]; destruct g; cbn in *; auto.
      intros [= <-]. subst. right. eexists. split; [reflexivity|apply bff_same].
    + cbn [fst fold_left snd].
      eapply fits_same; [exact F|destruct g; reflexivity|destruct g; reflexivity|]. intros s t0 [-> | ->]; destruct g; cbn in *; auto.
    + destruct (gr_faces g) as [f|] eqn:Hf, (gr_ff g) as [t|] eqn:Ht.
      * destruct (within f t); [|exact F]. cbn [fst fold_left snd].
        eapply fits_same; [exact F|destruct g; reflexivity|destruct g; reflexivity|]. intros s t0 [-> | ->]; destruct g; cbn in *; auto.
      * cbn [fst fold_left snd].
        eapply fits_same; [exact F|destruct g; reflexivity|destruct g; reflexivity|]. intros s t0 [-> | ->]; destruct g; cbn in *; auto.
        intros [= <-]. subst. right. eexists. split; [reflexivity|apply bff_same].
      * destruct (existsb _ t); [exact F|]. cbn [fst fold_left snd].
        eapply fits_same; [exact F|destruct g; reflexivity|destruct g; reflexivity|]. intros s t0 [-> | ->]; destruct g; cbn in *; auto.
      * exact F.
Qed.
Lemma does_keeps h0 g o g' : Does h0 g o g' -> IsAssign o ->
  (forall a, o <> Set_ FF a) -> (forall a, o <> Set_ FE a) -> gr_ff g = None -> gr_fe g = None -> gr_ff g' = None /\ gr_fe g' = None.
Proof.
  intros D A NF NE F E. destruct D; cbn in A; try contradiction;
    try (destruct g; cbn in *; subst; auto; fail).
  - destruct s; destruct g; cbn in *; subst; auto.
  - destruct s; destruct g; cbn in *; subst; auto; [destruct (NF a eq_refl)|destruct (NE a eq_refl)].
  - cbn in H. destruct H as [<-|[<-|[<-|[]]]]; contradiction.
Qed.
Lemma made_fits h0 a g : Made h0 a g -> Fits g.
Proof.
  intros (n & _ & C).
  inversion C as [|? ? g1 ? ? D1 _ C1]; subst. inversion C1 as [|? ? g2 ? ? D2 _ C2]; subst.
  assert (F1 : Fits g1) by (eapply does_fits; [exact D1|reflexivity|apply fits_empty]).
  destruct (does_keeps _ _ _ _ D1 I ltac:(discriminate) ltac:(discriminate) eq_refl eq_refl) as [A1 B1].
  assert (F2 : Fits g2).
  { eapply does_fits; [exact D2| |exact F1]. cbn. destruct (ar_faces a); auto. }
  clear C C1 D1 D2 F1 A1 B1 g1. revert C2 F2. generalize g2. clear g2. intros g0.
  assert (Tr : forall ops v, Chain h0 v ops g -> Forall (fun o => forall v, Careful v o) ops -> Fits v -> Fits g).
  { induction ops as [|o ops IH]; intros v Ch Fo Fv; inversion Ch as [|? ? v1 ? ? D _ Ch1]; subst; auto.
    inversion Fo; subst. eapply IH; [exact Ch1|auto|]. eapply does_fits; eauto. }
  intros C2. eapply Tr; [exact C2|]. repeat constructor; intros v; cbn; auto; destruct (_ a); auto.
Qed.

(** ** Lines *)
Lemma lines_of g es : gr_edges g = Some es -> lines g = (g, mapM (fun r => mapM (py_get (gr_nodes g)) r) es).
Proof. intros H. unfold lines. rewrite H. rewrite H. reflexivity. Qed.

Lemma wrun_fits h0 k ops : forall h gs h' gs' rest g,
  Inv h0 h gs (flat_map arrays ops ++ rest) -> NoDup (flat_map arrays ops ++ rest) -> wrun (h, gs) ops = (h', gs') ->
  nth_error gs k = Some g -> Fits (shown h g) ->
  (forall p1 p p2 hh gg g, ops = p1 ++ On k p :: p2 -> wrun (h, gs) p1 = (hh, gg) -> nth_error gg k = Some g -> Careful (shown hh g) p) ->
  exists g', nth_error gs' k = Some g' /\ Fits (shown h' g').
Proof.
  induction ops as [|o ops IH]; intros h gs h' gs' rest g I ND E Hg F Ca.
  - injection E as <- <-. eauto.
  - rewrite wrun_cons in E. destruct (wstep (h, gs) o) as [[h1 gs1] e1] eqn:S1. cbn [fst] in E.
    cbn [flat_map] in *. rewrite <- app_assoc in *.
    destruct (wstep_ok _ _ _ _ _ _ _ _ I ND S1) as (I1 & O1).
    destruct (O1 _ _ Hg) as (g1 & H1 & D1).
    eapply (IH _ _ _ _ _ _ I1 (nodup_app_r _ _ ND) E H1).
    + destruct o as [a|k' p|i t]; [rewrite D1; exact F| |rewrite D1; exact F].
      destruct (Nat.eq_dec k' k) as [->|N]; [|rewrite D1; exact F].
      eapply does_fits; [exact D1| |exact F]. apply (Ca [] p ops h gs g); auto.
    + intros p1 p p2 hh gg g2 -> W. apply (Ca (o :: p1) p p2); auto. rewrite wrun_cons, S1. exact W.
Qed.
Lemma fits_always h0 pre a post h gs h1 gs1 h2 gs2 :
  NoDup (flat_map arrays (pre ++ New a :: post)) -> (forall i, In i (flat_map arrays (pre ++ New a :: post)) -> i < length h0) ->
  wrun (h0, []) pre = (h, gs) -> wstep (h, gs) (New a) = ((h1, gs1), None) -> wrun (h1, gs1) post = (h2, gs2) ->
  (forall p1 p p2 hh gg g, post = p1 ++ On (length gs) p :: p2 -> wrun (h1, gs1) p1 = (hh, gg) ->
     nth_error gg (length gs) = Some g -> Careful (shown hh g) p) ->
  exists g, nth_error gs2 (length gs) = Some g /\ Fits (shown h2 g).
Proof.
  intros ND Lt E E1 E2 Ca. rewrite flat_map_app in ND, Lt. cbn [flat_map] in ND, Lt.
  destruct (wrun_ok h0 pre _ _ _ _ _ (inv_start h0 _ Lt) ND E) as (I & _).
  apply nodup_app_r in ND.
  destruct (new_ok _ _ _ _ _ _ _ _ I ND E1) as (I1 & _ & Ok1 & _). apply nodup_app_r in ND.
  destruct Ok1 as (g & -> & M); auto.
  rewrite <- (app_nil_r (flat_map arrays post)) in I1, ND.
  eapply (wrun_fits h0 (length gs) post _ _ _ _ _ g I1 ND E2); eauto.
  - apply nth_last.
  - eapply made_fits; eauto.
Qed.
Lemma failed_on h gs k o w e : wstep (h, gs) (On k o) = (w, Some e) -> w = (h, gs).
Proof.
  cbn [wstep]. destruct (nth_error gs k) as [g|] eqn:G; [|discriminate].
  destruct (hstep h g o) as [[h1 g1] e1] eqn:S1. intros [= <- ->]. destruct (hstep_raise _ _ _ _ _ _ S1) as [-> ->]. f_equal.
  clear S1. revert k G. induction gs as [|x gs IH]; intros [|k] G; cbn in *; try discriminate.
  - injection G as <-. reflexivity.
  - f_equal. auto.
Qed.
Lemma failed_new h gs a h' gs' e : wstep (h, gs) (New a) = ((h', gs'), Some e) ->
  gs' = gs /\ length h <= length h' /\ forall i, i < length h -> ar_faces a <> Array i -> read h' i = read h i.
Proof.
  cbn [wstep]. destruct (args_nodes a) as [n|x]; [|intros [= <- <- <-]; auto].
  destruct (until_error h empty_grid (assignments n a)) as [[h1 g1] e1] eqn:U. destruct e1 as [x|]; [|discriminate].
  intros [= <- <- <-]. destruct (until_frame _ _ _ _ _ _ U) as [L R]. split; auto. split; auto.
  intros i Hi N. apply R; auto. cbn. intros [K|[K|[K|[K|[K|[K|[K|[K|[K|[]]]]]]]]]]; try discriminate K. injection K as K. contradiction.
Qed.
