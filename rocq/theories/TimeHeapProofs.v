From Verif Require Import Common CommonProofs TimeModel TimeSpec TimeProofs.
Open Scope Z_scope.

Lemma list_set_len {A} (l : list A) n x : length (list_set l n x) = length l.
Proof. revert n; induction l; intros [|n]; simpl; auto. Qed.
Lemma nth_list_set_eq {A} (l : list A) n x : (n < length l)%nat -> nth_error (list_set l n x) n = Some x.
Proof. revert n; induction l; intros [|n] H; simpl in *; auto; try lia. apply IHl; lia. Qed.
Lemma nth_list_set_neq {A} (l : list A) n m x : n <> m -> nth_error (list_set l n x) m = nth_error l m.
Proof.
  revert n m; induction l as [|a l IH]; intros [|n] [|m] H; simpl; auto; try congruence.
Qed.
Lemma list_set_self {A} (l : list A) n x : nth_error l n = Some x -> list_set l n x = l.
Proof. revert n; induction l as [|a l IH]; intros [|n] H; simpl in *; try discriminate; f_equal; auto; congruence. Qed.

Lemma buf_get_set_eq h b l : (b < length (h_bufs h))%nat -> buf_get (buf_set h b l) b = l.
Proof.
  intros H. unfold buf_get, buf_set. simpl.
  apply nth_error_nth. apply nth_list_set_eq; auto.
Qed.
Lemma nth_via_error {A} (l : list A) n d : nth n l d = match nth_error l n with Some x => x | None => d end.
Proof. revert n; induction l; intros [|n]; simpl; auto. Qed.
Lemma buf_get_set_neq h b b' l : b <> b' -> buf_get (buf_set h b l) b' = buf_get h b'.
Proof.
  intros H. unfold buf_get, buf_set. simpl. rewrite !nth_via_error, nth_list_set_neq; auto.
Qed.

(** Objects that a history of list-built objects creates never share. *)
Definition from_list (op : heap_op) : Prop :=
  match op with
  | HNewTime (FromArray _) _ _ _ _ | HNewTime (FromTime _) _ _ _ _ => False
  | _ => True
  end.

Definition HInv (h : heap) : Prop :=
  (forall o ob, nth_error (h_objs h) o = Some ob -> (h_buf ob < length (h_bufs h))%nat) /\
  (forall o o' ob ob', nth_error (h_objs h) o = Some ob -> nth_error (h_objs h) o' = Some ob' ->
     h_buf ob = h_buf ob' -> o = o').

Lemma heap_init_frame h b tz ntz origin disp h' r :
  heap_init h b tz ntz origin disp = (h', r) ->
  h_objs h' = h_objs h /\ length (h_bufs h') = length (h_bufs h) /\
  (forall b', b' <> b -> buf_get h' b' = buf_get h b') /\
  (forall ob, r = Ok ob -> h_buf ob = b).
Proof.
  unfold heap_init. intros H.
  assert (F : forall l, h_objs (buf_set h b l) = h_objs h /\
            length (h_bufs (buf_set h b l)) = length (h_bufs h) /\
            (forall b', b' <> b -> buf_get (buf_set h b l) b' = buf_get h b')).
  { intros l. unfold buf_set at 1 2; simpl. rewrite list_set_len. repeat split; auto.
    intros b' Hb. apply buf_get_set_neq; auto. }
  repeat match goal with
  | H : context [match ?e with Ok _ => _ | Err _ => _ end] |- _ => destruct e as [?|?] eqn:?; simpl in H
  | H : (let (_, _) := ?p in _) = _ |- _ => destruct p
  | H : (if ?c then _ else _) = _ |- _ => destruct c
  end; injection H as <- <-;
  match goal with
  | |- context [buf_set h b ?l] => destruct (F l) as (F1 & F2 & F3)
  | _ => idtac
  end; repeat split; auto; intros; try discriminate; try congruence.
  injection H as <-. reflexivity.
Qed.

Lemma nth_error_snoc {A} (l : list A) x n y : nth_error (l ++ [x]) n = Some y ->
  (nth_error l n = Some y /\ (n < length l)%nat) \/ (n = length l /\ y = x).
Proof.
  intros H. destruct (Nat.lt_ge_cases n (length l)).
  - left. rewrite nth_error_app1 in H; auto.
  - right. rewrite nth_error_app2 in H by auto.
    destruct (n - length l)%nat eqn:E; simpl in H.
    + injection H as <-. split; auto. lia.
    + destruct n0; discriminate.
Qed.

Lemma HInv_objset h o ob bufs' ob' :
  HInv h -> nth_error (h_objs h) o = Some ob -> h_buf ob' = h_buf ob ->
  length bufs' = length (h_bufs h) ->
  HInv (mkHeap bufs' (list_set (h_objs h) o ob')).
Proof.
  intros [I1 I2] Ho Hb Hl. split; simpl.
  - intros p pb Hp. rewrite Hl. destruct (Nat.eq_dec o p) as [->|Hne].
    + rewrite nth_list_set_eq in Hp by (eapply nth_error_Some_lt; eauto).
      injection Hp as <-. rewrite Hb. eauto.
    + rewrite nth_list_set_neq in Hp by auto. eauto.
  - assert (K : forall p pb, nth_error (list_set (h_objs h) o ob') p = Some pb ->
              exists pb0, nth_error (h_objs h) p = Some pb0 /\ h_buf pb0 = h_buf pb).
    { intros p pb Hp. destruct (Nat.eq_dec o p) as [->|Hne].
      - rewrite nth_list_set_eq in Hp by (eapply nth_error_Some_lt; eauto).
        injection Hp as <-. eauto.
      - rewrite nth_list_set_neq in Hp by auto. eauto. }
    intros p p' pb pb' Hp Hp' He.
    destruct (K _ _ Hp) as (q & Hq & Eq). destruct (K _ _ Hp') as (q' & Hq' & Eq').
    apply (I2 p p' q q'); auto. congruence.
Qed.

Lemma heap_step_inv h op : HInv h -> from_list op -> HInv (heap_step h op).
Proof.
  intros HI Hf. pose proof HI as [I1 I2]. destruct op as [l|s tz ntz origin disp|o off|o d]; simpl.
  - split; simpl; auto. intros o ob Ho. rewrite app_length. simpl. specialize (I1 o ob Ho). lia.
  - destruct s as [b|o|l]; simpl in Hf; try tauto. simpl.
    set (h1 := mkHeap (h_bufs h ++ [l]) (h_objs h)).
    destruct (heap_init h1 (length (h_bufs h)) tz ntz origin disp) as [h2 r] eqn:E.
    apply heap_init_frame in E as (E1 & E2 & E3 & E4).
    simpl in E2. rewrite app_length in E2. simpl in E2.
    destruct r as [ob|e].
    + specialize (E4 ob eq_refl). split; simpl; rewrite E1.
      * intros o ob' Ho. apply nth_error_snoc in Ho as [[Ho _]|[_ ->]]; [specialize (I1 o ob' Ho); simpl; lia|lia].
      * intros o o' ob1 ob2 H1 H2 He.
        apply nth_error_snoc in H1 as [[H1 _]|[-> ->]]; apply nth_error_snoc in H2 as [[H2 _]|[-> ->]]; auto.
        -- eauto.
        -- specialize (I1 _ _ H1). lia.
        -- specialize (I1 _ _ H2). lia.
    + split; rewrite E1; simpl.
      * intros o ob' Ho. specialize (I1 o ob' Ho). lia.
      * exact I2.
  - destruct (nth_error (h_objs h) o) as [ob|] eqn:Eo; auto.
    eapply HInv_objset; eauto. simpl. apply list_set_len.
  - destruct (nth_error (h_objs h) o) as [ob|] eqn:Eo; auto.
    destruct (h_disp ob), d; auto.
    eapply HInv_objset; eauto. simpl. apply list_set_len.
Qed.

Lemma heap_run_inv_aux ops : forall h, HInv h -> Forall from_list ops -> HInv (fold_left heap_step ops h).
Proof.
  induction ops as [|op ops IH]; intros h HI Hf; auto.
  inversion Hf; subst. simpl. apply IH; auto. apply heap_step_inv; auto.
Qed.
Lemma heap_run_inv ops : Forall from_list ops -> HInv (heap_run ops).
Proof.
  intros H. apply heap_run_inv_aux; auto.
  split; simpl; intros [|?]; intros; discriminate.
Qed.

(** The object an operation is addressed to. *)
Definition addressed (op : heap_op) (o : nat) : Prop :=
  match op with HSetTz o' _ | HSetDisp o' _ => o' = o | _ => False end.

Lemma view_set_other h o o' ob ob' bufs' :
  HInv h -> nth_error (h_objs h) o = Some ob -> o' <> o ->
  (forall b, b <> h_buf ob -> nth b bufs' [] = nth b (h_bufs h) []) ->
  heap_view (mkHeap bufs' (list_set (h_objs h) o ob')) o' = heap_view h o'.
Proof.
  intros [I1 I2] Ho Hne Hb. unfold heap_view, buf_get; simpl.
  rewrite nth_list_set_neq by auto.
  destruct (nth_error (h_objs h) o') as [pb|] eqn:E; auto.
  rewrite Hb; auto. intros Heq. apply Hne. eapply I2; eauto.
Qed.

Lemma heap_step_isolated h op o : HInv h -> from_list op -> ~ addressed op o ->
  (o < length (h_objs h))%nat -> heap_view (heap_step h op) o = heap_view h o.
Proof.
  intros HI Hf Ha Ho. pose proof HI as [I1 I2].
  destruct op as [l|s tz ntz origin disp|p off|p d]; simpl in *.
  - unfold heap_view, buf_get; simpl.
    destruct (nth_error (h_objs h) o) as [ob|] eqn:E; auto.
    rewrite app_nth1; eauto.
  - destruct s as [b|q|l]; simpl in *; try tauto.
    set (h1 := mkHeap (h_bufs h ++ [l]) (h_objs h)).
    destruct (heap_init h1 (length (h_bufs h)) tz ntz origin disp) as [h2 r] eqn:E.
    apply heap_init_frame in E as (E1 & E2 & E3 & E4).
    assert (V : forall objs', nth_error objs' o = nth_error (h_objs h) o ->
                heap_view (mkHeap (h_bufs h2) objs') o = heap_view h o).
    { intros objs' Hobj. unfold heap_view; simpl. rewrite Hobj.
      destruct (nth_error (h_objs h) o) as [ob|] eqn:Eo; auto.
      specialize (I1 _ _ Eo). specialize (E3 (h_buf ob) ltac:(lia)).
      unfold buf_get in *. simpl in *. rewrite E3, app_nth1; auto. }
    destruct r as [ob|e].
    + apply V. rewrite E1. simpl. rewrite nth_error_app1; auto.
    + destruct h2 as [b2 o2]. simpl in *. subst o2. apply V; auto.
  - destruct (nth_error (h_objs h) p) as [ob|] eqn:Eo; auto.
    eapply view_set_other; eauto.
    intros b Hb. rewrite !nth_via_error. rewrite nth_list_set_neq; auto.
  - destruct (nth_error (h_objs h) p) as [ob|] eqn:Eo; auto.
    destruct (h_disp ob), d; auto.
    eapply view_set_other; eauto.
    intros b Hb. rewrite !nth_via_error. rewrite nth_list_set_neq; auto.
Qed.

Lemma heap_step_own h o t : HInv h -> heap_view h o = Some t ->
  (forall off, heap_view (heap_step h (HSetTz o off)) o = Some (set_tz t off)) /\
  (forall d, heap_view (heap_step h (HSetDisp o d)) o = Some (fst (set_disp t d))).
Proof.
  intros [I1 I2] Hv. unfold heap_view in Hv.
  destruct (nth_error (h_objs h) o) as [ob|] eqn:Eo; [|discriminate].
  injection Hv as <-. specialize (I1 _ _ Eo).
  pose proof (nth_error_Some_lt _ _ _ Eo) as Hlt.
  split.
  - intros off. cbn [heap_step]. rewrite Eo. unfold heap_view. cbn [h_objs h_bufs].
    cbn [buf_set h_objs]. rewrite nth_list_set_eq by auto. cbn [h_buf h_tz h_disp].
    f_equal. unfold set_tz; cbn [t_tz t_data t_disp].
    unfold buf_get, buf_set; cbn [h_bufs]. rewrite nth_via_error, nth_list_set_eq by auto.
    destruct (h_tz ob), off; auto.
  - intros d. cbn [heap_step]. rewrite Eo. unfold set_disp; cbn [t_disp t_data t_tz].
    destruct (h_disp ob) as [x|] eqn:Ed.
    + unfold heap_view. rewrite Eo. cbn [fst]. rewrite Ed. reflexivity.
    + destruct d as [y|].
      * unfold heap_view. cbn [h_objs h_bufs buf_set]. rewrite nth_list_set_eq by auto.
        cbn [h_buf h_tz h_disp fst]. unfold buf_get at 1; cbn [h_bufs].
        rewrite nth_via_error, nth_list_set_eq by auto. reflexivity.
      * unfold heap_view. rewrite Eo, Ed. reflexivity.
Qed.

(** Whatever the sharing, an operation on one object reaches exactly the
    objects that hold the same buffer. *)
Lemma heap_alias_effect h o ob o' ob' old new :
  nth_error (h_objs h) o = Some ob -> nth_error (h_objs h) o' = Some ob' ->
  (h_buf ob < length (h_bufs h))%nat -> o <> o' -> h_tz ob = Some old ->
  forall t, heap_view h o' = Some t ->
  heap_view (heap_step h (HSetTz o (Some new))) o' =
    Some (if Nat.eqb (h_buf ob) (h_buf ob')
          then mkTime (shift (new - old) (t_data t)) (t_tz t) (t_disp t) else t).
Proof.
  intros Ho Ho' Hb Hne Htz t Ht. unfold heap_view in Ht. rewrite Ho' in Ht. injection Ht as <-.
  cbn [heap_step]. rewrite Ho, Htz. unfold heap_view. cbn [h_objs h_bufs buf_set].
  rewrite nth_list_set_neq by auto. rewrite Ho'.
  f_equal. unfold buf_get; cbn [h_bufs]. rewrite !nth_via_error.
  destruct (Nat.eqb_spec (h_buf ob) (h_buf ob')) as [E|E].
  - rewrite <- E, nth_list_set_eq by auto. cbn [t_data t_tz t_disp].
    f_equal. rewrite shift_shift. f_equal. lia.
  - rewrite nth_list_set_neq by auto. reflexivity.
Qed.
