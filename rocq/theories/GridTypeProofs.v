From Coq Require Import String Ascii.
From Verif Require Import Common CommonProofs VariableSpec DepthModel UGridModel UGridProofs GridTypeModel GridTypeSpec.
Open Scope string_scope.
Open Scope list_scope.

(** ** case *)
Lemma lower1_nat c : nat_of_ascii (lower1 c) =
  let n := nat_of_ascii c in if ((65 <=? n) && (n <=? 90))%nat then (n + 32)%nat else n.
Proof.
  unfold lower1. cbv zeta. destruct ((65 <=? nat_of_ascii c) && (nat_of_ascii c <=? 90))%nat eqn:E; auto.
  apply andb_prop in E. destruct E as [_ E]. apply Nat.leb_le in E. apply nat_ascii_embedding. lia.
Qed.
Lemma nat_of_ascii_inj c d : nat_of_ascii c = nat_of_ascii d -> c = d.
Proof. intros H. rewrite <- (ascii_nat_embedding c), <- (ascii_nat_embedding d), H. auto. Qed.
Lemma lower1_eq c d : lower1 c = lower1 d <-> CharEq c d.
Proof.
  unfold CharEq. cbv zeta.
  assert (H : lower1 c = lower1 d <-> nat_of_ascii (lower1 c) = nat_of_ascii (lower1 d)).
  { split; [congruence|apply nat_of_ascii_inj]. }
  rewrite H, !lower1_nat. cbv zeta.
  set (m := nat_of_ascii c). set (n := nat_of_ascii d).
  destruct (Nat.leb_spec 65 m), (Nat.leb_spec m 90), (Nat.leb_spec 65 n), (Nat.leb_spec n 90); cbn [andb]; lia.
Qed.
Lemma lower_eq a : forall b, lower a = lower b <-> CaseEq a b.
Proof.
  induction a as [|c r IH]; intros [|d s]; cbn [lower CaseEq]; split; intros H; try discriminate; try tauto.
  - injection H as H1 H2. split; [apply lower1_eq; auto|apply IH; auto].
  - destruct H as [H1 H2]. apply lower1_eq in H1. apply IH in H2. congruence.
Qed.
Definition is_lower (n : string) : Prop := lower n = n.
Lemma lower_name s n : is_lower n -> (lower s = n <-> CaseEq s n).
Proof. intros H. rewrite <- lower_eq. rewrite H. tauto. Qed.
Lemma isin_in s l : isin s l = true <-> In s l.
Proof.
  unfold isin. rewrite existsb_exists. split.
  - intros (x & Hx & E). apply String.eqb_eq in E. subst. auto.
  - intros H. exists s. split; auto. apply String.eqb_refl.
Qed.
Lemma isin_lower s l : Forall is_lower l -> (isin (lower s) l = true <-> OneOf l s).
Proof.
  intros HF. rewrite isin_in. rewrite Forall_forall in HF. unfold OneOf. split.
  - intros H. exists (lower s). split; auto. apply (lower_name s (lower s)); auto.
  - intros (n & Hn & E). apply (lower_name s n) in E; auto. rewrite E. auto.
Qed.
Lemma names_lower : Forall is_lower sgrid_names /\ Forall is_lower ugrid_names /\ Forall is_lower rgrid_names.
Proof. repeat split; repeat constructor. Qed.

(** ** dicts *)
Lemma dget_dset {V} (d : dict V) k v k' : dget (dset d k v) k' = if String.eqb k' k then Some v else dget d k'.
Proof.
  induction d as [|[a x] d IH]; cbn [dset dget].
  - destruct (String.eqb k' k); reflexivity.
  - destruct (String.eqb_spec k a) as [->|Hka]; cbn [dget].
    + destruct (String.eqb_spec k' a); reflexivity.
    + rewrite IH. destruct (String.eqb_spec k' a) as [->|]; auto.
      destruct (String.eqb_spec a k); [congruence|reflexivity].
Qed.
Lemma lower_vars_named f n v : is_lower n -> (dget (lower_vars f) n = Some v <-> Named f n v).
Proof.
  intros Hn. unfold lower_vars, Named. induction (gf_vars f) as [|x l IH] using rev_ind.
  - cbn. split; [discriminate|]. intros (pre & post & H & _). destruct pre; discriminate.
  - rewrite fold_left_app. cbn [fold_left]. rewrite dget_dset.
    destruct (String.eqb_spec n (lower (gv_name x))) as [E|E].
    + split.
      * intros H. injection H as <-. exists l, []. split; auto. split; [apply (lower_name _ _ Hn); auto|intros w []].
      * intros (pre & post & H & H1 & H2). destruct post as [|w post _] using rev_ind.
        -- apply app_inj_tail in H. destruct H as [_ ->]. reflexivity.
        -- exfalso. rewrite app_comm_cons, app_assoc in H. apply app_inj_tail in H. destruct H as [_ <-].
           apply (H2 x); [apply in_or_app; right; left; auto|]. apply (lower_name _ _ Hn). auto.
    + rewrite IH. split.
      * intros (pre & post & -> & H1 & H2). exists pre, (post ++ [x]). split; [rewrite <- app_assoc; reflexivity|].
        split; auto. intros w Hw. apply in_app_or in Hw. destruct Hw as [Hw|[<-|[]]]; auto.
        intros C. apply (lower_name _ _ Hn) in C. congruence.
      * intros (pre & post & H & H1 & H2). destruct post as [|w post _] using rev_ind.
        -- apply app_inj_tail in H. destruct H as [_ <-]. apply (lower_name _ _ Hn) in H1. congruence.
        -- rewrite app_comm_cons, app_assoc in H. apply app_inj_tail in H. destruct H as [-> <-].
           exists pre, post. repeat split; auto. intros u Hu. apply H2. apply in_or_app. auto.
Qed.
Lemma lower_vars_none f n : is_lower n -> (dget (lower_vars f) n = None <-> ~ InFile f n).
Proof.
  intros Hn. unfold lower_vars, InFile. induction (gf_vars f) as [|x l IH] using rev_ind.
  - cbn. split; auto. intros _ (v & [] & _).
  - rewrite fold_left_app. cbn [fold_left]. rewrite dget_dset.
    destruct (String.eqb_spec n (lower (gv_name x))) as [E|E].
    + split; [discriminate|]. intros H. exfalso. apply H. exists x. split; [apply in_or_app; right; left; auto|].
      apply (lower_name _ _ Hn). auto.
    + rewrite IH. split; intros H (v & Hv & Ev); apply H; exists v; split; auto.
      * apply in_app_or in Hv. destruct Hv as [Hv|[<-|[]]]; auto. exfalso. apply (lower_name _ _ Hn) in Ev. congruence.
      * apply in_or_app. auto.
Qed.
Lemma lower_vars_some f n : is_lower n -> ((exists v, dget (lower_vars f) n = Some v) <-> InFile f n).
Proof.
  intros Hn. pose proof (lower_vars_none f n Hn) as H. destruct (dget (lower_vars f) n) as [v|] eqn:E.
  - split; [|eauto]. intros _. apply lower_vars_named in E; auto. destruct E as (pre & post & E & C & _).
    exists v. rewrite E. split; auto. apply in_elt.
  - split; [intros (v & Hv); discriminate|]. intros C. exfalso. apply H; auto.
Qed.
Lemma find_pair_spec f names : Forall (fun p => is_lower (fst p) /\ is_lower (snd p)) names ->
  match find_pair (lower_vars f) names with
  | Some ((n1, v1), (n2, v2)) => FirstWith (PairIn f) names (n1, n2) /\ Named f n1 v1 /\ Named f n2 v2
  | None => NoneWith (PairIn f) names
  end.
Proof.
  induction 1 as [|[n1 n2] l [H1 H2] _ IH]; [intros y []|]. cbn [find_pair fst snd] in *.
  assert (Hno : dget (lower_vars f) n1 = None \/ dget (lower_vars f) n2 = None -> ~ PairIn f (n1, n2)).
  { intros [E|E] [P1 P2]; cbn [fst snd] in *.
    - apply lower_vars_none in E; auto.
    - apply lower_vars_none in E; auto. }
  assert (Hrec : ~ PairIn f (n1, n2) -> match find_pair (lower_vars f) l with
     | Some ((m1, v1), (m2, v2)) => FirstWith (PairIn f) ((n1, n2) :: l) (m1, m2) /\ Named f m1 v1 /\ Named f m2 v2
     | None => NoneWith (PairIn f) ((n1, n2) :: l) end).
  { intros Hn. destruct (find_pair (lower_vars f) l) as [[[m1 v1] [m2 v2]]|].
    - destruct IH as ((pre & post & -> & P & Hpre) & N). split; auto. exists ((n1, n2) :: pre), post.
      repeat split; try apply P. intros y [<-|Hy]; auto.
    - intros y [<-|Hy]; auto. }
  destruct (dget (lower_vars f) n1) as [v1|] eqn:E1; [|apply Hrec; auto].
  destruct (dget (lower_vars f) n2) as [v2|] eqn:E2; [|apply Hrec; auto].
  split; [|split; apply lower_vars_named; auto].
  exists [], l. repeat split; cbn [fst snd].
  - apply lower_vars_some; eauto.
  - apply lower_vars_some; eauto.
  - intros y [].
Qed.
Lemma find_first_spec f names : Forall is_lower names ->
  match find_first (lower_vars f) names with
  | Some (n, v) => FirstWith (InFile f) names n /\ Named f n v
  | None => NoneWith (InFile f) names
  end.
Proof.
  induction 1 as [|n l Hn _ IH]; [intros y []|]. cbn [find_first].
  destruct (dget (lower_vars f) n) as [v|] eqn:E.
  - split; [|apply lower_vars_named; auto]. exists [], l. repeat split; [apply lower_vars_some; eauto|intros y []].
  - apply lower_vars_none in E; auto. destruct (find_first (lower_vars f) l) as [[m v]|].
    + destruct IH as ((pre & post & -> & P & Hpre) & N). split; auto. exists (n :: pre), post.
      repeat split; auto. intros y [<-|Hy]; auto.
    + intros y [<-|Hy]; auto.
Qed.
Lemma coord_names_lower : Forall (fun p => is_lower (fst p) /\ is_lower (snd p)) node_coord_names.
Proof. repeat constructor. Qed.
Lemma composite_lower : Forall is_lower composite_names.
Proof. repeat constructor. Qed.
Lemma face_names_lower : Forall is_lower face_var_names.
Proof. repeat constructor. Qed.

Lemma first_unique {A} (P : A -> Prop) l x y : FirstWith P l x -> FirstWith P l y -> x = y.
Proof.
  intros (p1 & q1 & -> & Hx & H1) (p2 & q2 & E & Hy & H2). revert p2 E H2. induction p1 as [|a p1 IH]; intros [|b p2] E H2; cbn in E.
  - congruence.
  - injection E as <- E. exfalso. apply (H2 x); [left; auto|auto].
  - injection E as -> E. exfalso. apply (H1 y); [left; auto|auto].
  - injection E as <- E. apply (IH (fun z Hz => H1 z (or_intror Hz)) p2 E (fun z Hz => H2 z (or_intror Hz))).
Qed.
Lemma first_none {A} (P : A -> Prop) l x : FirstWith P l x -> NoneWith P l -> False.
Proof. intros (p & q & -> & Hx & _) H. apply (H x); auto. apply in_elt. Qed.

Lemma first_lower {A} (Q : A -> Prop) (P : A -> Prop) l x : Forall Q l -> FirstWith P l x -> Q x.
Proof. intros HF (p & q & -> & _). rewrite Forall_forall in HF. apply HF. apply in_elt. Qed.

(** ** coordinates *)
Lemma base_spec f :
  (exists lon lat gt, Coords f lon lat /\ find_base f None = Ok ([("node_lon", lon); ("node_lat", lat)], gt)) \/
  (find_base f None = Err ValueError /\ forall lon lat, ~ Coords f lon lat).
Proof.
  unfold find_base. pose proof (find_pair_spec f _ coord_names_lower) as HP.
  destruct (find_pair (lower_vars f) node_coord_names) as [[[n1 v1] [n2 v2]]|].
  - left. destruct HP as (H1 & H2 & H3). do 3 eexists. split; [|reflexivity]. eapply two; eauto.
  - pose proof (find_first_spec f _ composite_lower) as HF.
    destruct (find_first (lower_vars f) composite_names) as [[n v]|].
    + destruct HF as [H1 H2]. unfold composite. destruct (Nat.even (size (gv_shape v))) eqn:Ev.
      * left. do 3 eexists. split; [|reflexivity]. eapply one; eauto.
      * right. split; auto. intros lon lat HC. inversion HC as [m1 m2 w1 w2 F _ _|m w Hn F Hm Em]; subst.
        -- eapply first_none; eauto.
        -- assert (m = n) by (eapply first_unique; eauto). subst m.
           assert (Hl : is_lower n).
           { exact (first_lower _ _ _ _ composite_lower H1). }
           apply (lower_vars_named f n _ Hl) in Hm. apply (lower_vars_named f n _ Hl) in H2. congruence.
    + right. split; auto. intros lon lat HC. inversion HC as [m1 m2 w1 w2 F _ _|m w Hn F Hm Em]; subst.
      * eapply first_none; eauto.
      * eapply first_none; eauto.
Qed.
Lemma named_unique f n v w : is_lower n -> Named f n v -> Named f n w -> v = w.
Proof. intros Hn H1 H2. apply (lower_vars_named f n _ Hn) in H1, H2. congruence. Qed.
Lemma coords_unique f a b a' b' : Coords f a b -> Coords f a' b' -> a = a' /\ b = b'.
Proof.
  intros [n1 n2 v1 v2 F N1 N2|n v Hn F N E] H'; inversion H' as [m1 m2 w1 w2 F' N1' N2'|m w Hn' F' N' E']; subst.
  - assert (E : (n1, n2) = (m1, m2)) by (eapply first_unique; eauto). injection E as <- <-.
    pose proof (first_lower _ _ _ _ coord_names_lower F) as [L1 L2]. cbn [fst snd] in *.
    split; f_equal; eapply named_unique; [exact L1| | |exact L2| |]; eauto.
  - exfalso. exact (first_none _ _ _ F Hn').
  - exfalso. exact (first_none _ _ _ F' Hn).
  - assert (n = m) by (eapply first_unique; eauto). subst m.
    pose proof (first_lower _ _ _ _ composite_lower F) as L. split; f_equal; eapply named_unique; [exact L| | |exact L| |]; eauto.
Qed.

(** ** faces *)
Lemma face_var_spec f :
  match find_first (lower_vars f) face_var_names with
  | Some (n, v) => FaceVar f v
  | None => forall v, ~ FaceVar f v
  end.
Proof.
  pose proof (find_first_spec f _ face_names_lower) as H.
  destruct (find_first (lower_vars f) face_var_names) as [[n v]|].
  - destruct H. eapply face_var; eauto.
  - intros v HV. inversion HV as [n w F _]; subst. eapply first_none; eauto.
Qed.
Lemma face_var_unique f v w : FaceVar f v -> FaceVar f w -> v = w.
Proof.
  intros [n a F N] H. inversion H as [m b F' N']; subst. assert (n = m) by (eapply first_unique; eauto). subst m.
  pose proof (first_lower _ _ _ _ face_names_lower F) as L. eapply named_unique; eauto.
Qed.
Lemma transpose_entry w : forall rows, Forall (fun r => length r = w) rows ->
  length (transpose_rows w rows) = w /\ Forall (fun r => length r = length rows) (transpose_rows w rows) /\
  forall j k r x, nth_error rows j = Some r -> nth_error r k = Some x ->
  exists c, nth_error (transpose_rows w rows) k = Some c /\ nth_error c j = Some x.
Proof.
  induction w as [|w IH]; intros rows H; cbn [transpose_rows].
  - repeat split; auto. intros j k r x Hr Hx. rewrite Forall_forall in H.
    specialize (H r (nth_error_In _ _ Hr)). apply nth_error_Some_lt in Hx. lia.
  - destruct (IH (map (@tl Z) rows)) as (L & F & K).
    { apply Forall_map. eapply Forall_impl; [|exact H]. intros [|a r] E; cbn in E |- *; lia. }
    rewrite map_length in F. cbn [length]. split; [lia|]. split.
    { constructor; auto. apply map_length. }
    intros j k r x Hr Hx. destruct k as [|k].
    + eexists. split; [reflexivity|]. rewrite (map_nth_error (fun r0 => hd 0%Z r0) _ _ Hr). destruct r; [discriminate|].
      cbn in *. congruence.
    + cbn [nth_error]. apply (K j k (tl r) x); [apply map_nth_error; auto|]. destruct r; [discriminate|auto].
Qed.
Lemma transpose_nonempty w rows : rows <> [] -> (0 < w)%nat -> Forall (fun r => length r = w) rows ->
  concat (transpose_rows w rows) <> [].
Proof.
  intros Hne Hw H. destruct w as [|w]; [lia|]. cbn [transpose_rows concat]. destruct rows as [|r rows]; [congruence|].
  cbn. discriminate.
Qed.

(** ** classes *)
Lemma prefix_spec a : forall s, prefix a s = true <-> exists b, s = (a ++ b)%string.
Proof.
  induction a as [|c a IH]; intros s.
  - split; [exists s; reflexivity|auto]. destruct s; auto.
  - destruct s as [|d s]; [split; [discriminate|intros (b & H); discriminate]|].
    simpl prefix. destruct (ascii_dec c d) as [E|Hne].
    + subst d. split; intros H.
      * apply IH in H. destruct H as (b & ->). exists b. reflexivity.
      * destruct H as (b & H). injection H as ->. apply IH. eauto.
    + split; [discriminate|]. intros (b & H). injection H as H1 H2. congruence.
Qed.
Lemma contains_spec sub s : contains sub s = true <-> Mentions sub s.
Proof.
  unfold Mentions. induction s as [|c s IH].
  - cbn [contains]. destruct (prefix sub "") eqn:E.
    + split; auto. intros _. apply prefix_spec in E. destruct E as (b & E). exists EmptyString, b. auto.
    + split; [discriminate|]. intros (a & b & H). destruct a; [|discriminate]. cbn in H.
      assert (prefix sub "" = true) by (apply prefix_spec; eauto). congruence.
  - cbn [contains]. destruct (prefix sub (String c s)) eqn:E.
    + split; auto. intros _. apply prefix_spec in E. destruct E as (b & E). exists EmptyString, b. auto.
    + rewrite IH. split.
      * intros (a & b & ->). exists (String c a), b. reflexivity.
      * intros (a & b & H). destruct a as [|c' a].
        -- cbn in H. assert (prefix sub (String c s) = true) by (apply prefix_spec; eauto). congruence.
        -- cbn in H. injection H as -> ->. eauto.
Qed.
Lemma is_topology_spec v : is_topology v = true <-> IsTopology v.
Proof.
  unfold is_topology, IsTopology. destruct (gv_cf_role v) as [r|].
  - rewrite contains_spec. split; [eauto|]. intros (r' & E & H). congruence.
  - split; [discriminate|]. intros (r & E & _). discriminate.
Qed.
Lemma find_topology_spec f :
  match find_topology_var f with
  | Some v => FirstWith IsTopology (gf_vars f) v
  | None => NoneWith IsTopology (gf_vars f)
  end.
Proof.
  unfold find_topology_var. induction (gf_vars f) as [|x l IH]; cbn [filter]; [intros y []|].
  destruct (is_topology x) eqn:E.
  - exists [], l. repeat split; [apply is_topology_spec; auto|intros y []].
  - assert (~ IsTopology x) by (rewrite <- is_topology_spec; congruence).
    destruct (filter is_topology l) as [|v r].
    + intros y [<-|Hy]; auto.
    + destruct IH as (p & q & -> & Hv & Hp). exists (x :: p), q. repeat split; auto. intros y [<-|Hy]; auto.
Qed.

(** ** the staggered search, one group *)
Lemma s_one_other d st a1 a2 names mattr mname k : ~ In k [a1; a2; mattr] ->
  dget (fst (s_one d st ((a1, a2), names, (mattr, mname)))) k = dget (fst st) k.
Proof.
  intros H. destruct st as [a gt]. cbn [s_one]. destruct (find_pair d names) as [[[n1 v1] [n2 v2]]|]; auto.
  assert (k <> a1) by (intros ->; apply H; cbn; auto). assert (k <> a2) by (intros ->; apply H; cbn; auto).
  assert (k <> mattr) by (intros ->; apply H; cbn; auto).
  apply String.eqb_neq in H0, H1, H2. destruct (dget d mname); cbn [fst]; rewrite !dget_dset, ?H0, ?H1, ?H2; auto.
Qed.
Lemma s_one_other' d st a1 a2 names mattr mname k : ~ In k [a1; a2; mattr] ->
  dget (snd (s_one d st ((a1, a2), names, (mattr, mname)))) k = dget (snd st) k.
Proof.
  intros H. destruct st as [a gt]. cbn [s_one]. destruct (find_pair d names) as [[[n1 v1] [n2 v2]]|]; auto.
  assert (k <> a1) by (intros ->; apply H; cbn; auto). assert (k <> a2) by (intros ->; apply H; cbn; auto).
  assert (k <> mattr) by (intros ->; apply H; cbn; auto).
  apply String.eqb_neq in H0, H1, H2. destruct (dget d mname); cbn [fst snd]; rewrite !dget_dset, ?H0, ?H1, ?H2; auto.
Qed.
Lemma s_one_own d st a1 a2 names mattr mname k : In k [a1; a2; mattr] ->
  dget (fst st) k = None /\ dget (snd st) k = None ->
  dget (fst (s_one d st ((a1, a2), names, (mattr, mname)))) k =
    dget (fst (s_one d ([], []) ((a1, a2), names, (mattr, mname)))) k /\
  dget (snd (s_one d st ((a1, a2), names, (mattr, mname)))) k =
    dget (snd (s_one d ([], []) ((a1, a2), names, (mattr, mname)))) k.
Proof.
  intros Hk [N1 N2]. destruct st as [a gt]. cbn [fst snd] in *. cbn [s_one].
  destruct (find_pair d names) as [[[n1 v1] [n2 v2]]|]; [|auto].
  destruct (dget d mname); cbn [fst snd]; rewrite !dget_dset; cbn [dget]; rewrite N1, N2; auto.
Qed.
