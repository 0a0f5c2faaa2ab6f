(** Theorems about the variables of a staggered grid as its attributes (C92). *)
From Coq Require Import String.
From Verif Require Import Common CommonProofs GridTypeModel GridTypeProofs VerdatModel SAttrModel SVarModel SSaveModel SSaveProofs SNameModel SNameSpec.
Open Scope string_scope.
Open Scope list_scope.
Open Scope nat_scope.

Lemma isin_in n l : isin n l = true <-> In n l.
Proof.
  unfold isin. rewrite existsb_exists. split.
  - intros (x & H & E). apply String.eqb_eq in E. now subst.
  - intros H. exists n. split; auto. apply String.eqb_refl.
Qed.
Lemma isin_not n l : isin n l = false <-> ~ In n l.
Proof. rewrite <- isin_in. destruct (isin n l); intuition congruence. Qed.
Lemma slot_slots n : slot n = n \/ In (slot n) parts.
Proof.
  unfold slot. destruct (isin n _) eqn:E.
  - right. apply isin_in in E. cbn in E. destruct E as [<-|[<-|[<-|[<-|[<-|[]]]]]]; apply isin_in; reflexivity.
  - destruct (String.eqb n "center_padding"); [right; apply isin_in; reflexivity|now left].
Qed.
Lemma free_slot gs n : ~ Reserved gs n -> slot n = n /\ ~ In n (parts ++ base_parts) /\ ~ In n (read_only gs).
Proof.
  intros H. destruct (slot_slots n) as [E|E].
  - unfold Reserved in H. rewrite E in H. tauto.
  - destruct H. left. apply in_or_app. auto.
Qed.

Section Naming.
  Context {P D : Type} (describe : obj P D -> svar -> result D).

  Lemma set_variables_step ro o v r o' : set_variables describe ro o (v :: r) = Ok o' ->
    exists d, describe o v = Ok d /\ ~ In (sv_name v) ro /\ set_variables describe ro (dset o (slot (sv_name v)) (Vari d)) r = Ok o'.
  Proof.
    cbn [set_variables]. intros E. apply bind_ok in E as (d & Ed & E). unfold setattr in E. destruct (isin (sv_name v) ro) eqn:R; [discriminate|].
    cbn [bind] in E. exists d. repeat split; auto. now apply isin_not.
  Qed.
  Lemma set_variables_kept ro vs n : forall o o', set_variables describe ro o vs = Ok o' -> (forall v, In v vs -> slot (sv_name v) <> n) -> dget o' n = dget o n.
  Proof.
    induction vs as [|v r IH]; intros o o' E H; [now injection E as <-|].
    apply set_variables_step in E as (d & _ & _ & E). rewrite (IH _ _ E); [|intros; apply H; now right].
    rewrite dget_dset. destruct (String.eqb_spec n (slot (sv_name v))) as [->|]; [|reflexivity]. destruct (H v (or_introl eq_refl)). reflexivity.
  Qed.
  Lemma set_variables_var ro vs n : forall o o', set_variables describe ro o vs = Ok o' -> (exists v, In v vs /\ slot (sv_name v) = n) -> exists d, dget o' n = Some (Vari d).
  Proof.
    induction vs as [|w r IH]; intros o o' E (v & Hv & Ev); [destruct Hv|]. apply set_variables_step in E as (d & _ & _ & E).
    destruct (existsb (fun u => String.eqb (slot (sv_name u)) n) r) eqn:X.
    - apply existsb_exists in X as (u & Hu & Eu). apply String.eqb_eq in Eu. eapply IH; eauto.
    - assert (No : forall y, In y r -> slot (sv_name y) <> n).
      { intros y Hy Ey. assert (existsb (fun u => String.eqb (slot (sv_name u)) n) r = true); [|congruence]. apply existsb_exists. exists y. split; auto. now apply String.eqb_eq. }
      exists d. rewrite (set_variables_kept _ _ _ _ _ E No). destruct Hv as [<-|Hv]; [|destruct (No v Hv Ev)]. now rewrite dget_dset, Ev, String.eqb_refl.
  Qed.
  (** With names of their own the variables are described as by the grid before
      any was added. *)
  Lemma set_variables_free gs : OnParts describe -> forall vs o o0, (forall v, In v vs -> ~ Reserved gs (sv_name v)) -> NoDup (map sv_name vs) ->
    (forall n, In n (parts ++ base_parts) -> dget o n = dget o0 n) ->
    ((exists o', set_variables describe (read_only gs) o vs = Ok o') <-> (forall v, In v vs -> exists d, describe o0 v = Ok d)) /\
    (forall o', set_variables describe (read_only gs) o vs = Ok o' ->
       (forall v, In v vs -> exists d, describe o0 v = Ok d /\ dget o' (sv_name v) = Some (Vari d)) /\
       (forall n, ~ In n (map sv_name vs) -> dget o' n = dget o n)).
  Proof.
    intros OP. induction vs as [|v r IH]; intros o o0 F N A.
    - split; [split; [intros _ v []|intros _; exists o; reflexivity]|]. intros o' E. injection E as <-. split; [intros v []|auto].
    - destruct (free_slot gs (sv_name v) (F v (or_introl eq_refl))) as (Es & Np & Nr). inversion N as [|? ? N1 N2]; subst.
      assert (Ed : describe o v = describe o0 v) by (apply OP; auto).
      assert (A' : forall d n, In n (parts ++ base_parts) -> dget (dset o (slot (sv_name v)) (Vari d)) n = dget o0 n).
      { intros d n Hn. rewrite dget_dset, Es. destruct (String.eqb_spec n (sv_name v)) as [->|]; [contradiction|auto]. }
      assert (F' : forall w, In w r -> ~ Reserved gs (sv_name w)) by (intros; apply F; now right).
      split.
      + split.
        * intros (o' & E). apply set_variables_step in E as (d & E1 & _ & E). intros w [<-|Hw]; [exists d; congruence|].
          destruct (IH _ o0 F' N2 (A' d)) as ((K & _) & _). eapply K; eauto.
        * intros H. destruct (H v (or_introl eq_refl)) as (d & Hd). destruct (IH _ o0 F' N2 (A' d)) as ((_ & K) & _).
          destruct K as (o' & E); [intros; apply H; now right|]. exists o'. cbn [set_variables]. rewrite Ed, Hd. cbn [bind]. unfold setattr.
          apply isin_not in Nr. rewrite Nr. exact E.
      + intros o' E. apply set_variables_step in E as (d & E1 & _ & E). destruct (IH _ o0 F' N2 (A' d)) as (_ & K). destruct (K _ E) as (K1 & K2). split.
        * intros w [<-|Hw]; [|auto]. exists d. split; [congruence|]. rewrite (K2 _ N1), dget_dset, Es, String.eqb_refl. reflexivity.
        * intros n Hn. cbn [map In] in Hn. rewrite K2 by tauto. rewrite dget_dset, Es. destruct (String.eqb_spec n (sv_name v)) as [->|]; [tauto|reflexivity].
  Qed.

  Lemma load_steps gs o vs o' : get_variable_attributes describe (read_only gs) o vs = Ok o' <->
    exists o1, set_variables describe (read_only gs) o vs = Ok o1 /\
      o' = dset (dset o1 "variables" (Names (map sv_name vs))) "grid_variables"
             (Names (map sv_name (filter (fun v => match attr v "grid" with Some _ => true | None => false end) vs))).
  Proof.
    unfold get_variable_attributes, setattr. destruct (set_variables describe (read_only gs) o vs) as [o1|e]; cbn [bind].
    - destruct gs; cbn [isin read_only app existsb]; cbn -[dset map filter]; (split; [intros [= <-]; eauto|intros (o2 & [= <-] & ->); reflexivity]).
    - split; [discriminate|intros (? & ? & _); discriminate].
  Qed.

  (** ** C92 *)
  (** With names of their own: the grid keeps its parts, and every variable is
      the attribute of its name. *)
Theorem c92_kept_partial : forall gs o vs, Fresh o -> OnParts describe -> (forall v, In v vs -> ~ Reserved gs (sv_name v)) -> NoDup (map sv_name vs) ->
    ((exists o', get_variable_attributes describe (read_only gs) o vs = Ok o') <-> (forall v, In v vs -> exists d, describe o v = Ok d)) /\
    (forall o', get_variable_attributes describe (read_only gs) o vs = Ok o' ->
       (forall n, In n (parts ++ base_parts) -> n <> "variables" -> n <> "grid_variables" -> dget o' n = dget o n) /\
       (forall v, In v vs -> exists d, describe o v = Ok d /\ getattr o' (sv_name v) = Own (Vari d)) /\
       (forall m, In m methods -> getattr o' m = Method)).
  Proof.
    intros gs o vs Fr OP F N. destruct (set_variables_free gs OP vs o o F N (fun _ _ => eq_refl)) as (K & K').
    assert (Sep : forall v, In v vs -> sv_name v <> "variables" /\ sv_name v <> "grid_variables").
    { intros v Hv. pose proof (F v Hv) as R. split; intros E; apply R; left; rewrite E; apply isin_in; reflexivity. }
    split.
    - rewrite <- K. split.
      + intros (o' & E). apply load_steps in E as (o1 & E & _). eauto.
      + intros (o1 & E). eexists. apply load_steps. eauto.
    - intros o' E. apply load_steps in E as (o1 & E & ->). destruct (K' _ E) as (K1 & K2).
      assert (Rest : forall n, n <> "variables" -> n <> "grid_variables" -> forall x y, dget (dset (dset o1 "variables" x) "grid_variables" y) n = dget o1 n).
      { intros n A B x y. rewrite !dget_dset. apply String.eqb_neq in A, B. now rewrite A, B. }
      repeat split.
      + intros n Hn A B. rewrite Rest by auto. apply K2. intros X. apply in_map_iff in X as (v & <- & Hv). destruct (free_slot gs _ (F v Hv)) as (_ & Q & _). contradiction.
      + intros v Hv. destruct (K1 v Hv) as (d & Ed & Eg). exists d. split; auto. unfold getattr. destruct (free_slot gs _ (F v Hv)) as (-> & _). destruct (Sep v Hv). now rewrite Rest, Eg.
      + intros m Hm. assert (Q : slot m = m /\ m <> "variables" /\ m <> "grid_variables" /\ ~ In m (parts ++ base_parts)).
        { assert (T : forallb (fun m => String.eqb (slot m) m && negb (String.eqb m "variables") && negb (String.eqb m "grid_variables") && negb (isin m (parts ++ base_parts))) methods = true) by (vm_compute; reflexivity).
          rewrite forallb_forall in T. specialize (T m Hm). rewrite !andb_true_iff, !negb_true_iff in T. destruct T as (((T1 & T2) & T3) & T4).
          apply String.eqb_eq in T1. apply String.eqb_neq in T2, T3. apply isin_not in T4. auto. }
        destruct Q as (Q1 & Q2 & Q3 & Q4). unfold getattr. rewrite Q1, Rest by auto. rewrite K2.
        * destruct (Fr m) as (_ & X). rewrite (X Q4). apply isin_in in Hm. now rewrite Hm.
        * intros X. apply in_map_iff in X as (v & E1 & Hv). destruct (F v Hv). right. right. now rewrite E1.
  Qed.
  (** The lists of names, whatever the names. *)
Theorem c92_lists : forall gs o vs o', get_variable_attributes describe (read_only gs) o vs = Ok o' ->
    dget o' "variables" = Some (Names (map sv_name vs)) /\
    (exists l, dget o' "grid_variables" = Some (Names l) /\ (forall n, In n l <-> exists v, In v vs /\ sv_name v = n /\ OnGrid v)) /\
    (NoDup (map sv_name vs) -> exists l, non_grid_variables o' = Ok l /\ forall n, In n l <-> exists v, In v vs /\ sv_name v = n /\ ~ OnGrid v).
  Proof.
    intros gs o vs o' E. apply load_steps in E as (o1 & _ & ->). set (g := map sv_name (filter _ vs)).
    assert (G : forall n, In n g <-> exists v, In v vs /\ sv_name v = n /\ OnGrid v).
    { intros n. unfold g. rewrite in_map_iff. split.
      - intros (v & <- & Hv). apply filter_In in Hv as (Hv & Q). exists v. repeat split; auto. destruct (attr v "grid") eqn:X; [|discriminate]. eexists; eauto.
      - intros (v & Hv & <- & (s & Q)). exists v. split; auto. apply filter_In. now rewrite Q. }
    split; [reflexivity || (rewrite !dget_dset; reflexivity)|]. split.
    - exists g. split; [rewrite dget_dset; reflexivity|exact G].
    - intros N. unfold non_grid_variables. rewrite !dget_dset. cbn [String.eqb Ascii.eqb Bool.eqb]. eexists. split; [reflexivity|]. intros n. rewrite filter_In, in_map_iff. split.
      + intros ((v & <- & Hv) & Q). exists v. repeat split; auto. intros O. apply negb_true_iff in Q. apply isin_not in Q. apply Q. apply G. eauto.
      + intros (v & Hv & <- & O). split; [eauto|]. apply negb_true_iff, isin_not. intros X. apply G in X as (w & Hw & Ew & Ow).
        assert (w = v); [|subst; contradiction]. revert N Hv Hw Ew. clear. induction vs as [|x r IH]; [intros _ []|]. intros N Hv Hw Ew. inversion N as [|? ? N1 N2]; subst.
        destruct Hv as [<-|Hv], Hw as [<-|Hw]; auto; [destruct N1; rewrite <- Ew; now apply in_map|destruct N1; rewrite Ew; now apply in_map].
  Qed.
  (** Every variable is the attribute of its name, but for the names of the lists. *)
Theorem c92_reachable : forall gs o vs v o', get_variable_attributes describe (read_only gs) o vs = Ok o' ->
    In v vs -> slot (sv_name v) <> "variables" -> slot (sv_name v) <> "grid_variables" ->
    exists d, getattr o' (sv_name v) = Own (Vari d).
  Proof.
    intros gs o vs v o' E Hv A B. apply load_steps in E as (o1 & E & ->). destruct (set_variables_var _ _ (slot (sv_name v)) _ _ E (ex_intro _ v (conj Hv eq_refl))) as (d & Hd).
    exists d. unfold getattr. rewrite !dget_dset. apply String.eqb_neq in A, B. now rewrite A, B, Hd.
  Qed.
  (** A variable with the name of a part takes its place. *)
Theorem c92_replaced_refuted : forall gs o vs v o', Fresh o -> get_variable_attributes describe (read_only gs) o vs = Ok o' ->
    In v vs -> In (slot (sv_name v)) (parts ++ base_parts) -> slot (sv_name v) <> "variables" -> slot (sv_name v) <> "grid_variables" ->
    (exists p, getattr o (sv_name v) = Own (Part p)) /\ exists d, getattr o' (sv_name v) = Own (Vari d).
  Proof.
    intros gs o vs v o' Fr E Hv R A B. split; [|eapply c92_reachable; eauto]. destruct (Fr (slot (sv_name v))) as (K & _). destruct (K R) as (p & Hp). exists p. unfold getattr. now rewrite Hp.
  Qed.
  (** One with the name of a property without a setter: no grid. *)
Theorem c92_read_only_refuted : forall gs o vs v o', In v vs -> In (sv_name v) (read_only gs) ->
    get_variable_attributes describe (read_only gs) o vs <> Ok o'.
  Proof.
    intros gs o vs v o' Hv R E. apply load_steps in E as (o1 & E & _). revert o o1 E Hv. induction vs as [|w r IH]; intros o o1 E Hv; [destruct Hv|].
    apply set_variables_step in E as (d & _ & N & E). destruct Hv as [<-|Hv]; [contradiction|eauto].
  Qed.
  (** One with the name of either list is not to be had from the grid. *)
Theorem c92_list_name_refuted : forall gs o vs v o', get_variable_attributes describe (read_only gs) o vs = Ok o' ->
    In v vs -> (sv_name v = "variables" \/ sv_name v = "grid_variables") -> exists l, getattr o' (sv_name v) = Own (Names l).
  Proof.
    intros gs o vs v o' E Hv H. apply load_steps in E as (o1 & _ & ->). unfold getattr.
    destruct H as [-> | ->]; cbn [slot isin existsb]; cbn -[dset dget map filter]; rewrite !dget_dset; cbn; eauto.
  Qed.
(** Such are all arguments of the constructor, and the properties. *)
Theorem c92_arguments_refuted : forall gs o vs v o', Fresh o -> get_variable_attributes describe (read_only gs) o vs = Ok o' ->
    In v vs -> In (sv_name v) arguments ->
    (exists p, getattr o (sv_name v) = Own (Part p)) /\ exists d, getattr o' (sv_name v) = Own (Vari d).
  Proof.
    intros gs o vs v o' Fr E Hv A. assert (C : forallb (fun n => isin (slot n) (parts ++ base_parts) && negb (String.eqb (slot n) "variables") && negb (String.eqb (slot n) "grid_variables")) arguments = true) by (vm_compute; reflexivity).
    rewrite forallb_forall in C. specialize (C _ A). apply andb_true_iff in C as (C & C3). apply andb_true_iff in C as (C1 & C2). apply isin_in in C1.
    apply negb_true_iff, String.eqb_neq in C2, C3. eapply c92_replaced_refuted; eauto.
  Qed.
Theorem c92_properties_refuted : forall gs o vs v o', In v vs -> Property gs (sv_name v) -> get_variable_attributes describe (read_only gs) o vs <> Ok o'.
  Proof.
    intros gs o vs v o' Hv Pr. apply (c92_read_only_refuted gs o vs v o' Hv). destruct Pr as [Pr|(-> & ->)]; [|vm_compute; auto 8].
    unfold read_only. apply in_or_app. left. destruct Pr as [<-|[<-|[<-|[<-|[]]]]]; cbn; auto.
  Qed.
Theorem c92_errors : forall gs o v vs e, (describe o v = Err e -> get_variable_attributes describe (read_only gs) o (v :: vs) = Err e) /\
    (forall d, describe o v = Ok d -> In (sv_name v) (read_only gs) -> get_variable_attributes describe (read_only gs) o (v :: vs) = Err AttributeError).
  Proof.
    intros gs o v vs e. split.
    - intros E. unfold get_variable_attributes. cbn [set_variables]. now rewrite E.
    - intros d E R. unfold get_variable_attributes. cbn [set_variables]. rewrite E. cbn [bind]. unfold setattr. apply isin_in in R. now rewrite R.
  Qed.
End Naming.
Print Assumptions c92_kept_partial.
Print Assumptions c92_lists.
Print Assumptions c92_reachable.
Print Assumptions c92_replaced_refuted.
Print Assumptions c92_read_only_refuted.
Print Assumptions c92_list_name_refuted.
Print Assumptions c92_arguments_refuted.
Print Assumptions c92_properties_refuted.
Print Assumptions c92_errors.

(** ** Example: a grid whose node coordinates are in variables of any names. *)
Definition demo_obj : obj string string := map (fun n => (n, Part n)) (parts ++ base_parts).
Definition demo_describe (_ : obj string string) (v : svar) : result string := Ok (sv_name v).
Definition demo_svar (n : string) (on : bool) : svar := mkSvar n ["y"; "x"] (if on then [("grid", "grid")] else []) None [2; 3].
Example c92_example :
  (exists o, get_variable_attributes demo_describe (read_only true) demo_obj [demo_svar "lon_psi" false; demo_svar "u" true] = Ok o /\
     getattr o "node_lon" = Own (Part "node_lon") /\ getattr o "u" = Own (Vari "u") /\ getattr o "infer_location" = Method /\
     non_grid_variables o = Ok ["lon_psi"]) /\
  (exists o, get_variable_attributes demo_describe (read_only true) demo_obj [demo_svar "node_lon" false; demo_svar "center_padding" true; demo_svar "locate_faces" true] = Ok o /\
     getattr o "node_lon" = Own (Vari "node_lon") /\ getattr o "face_padding" = Own (Vari "center_padding") /\ getattr o "locate_faces" = Own (Vari "locate_faces")) /\
  get_variable_attributes demo_describe (read_only true) demo_obj [demo_svar "u" true; demo_svar "shape" false] = Err AttributeError /\
  (exists o, get_variable_attributes demo_describe (read_only false) demo_obj [demo_svar "u" true; demo_svar "shape" false] = Ok o) /\
  Fresh demo_obj /\ OnParts demo_describe.
Proof.
  split; [eexists; split; [vm_compute; reflexivity|repeat split]|]. split; [eexists; split; [vm_compute; reflexivity|repeat split]|].
  split; [reflexivity|]. split; [eexists; vm_compute; reflexivity|]. split; [|intros o o' v _; reflexivity].
  intros n. unfold demo_obj. generalize (parts ++ base_parts). intros l. split.
  - intros H. induction l as [|x l IH]; [destruct H|]. cbn [map dget]. destruct (String.eqb_spec n x) as [->|]; [eauto|]. apply IH. destruct H; [congruence|auto].
  - intros H. induction l as [|x l IH]; [reflexivity|]. cbn [map dget]. destruct (String.eqb_spec n x) as [->|]; [destruct H; now left|]. apply IH. intros X. apply H. now right.
Qed.
