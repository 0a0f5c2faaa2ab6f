(** Whole-array interpolation on a triangle mesh. *)
From Coq Require Import Lqa.
From Verif Require Import Common CommonProofs VariableModel VariableSpec VariableProofs
  DepthModel DepthProofs UGridModel UGridGeomModel UGridGeomSpec UGridGeomProofs UGridLocProofs.
Open Scope Z_scope.

Lemma last_exists {A} (l : list A) : l <> [] -> exists x, nth_error l (length l - 1) = Some x.
Proof. intros H. apply nth_error_lt_Some. destruct l; [congruence|cbn; lia]. Qed.

Lemma face_interp data inds : data <> [] -> Numbers data -> Forall (GoodIndex (length data)) inds ->
  exists vs, interp_values [] VFace data inds [] = Ok (Some vs) /\ length vs = length inds /\
    forall k i, nth_error inds k = Some i -> exists q, nth_error vs k = Some (CVal q) /\
      (i = -1 -> (q == 0)%Q) /\ (forall m, i = Z.of_nat m -> nth_error data m = Some (CVal q)).
Proof.
  intros Hne Hnum Hi. rewrite Forall_forall in Hi. unfold Numbers in Hnum. rewrite Forall_forall in Hnum.
  destruct (mapM_rows_in (face_value data)
     (fun i c => exists q, c = CVal q /\ (i = -1 -> (q == 0)%Q) /\
        (forall m, i = Z.of_nat m -> nth_error data m = Some (CVal q))) inds) as (vs & E & L & K).
  - intros i Hin. destruct (Hi i Hin) as [->|Hr].
    + destruct (last_exists data Hne) as [v Hv]. destruct (Hnum v) as [q ->]; [eapply nth_error_In; eauto|].
      rewrite (face_value_outside _ _ Hv). eexists. split; [reflexivity|]. cbn [cell_mul].
      eexists. split; [reflexivity|]. split; [intros _; ring|]. intros m Hm. lia.
    + destruct (nth_error_lt_Some data (Z.to_nat i)) as [v Hv]; [lia|].
      destruct (Hnum v) as [q ->]; [eapply nth_error_In; eauto|].
      rewrite (face_value_inside data i (Z.to_nat i) (CVal q)) by (auto; lia).
      eexists. split; [reflexivity|]. eexists. split; [reflexivity|]. split; [lia|].
      intros m ->. rewrite Nat2Z.id in Hv. exact Hv.
  - exists vs. cbn [interp_values]. rewrite E. cbn [bind]. split; auto. split; auto.
    intros k i Hk. destruct (K _ _ Hk) as (y & Hy & q & -> & H). eauto.
Qed.

Lemma numbers_at data n A (nodes : list A) (x : A) : Numbers data -> length data = length nodes ->
  nth_error nodes n = Some x -> exists q, nth_error data n = Some (CVal q).
Proof.
  intros Hn Hl H. apply nth_error_Some_lt in H. rewrite <- Hl in H.
  destruct (nth_error_lt_Some data n H) as [c Hc]. unfold Numbers in Hn. rewrite Forall_forall in Hn.
  destruct (Hn c) as [q ->]; [eapply nth_error_In; eauto|]. eauto.
Qed.
Lemma node_point nodes faces data p i :
  TriMesh nodes faces -> Numbers data -> length data = length nodes -> GoodIndex (length faces) i ->
  exists al q, alpha_row nodes faces p i = Ok al /\ node_value faces data al i = Ok (CVal q) /\
    NodeValue nodes faces data p i q.
Proof.
  intros [Hne HT] Hnum Hlen [->|Hr].
  - destruct (last_exists faces Hne) as [f Hf].
    destruct (HT f) as (a & b & c & A & B & C & -> & HA & HB & HC & Hx); [eapply nth_error_In; eauto|].
    destruct (numbers_at data a _ nodes A Hnum Hlen HA) as [va Ha].
    destruct (numbers_at data b _ nodes B Hnum Hlen HB) as [vb Hb].
    destruct (numbers_at data c _ nodes C Hnum Hlen HC) as [vc Hc].
    destruct (node_value_outside nodes faces data p _ _ _ A B C va vb vc Hf
                (py_get_nat _ _ _ HA) (py_get_nat _ _ _ HB) (py_get_nat _ _ _ HC)
                (py_get_nat _ _ _ Ha) (py_get_nat _ _ _ Hb) (py_get_nat _ _ _ Hc) Hx)
      as (al & q & E1 & E2 & E3).
    exists al, q. split; auto. split; auto. split; auto. intros k Hk. lia.
  - destruct (nth_error_lt_Some faces (Z.to_nat i)) as [f Hf]; [lia|].
    destruct (HT f) as (a & b & c & A & B & C & -> & HA & HB & HC & Hx); [eapply nth_error_In; eauto|].
    destruct (numbers_at data a _ nodes A Hnum Hlen HA) as [va Ha].
    destruct (numbers_at data b _ nodes B Hnum Hlen HB) as [vb Hb].
    destruct (numbers_at data c _ nodes C Hnum Hlen HC) as [vc Hc].
    destruct (node_value_inside nodes faces data p i (Z.to_nat i) _ _ _ A B C va vb vc ltac:(lia) Hf
                (py_get_nat _ _ _ HA) (py_get_nat _ _ _ HB) (py_get_nat _ _ _ HC)
                (py_get_nat _ _ _ Ha) (py_get_nat _ _ _ Hb) (py_get_nat _ _ _ Hc) Hx)
      as (al & u & v & w & q & E1 & -> & HCo & E2 & E3).
    exists [CVal u; CVal v; CVal w], q. split; auto. split; auto. split; [lia|].
    intros k ->. rewrite Nat2Z.id in Hf. exists a, b, c, A, B, C, va, vb, vc, u, v, w. auto 12.
Qed.
Lemma node_interp nodes faces data pts inds :
  TriMesh nodes faces -> Numbers data -> length data = length nodes ->
  Forall (GoodIndex (length faces)) inds -> length inds = length pts ->
  exists al vs, interpolation_alphas nodes faces pts inds = Ok al /\
    interp_values faces VNode data inds al = Ok (Some vs) /\ length vs = length pts /\
    forall k p i, nth_error pts k = Some p -> nth_error inds k = Some i ->
      exists q, nth_error vs k = Some (CVal q) /\ NodeValue nodes faces data p i q.
Proof.
  intros HT Hnum Hlen Hi. unfold interpolation_alphas. cbn [interp_values].
  revert pts. induction Hi as [|i inds Hi1 Hi IH]; intros [|p pts] HL; cbn [length] in HL; try lia.
  - exists [], []. cbn. repeat split; auto. intros [|k] p i; discriminate.
  - destruct (IH pts) as (al & vs & E1 & E2 & L & K); [lia|].
    destruct (node_point nodes faces data p i HT Hnum Hlen Hi1) as (a & q & F1 & F2 & F3).
    exists (a :: al), (CVal q :: vs). cbn [combine mapM fst snd]. rewrite F1. cbn [bind]. rewrite E1. cbn [bind].
    split; auto. apply bind_ok in E2. destruct E2 as (vs' & E2 & E3). injection E3 as ->.
    cbn [combine mapM fst snd]. rewrite F2. cbn [bind]. rewrite E2. cbn [bind]. split; auto.
    split; [cbn; lia|]. intros [|k] p' i' Hp Hi'; cbn [nth_error] in *; eauto.
    injection Hp as <-. injection Hi' as <-. eauto.
Qed.

(** ** The search on a counter-clockwise triangle mesh *)
Lemma contains_ccw nodes p f : (exists a b c A B C,
    f = [Z.of_nat a; Z.of_nat b; Z.of_nat c] /\
    nth_error nodes a = Some A /\ nth_error nodes b = Some B /\ nth_error nodes c = Some C /\
    (0 < Cross A B C)%Q) ->
  (contains nodes p f <-> NearFace epsilon nodes p f).
Proof.
  intros (a & b & c & A & B & C & -> & HA & HB & HC & Hx).
  assert (E : face_points nodes [Z.of_nat a; Z.of_nat b; Z.of_nat c] = Ok [A; B; C]).
  { unfold face_points. cbn [mapM]. rewrite (py_get_nat _ _ _ HA), (py_get_nat _ _ _ HB), (py_get_nat _ _ _ HC).
    reflexivity. }
  unfold contains, NearFace. split.
  - intros (A' & B' & C' & r & E' & H). rewrite E in E'. injection E' as <- <- <- <-.
    exists a, b, c, A, B, C. split; auto. repeat split; auto. apply point_in_tri_ccw; auto.
  - intros (a' & b' & c' & A' & B' & C' & Ef & HA' & HB' & HC' & H).
    injection Ef as E1 E2 E3. apply Nat2Z.inj in E1, E2, E3. subst a' b' c'.
    exists A, B, C, []. split; auto. rewrite HA in HA'. rewrite HB in HB'. rewrite HC in HC'.
    injection HA' as <-. injection HB' as <-. injection HC' as <-. apply point_in_tri_ccw; auto.
Qed.
Lemma FirstIndex_ext {A} (P Q : A -> Prop) l i : (forall x, In x l -> (P x <-> Q x)) ->
  FirstIndex P l i -> FirstIndex Q l i.
Proof.
  intros H [(k & x & -> & Hk & Hx & Hpre)|(-> & Hn)].
  - left. exists k, x. split; auto. split; auto. split.
    + apply H; auto. eapply nth_error_In; eauto.
    + intros j y Hj Hy HQ. apply (Hpre j y Hj Hy). apply H; auto. eapply nth_error_In; eauto.
  - right. split; auto. intros x Hx HQ. apply (Hn x Hx). apply H; auto.
Qed.
Lemma ccw_valid nodes faces : CcwMesh nodes faces -> Forall (valid_face nodes) faces.
Proof.
  intros [_ H]. apply Forall_forall. intros f Hf.
  destruct (H f Hf) as (a & b & c & A & B & C & -> & HA & HB & HC & _).
  apply nth_error_Some_lt in HA, HB, HC. split; [cbn; lia|].
  intros x [<-|[<-|[<-|[]]]]; lia.
Qed.
Lemma simple_ccw nodes faces pts : CcwMesh nodes faces ->
  exists l, locate_simple nodes faces pts = Ok l /\
    Forall2 (fun p i => FirstIndex (NearFace epsilon nodes p) faces i) pts l.
Proof.
  intros HM. destruct (locate_simple_total nodes faces pts (ccw_valid _ _ HM)) as [l Hl].
  exists l. split; auto. apply locate_simple_spec in Hl; [|apply HM].
  clear - HM Hl. induction Hl as [|p i pts l Hp _ IH]; constructor; auto.
  revert Hp. apply FirstIndex_ext. intros f Hf. apply contains_ccw. apply HM. auto.
Qed.
