(** Lemmas about loading variables. *)
From Coq Require Import String Ascii.
From Verif Require Import Common CommonProofs TimeModel IsoModel GridTypeModel GridTypeSpec GridTypeProofs MaskModel MaskSpec MaskProofs
  TFileModel TFileSpec TFileProofs TFileProps LoadModel LoadSpec.
Open Scope string_scope.
Open Scope list_scope.
Open Scope nat_scope.

Lemma valid_iff l : isin l valid_locations = true <-> ValidLocation l.
Proof. rewrite isin_in. unfold ValidLocation. cbn. intuition. Qed.

Lemma grid_name_iff g k : is_grid_name g k = true <-> GridName g k.
Proof.
  unfold is_grid_name, GridName. rewrite existsb_exists. split.
  - intros ([role text] & H & E). apply isin_in in E. exists role, text, (split text). repeat split; auto. apply split_words.
  - intros (role & text & words & H & W & K). exists (role, text). split; auto. cbn [snd]. apply isin_in.
    rewrite (split_unique _ _ W). exact K.
Qed.

Lemma find_location_iff g v l : find_location g v = Ok (Some l) <-> LocationOf g v l.
Proof.
  unfold find_location, LocationOf. destruct (dget (lv_attrs v) "location") as [a|].
  - destruct (isin a valid_locations) eqn:E.
    + apply valid_iff in E. split.
      * intros H. injection H as <-. auto.
      * intros [[H _]|[H _]]; [congruence|]. exfalso. apply (H a); auto.
    + assert (N : ~ ValidLocation a). { intros V. apply valid_iff in V. congruence. }
      split.
      * intros H. right. split; auto. intros l' H'. injection H' as <-. exact N.
      * intros [[H V]|[_ H]]; auto. injection H as ->. contradiction.
  - split.
    + intros H. right. split; auto. discriminate.
    + intros [[H _]|[_ H]]; auto. discriminate.
Qed.

Lemma locate_iff f v : 
  (forall n, locate_time (tfile_of f) (tvar_of v) = Ok (Some n) <-> TimeAxisOf f v n) /\
  (lv_dims v <> [] -> locate_time (tfile_of f) (tvar_of v) = Ok None <-> forall n, ~ TimeAxisOf f v n) /\
  (locate_time (tfile_of f) (tvar_of v) = Ok None -> forall n, ~ TimeAxisOf f v n).
Proof.
  pose proof (c76_locate (tfile_of f) (tvar_of v)) as L.
  cbn [tvar_of tfile_of tv_time tf_dims tv_dims] in L.
  assert (U : forall n m, TimeAxisOf f v n -> TimeAxisOf f v m -> n = m).
  { intros n m [[A B]|(A & (r & B) & C)] [[A' B']|(A' & (r' & B') & C')].
    - congruence.
    - exfalso. apply (A' n). split; auto.
    - exfalso. apply (A m). split; auto.
    - rewrite B in B'. congruence. }
  assert (NA : (forall t, dget (lv_attrs v) "time" = Some t -> ~ In t (lf_dims f)) -> forall m, ~ AttrAxis f v m).
  { intros H m [A B]. apply (H m); auto. }
  destruct (locate_time (tfile_of f) (tvar_of v)) as [[n|]|e].
  - assert (T : TimeAxisOf f v n).
    { destruct L as [[A B]|(A & B & C)]; [left; split; auto|right; repeat split; auto]. }
    split; [|split].
    + intros m. split; [intros E; injection E as <-; exact T|]. intros T'. now rewrite (U _ _ T T').
    + intros _. split; [discriminate|]. intros H. exfalso. apply (H n T).
    + discriminate.
  - destruct L as (A & d & r & B & C).
    assert (N : forall n, ~ TimeAxisOf f v n).
    { intros n [H|(_ & (r' & B') & C')]; [apply (NA A n H)|]. rewrite B in B'. injection B' as -> ->. contradiction. }
    split; [|split]; auto.
    + intros n. split; [discriminate|]. intros T. exfalso. apply (N n T).
    + intros _. split; auto.
  - destruct L as (-> & B & A).
    assert (N : forall n, ~ TimeAxisOf f v n).
    { intros n [H|(_ & (r' & B') & C')]; [apply (NA A n H)|]. congruence. }
    split; [|split]; auto.
    + intros n. split; [discriminate|]. intros T. exfalso. apply (N n T).
    + intros H. contradiction.
Qed.

Lemma dec_inj a b : dec a = dec b -> a = b.
Proof.
  unfold dec. intros H. apply (f_equal DecimalString.NilEmpty.uint_of_string) in H.
  rewrite !DecimalString.NilEmpty.usu in H. injection H as H.
  apply (f_equal N.of_uint) in H. now rewrite !DecimalN.Unsigned.of_to in H.
Qed.
Lemma default_name_inj a b : default_name a = default_name b -> a = b.
Proof. unfold default_name. cbn [append]. intros H. injection H as H. apply dec_inj in H. lia. Qed.

(** The parts of a successful load. *)
Section Parts.
  Context (dateutil : string -> dparse) (cftime : string -> option (Z * Z * Z)) (read_depth : result unit).
  Lemma load_parts g f c a r : load_variable dateutil cftime read_depth g f c a = Ok r ->
    exists v t b d l, dget (lf_vars f) (la_varname a) = Some v /\
      load_time dateutil cftime f v a = Ok (t, b) /\ load_depth read_depth g v b a = Ok d /\
      construct g (dget (lv_attrs v) "location") (lv_shape v)
        (match la_loc a with Some l => Some l | None => dget (lv_attrs v) "location" end) t = Ok l /\
      r = mkVar (match la_name a with Some n => n | None => default_name c end)
            (match la_units a with Some u => Some u | None => dget (lv_attrs v) "units" end)
            t d l (la_varname a) (lv_attrs v) (lv_shape v).
  Proof.
    unfold load_variable. destruct (dget (lf_vars f) (la_varname a)) as [v|] eqn:Ev; [|discriminate]. intros H.
    destruct (load_time dateutil cftime f v a) as [[t b]|e] eqn:Et; [|discriminate]. cbn [bind fst snd] in H.
    destruct (load_depth read_depth g v b a) as [d|e] eqn:Ed; [|discriminate]. cbn [bind] in H.
    match type of H with context [construct ?A ?B ?C ?D ?E] => destruct (construct A B C D E) as [l|e] eqn:El; [|discriminate] end.
    cbn [bind] in H. injection H as <-. exists v, t, b, d, l. repeat split; auto.
  Qed.
End Parts.
  Lemma construct_ok g h shape loc t l : construct g h shape loc t = Ok l ->
    ValidLocation l /\ (forall l', loc = Some l' -> l = l') /\ (loc = None -> ga_infer g h shape = Ok (Some l)) /\
    exists d rest, shape = d :: rest /\ (times t <= 1 \/ times t = d).
  Proof.
    unfold construct. intros H.
    assert (K : exists m, (match shape with
      | [] => Err IndexError
      | d :: _ => if negb (times t =? d) && (1 <? times t) then Err ValueError else Ok m
      end = Ok l) /\ ValidLocation m /\ (forall l', loc = Some l' -> m = l') /\ (loc = None -> ga_infer g h shape = Ok (Some m))).
    { destruct loc as [l'|]; cbn [check_location bind] in H.
      - destruct (isin l' valid_locations) eqn:V; cbn [bind] in H; [|discriminate]. exists l'. apply valid_iff in V.
        repeat split; auto; congruence.
      - destruct (ga_infer g h shape) as [[m|]|] eqn:I; cbn [bind] in H; try discriminate.
        cbn [check_location] in H. destruct (isin m valid_locations) eqn:V; cbn [bind] in H; [|discriminate].
        exists m. apply valid_iff in V. repeat split; auto; congruence. }
    destruct K as (m & E & V & A & B). destruct shape as [|d rest]; [discriminate|].
    destruct (negb (times t =? d) && (1 <? times t)) eqn:C; [discriminate|]. injection E as <-.
    repeat split; auto. exists d, rest. split; auto.
    apply andb_false_iff in C. rewrite negb_false_iff, Nat.eqb_eq, Nat.ltb_ge in C. tauto.
  Qed.
