(** C60: the SGRID padding and axes attributes parse faithfully. *)
From Coq Require Import String Ascii.
From Verif Require Import Common MaskModel GridTypeModel ChainModel VerdatModel VerdatText SAttrModel SAttrSpec SAttrProofs SAttrParse.
Open Scope string_scope.
Open Scope list_scope.
Open Scope nat_scope.

(** Entries written with legal names and ordinary text around them come back
    exactly, in order. *)
Theorem c60_entries : forall l s, l <> [] -> Clean l s ->
  parse_padding s = Ok (map (fun t => let '(f, n, p) := t in mkPadding f n p) l).
Proof.
  intros l s N C. unfold parse_padding, findall. rewrite (scan_clean _ _ C), (mapM_padding _ (clean_legal _ _ C)).
  cbn [bind]. rewrite map_length. destruct l; [contradiction|]. reflexivity.
Qed.
Print Assumptions c60_entries.

Definition roms_entries := [("xi_rho", "xi_psi", "both"); ("eta_rho", "eta_psi2", "low")].
Example c60_entries_ex : Clean roms_entries "xi_rho: xi_psi (padding: both) eta_rho: eta_psi2 (padding: low)" /\
  parse_padding "xi_rho: xi_psi (padding: both) eta_rho: eta_psi2 (padding: low)"
  = Ok [mkPadding "xi_rho" "xi_psi" "both"; mkPadding "eta_rho" "eta_psi2" "low"].
Proof.
  split; [|reflexivity].
  assert (W : forall s, all_chars is_word s = true -> s <> "" -> Name s).
  { intros s A N. split; auto. now apply (every_iff _ _ word_iff). }
  assert (L : forall s, all_chars is_alpha s = true -> s <> "" -> Letters s).
  { intros s A N. split; auto. now apply (every_iff _ _ alpha_iff). }
  apply (clean_entry "" ("xi_rho", "xi_psi", "both") _ " eta_rho: eta_psi2 (padding: low)").
  - split; [exact I|now left].
  - split; [|split]; [apply W|apply W|apply L]; try reflexivity; discriminate.
  - apply (clean_entry " " ("eta_rho", "eta_psi2", "low") _ "").
    + split; [cbn; split; [discriminate|exact I]|]. right. exists "", " "%char. split; auto.
      intros H. apply word_not in H. tauto.
    + split; [|split]; [apply W|apply W|apply L]; try reflexivity; discriminate.
    + apply clean_end. exact I.
Qed.

(** Whatever the text: what comes back is written there, in that order. *)
Theorem c60_written : forall s l, parse_padding s = Ok l ->
  exists ts, ts <> [] /\ Laid ts s /\ l = map (fun t => let '(f, n, p) := t in mkPadding f n p) ts.
Proof.
  intros s l H. destruct (parse_shape s) as (ts & L & E & _). rewrite E in H.
  destruct ts as [|t ts]; [discriminate|]. injection H as <-. exists (t :: ts). repeat split; auto. discriminate.
Qed.
Print Assumptions c60_written.
Example c60_written_ex : parse_padding "faces -- xi: psi (padding: none); rest: odd (padding 3)" = Ok [mkPadding "xi" "psi" "none"].
Proof. reflexivity. Qed.

(** ValueError exactly when no entry is written anywhere in the text. *)
Theorem c60_none : forall s,
  parse_padding s = Err ValueError <-> ~ exists a t b, LegalEntry t /\ s = (a ++ entry_text t ++ b)%string.
Proof.
  intros s. destruct (parse_shape s) as (ts & L & E & N). rewrite E. destruct ts as [|t ts].
  - split; auto.
  - split; [discriminate|]. intros H. exfalso. apply H.
    inversion L as [|g t' l s' T L']; subst. eauto 6.
Qed.
Print Assumptions c60_none.
(** ... and there is no other outcome. *)
Theorem c60_outcome : forall s, (exists l, parse_padding s = Ok l /\ l <> []) \/ parse_padding s = Err ValueError.
Proof.
  intros s. destruct (parse_shape s) as (ts & L & E & N). rewrite E. destruct ts as [|t ts]; [now right|].
  left. eexists. split; [reflexivity|discriminate].
Qed.
Print Assumptions c60_outcome.
Example c60_none_ex : parse_padding "xi_rho xi_psi (padding: both)" = Err ValueError /\
  parse_padding "xi_rho: xi_psi  (padding: both)" = Err ValueError /\ parse_padding "" = Err ValueError.
Proof. repeat split. Qed.

(** Entries whose face dimension has a character outside [a-zA-Z0-9_] are
    misread: only the end of the name is taken. *)
Theorem c60_odd_names_refuted : exists f n p, Every (fun c => c <> ":"%char /\ c <> " "%char) f /\
  parse_padding (Entry f n p) = Ok [mkPadding "rho" n p] /\ f <> "rho".
Proof. exists "xi-rho", "xi_psi", "both". repeat split; try discriminate. Qed.
Print Assumptions c60_odd_names_refuted.

(** Each axis gets the coordinate written last for it. *)
Theorem c60_axes : forall l s x y z, Axes0 l s -> Given "x" l x -> Given "y" l y -> Given "z" l z ->
  parse_axes s = Ok (x, y, z).
Proof.
  intros l s x y z A X Y Z. unfold parse_axes, findall. rewrite (scan_axes0 _ _ A).
  rewrite axis_steps_put by (eapply axes0_legal; eauto).
  apply fold_given in X; [|now left]. apply fold_given in Y; [|now right; left]. apply fold_given in Z; [|now right; right].
  destruct (fold_left put_axis l (None, None, None)) as [[a b] c]. cbn in X, Y, Z. now subst.
Qed.
Print Assumptions c60_axes.

Lemma sep_space : Sep " ".
Proof.
  split; [cbn; split; [discriminate|exact I]|]. right. exists " "%char, "". split; auto.
  intros [H|H]; [apply letter_not in H; tauto|discriminate].
Qed.
Definition LegalOpt (v : option string) : Prop := match v with Some n => PlainName n | None => True end.
Definition listed (c : ascii) (v : option string) : list (ascii * string) := match v with Some n => [(c, n)] | None => [] end.
Lemma write_axes0 : forall x y z, LegalOpt x -> LegalOpt y -> LegalOpt z ->
  Axes0 (listed "X" x ++ listed "Y" y ++ listed "Z" z) (write_axes (x, y, z)).
Proof.
  assert (B : forall c, Letter c -> forall n, PlainName n -> LegalAxis (c, n)) by (intros; split; auto).
  assert (LX : Letter "X") by (right; unfold UpperC; cbn; lia).
  assert (LY : Letter "Y") by (right; unfold UpperC; cbn; lia).
  assert (LZ : Letter "Z") by (right; unfold UpperC; cbn; lia).
  assert (N : Axes [] "") by (constructor; split; [exact I|now left]).
  assert (C1 : forall a, LegalAxis a -> Axes [a] (" " ++ axis_text a)%string).
  { intros a L. rewrite <- (app_nil_s (axis_text a)). apply axes_cons; auto; [exact sep_space|discriminate]. }
  assert (C2 : forall a b, LegalAxis a -> LegalAxis b -> Axes [a; b] (" " ++ axis_text a ++ " " ++ axis_text b)%string).
  { intros a b L L'. apply axes_cons; auto; [exact sep_space|discriminate]. }
  intros [x|] [y|] [z|]; cbn [LegalOpt]; intros X Y Z; cbn [listed app Axes0];
    try (split; [now apply B|]); try exact I.
  all: exists "".
  - exists (" " ++ axis_text ("Y"%char, y) ++ " " ++ axis_text ("Z"%char, z))%string.
    split; [exact I|]. split; [|apply C2; now apply B]. cbn. now rewrite ?app_s.
  - exists (" " ++ axis_text ("Y"%char, y))%string.
    split; [exact I|]. split; [|apply C1; now apply B]. cbn. now rewrite ?app_s.
  - exists (" " ++ axis_text ("Z"%char, z))%string.
    split; [exact I|]. split; [|apply C1; now apply B]. cbn. now rewrite ?app_s.
  - exists "". split; [exact I|]. split; [|exact N]. cbn. now rewrite app_nil_s.
  - exists (" " ++ axis_text ("Z"%char, z))%string.
    split; [exact I|]. split; [|apply C1; now apply B]. cbn. now rewrite ?app_s.
  - exists "". split; [exact I|]. split; [|exact N]. cbn. now rewrite app_nil_s.
  - exists "". split; [exact I|]. split; [|exact N]. cbn. now rewrite app_nil_s.
Qed.

(** Saving the axes of a variable and reading them back. *)
Theorem c60_axes_round_trip : forall x y z, LegalOpt x -> LegalOpt y -> LegalOpt z ->
  parse_axes (write_axes (x, y, z)) = Ok (x, y, z).
Proof.
  intros x y z X Y Z. apply (c60_axes (listed "X" x ++ listed "Y" y ++ listed "Z" z)).
  - now apply write_axes0.
  - assert (NZ : ~ SameLetter "Z" "x") by (rewrite same_letter by (now left); discriminate).
    assert (NY : ~ SameLetter "Y" "x") by (rewrite same_letter by (now left); discriminate).
    assert (SX : SameLetter "X" "x") by (apply same_letter; [now left|reflexivity]).
    destruct z; cbn [listed]; rewrite ?app_nil_r, ?app_assoc; [apply given_other; auto|];
    (destruct y; cbn [listed]; rewrite ?app_nil_r; [apply given_other; auto|]);
    (destruct x; cbn [listed]; [apply (given_last _ []); auto|constructor]).
  - assert (D : Direction "y") by (right; now left).
    assert (NZ : ~ SameLetter "Z" "y") by (rewrite same_letter by auto; discriminate).
    assert (NX : ~ SameLetter "X" "y") by (rewrite same_letter by auto; discriminate).
    assert (SY : SameLetter "Y" "y") by (apply same_letter; auto).
    destruct z; cbn [listed]; rewrite ?app_nil_r, ?app_assoc; [apply given_other; auto|];
    (destruct y; cbn [listed]; rewrite ?app_nil_r; [apply given_last; auto|]);
    (destruct x; cbn [listed]; [apply (given_other _ []); auto; constructor|constructor]).
  - assert (D : Direction "z") by (right; now right).
    assert (NY : ~ SameLetter "Y" "z") by (rewrite same_letter by auto; discriminate).
    assert (NX : ~ SameLetter "X" "z") by (rewrite same_letter by auto; discriminate).
    assert (SZ : SameLetter "Z" "z") by (apply same_letter; auto).
    destruct z; cbn [listed]; rewrite ?app_nil_r, ?app_assoc; [apply given_last; auto|];
    (destruct y; cbn [listed]; rewrite ?app_nil_r; [apply given_other; auto|]);
    (destruct x; cbn [listed]; [apply (given_other _ []); auto; constructor|constructor]).
Qed.
Print Assumptions c60_axes_round_trip.
Example c60_axes_ex : LegalOpt (Some "NMAX_RESTR") /\
  parse_axes "X: NMAX_RESTR Y: MMAX Z: KMAX" = Ok (Some "NMAX_RESTR", Some "MMAX", Some "KMAX") /\
  parse_axes "y: lat, X: lon" = Ok (Some "lon", Some "lat", None).
Proof.
  split; [|split; reflexivity]. split; [discriminate|]. apply (every_iff _ _ alpha_us_iff). reflexivity.
Qed.

(** A coordinate name with a digit is cut at the digit. *)
Theorem c60_axes_digits_refuted : exists n, Name n /\ parse_axes (write_axes (Some n, None, None)) = Ok (Some "xi", None, None) /\ n <> "xi".
Proof.
  exists "xi2". split; [|split; [reflexivity|discriminate]]. split; [discriminate|].
  apply (every_iff _ _ word_iff). reflexivity.
Qed.
Print Assumptions c60_axes_digits_refuted.
(** ... and a name starting with a digit is lost altogether. *)
Theorem c60_axes_lost_refuted : exists n, Name n /\ parse_axes (write_axes (Some n, None, None)) = Ok (None, None, None).
Proof.
  exists "2d_x". split; [|reflexivity]. split; [discriminate|].
  apply (every_iff _ _ word_iff). reflexivity.
Qed.
Print Assumptions c60_axes_lost_refuted.

(** The vector axis of a standard name: the first direction in it, when the
    name has lower case text on both sides of a direction; None otherwise. *)
Theorem c60_vector : forall s d, Directed s -> FirstDirection s d -> parse_vector_axis s = Ok (Some (capital d)).
Proof. exact vector_some. Qed.
Print Assumptions c60_vector.
Theorem c60_vector_total : forall s,
  (Directed s /\ exists d, FirstDirection s d /\ parse_vector_axis s = Ok (Some (capital d))) \/
  (~ Directed s /\ parse_vector_axis s = Ok None).
Proof.
  intros s. destruct (mseq vector_re s) as [r|] eqn:M.
  - left. assert (D : Directed s) by (apply vector_fits; rewrite M; discriminate). split; auto.
    destruct D as (a & d & b & rest & A & Dd & B & E). destruct (first_exists s) as (d0 & F); [eauto 6|].
    exists d0. split; auto. apply vector_some; auto. exists a, d, b, rest. auto.
  - right. split.
    + intros D. apply vector_fits in D. contradiction.
    + unfold parse_vector_axis. now rewrite M.
Qed.
Print Assumptions c60_vector_total.
Example c60_vector_ex : parse_vector_axis "sea_water_x_velocity" = Ok (Some "X") /\
  parse_vector_axis "projection_y_wind_at_2m" = Ok (Some "Y") /\
  parse_vector_axis "eastward_sea_water_velocity" = Ok None /\ parse_vector_axis "_x_a" = Ok None.
Proof. repeat split. Qed.
