(** Padding entries, axes and directions. *)
From Coq Require Import String Ascii.
From Verif Require Import Common MaskModel GridTypeModel ChainModel VerdatModel VerdatText SAttrModel SAttrSpec SAttrProofs.
Open Scope string_scope.
Open Scope list_scope.
Open Scope nat_scope.

Lemma app_cases : forall a b c d : string, (a ++ b = c ++ d)%string ->
  (exists x, c = (a ++ x)%string /\ b = (x ++ d)%string) \/ (exists x, a = (c ++ x)%string /\ d = (x ++ b)%string).
Proof.
  induction a as [|h a IH]; intros b c d E.
  - left. exists c. auto.
  - destruct c as [|k c].
    + right. exists (String h a). auto.
    + cbn in E. injection E as -> E. destruct (IH _ _ _ E) as [(x & -> & ->)|(x & -> & ->)];
      [left|right]; exists x; auto.
Qed.

Notation triple := (string * string * string)%type.
Definition pieces (t : triple) : list string :=
  let '(f, n, p) := t in
  [f; ":"; " "; n; " "; "("; "p"; "a"; "d"; "d"; "i"; "n"; "g"; ":"; " "; p; ")"].
Definition grid_padding (t : triple) : padding := let '(f, n, p) := t in mkPadding f n p.

Lemma cat_pieces : forall t, cat (pieces t) = entry_text t.
Proof. intros [[f n] p]. reflexivity. Qed.
Lemma fits_lit : forall d w, Fits (lit d) w <-> w = String d "".
Proof.
  intros d w. cbn. split.
  - intros (c & -> & E). apply Ascii.eqb_eq in E. now subst.
  - intros ->. exists d. split; auto. apply Ascii.eqb_refl.
Qed.
Lemma pieces_fit : forall t, LegalEntry t <-> Forall2 Fits padding_re (pieces t).
Proof.
  intros [[f n] p]. unfold padding_re. cbn [pieces lits app]. split.
  - intros (F & N & P). apply name_fits in F, N. apply letters_fits in P.
    repeat (constructor; [first [assumption | apply fits_lit; reflexivity]|]). constructor.
  - intros H.
    repeat match goal with H : Forall2 _ (_ :: _) _ |- _ => inversion H; clear H; subst end.
    split; [now apply name_fits|]. split; [now apply name_fits|now apply letters_fits].
Qed.
Lemma fit_pieces : forall ws, Forall2 Fits padding_re ws -> exists t, ws = pieces t /\ LegalEntry t.
Proof.
  intros ws H. assert (H' := H). unfold padding_re in H. cbn [lits app] in H.
  repeat match goal with
  | H : Forall2 _ (lit ?d :: _) _ |- _ => inversion H; clear H; subst;
      match goal with F : Fits (lit d) ?w |- _ => apply fits_lit in F; subst end
  | H : Forall2 _ (_ :: _) _ |- _ => inversion H; clear H; subst
  | H : Forall2 _ [] _ |- _ => inversion H; clear H; subst
  end.
  match goal with |- exists t, [?f; _; _; ?n; _; _; _; _; _; _; _; _; _; _; _; ?p; _] = _ /\ _ => exists (f, n, p) end.
  split; [reflexivity|]. apply pieces_fit. exact H'.
Qed.

Lemma strip_plain : forall s, all_chars nonblank s = true -> strip (String " " s) = s.
Proof. intros s H. apply (strip_pad 1 s H). Qed.
Lemma letters_nonblank : forall s, Every Letter s -> all_chars nonblank s = true.
Proof.
  induction s as [|c s IH]; cbn; auto. intros [L E]. rewrite (IH E).
  apply letter_not in L. unfold nonblank. destruct L as (_ & _ & _ & _ & _ & ->). reflexivity.
Qed.

Lemma padding_of_pieces : forall t, LegalEntry t -> padding_of (pieces t) = Ok (grid_padding t).
Proof.
  intros [[f n] p] (F & N & P). unfold padding_of, pieces, grid_padding.
  cbn [firstn skipn]. rewrite !cat_cons. change (cat []) with "". rewrite !app_nil_s.
  change (f ++ ":")%string with (f ++ String ":" "")%string.
  rewrite split_on_app by (eapply every_impl; [|apply F]; intros c W; now apply word_not in W).
  change (py_get (f :: split_on ":" "") 0) with (Ok f). cbn [bind].
  match goal with |- context [drop_parens ?s] => assert (D : drop_parens s = ("padding" ++ String ":" (" " ++ p))%string) end.
  { rewrite !drop_parens_app. rewrite (drop_parens_free p).
    - cbn. now rewrite app_nil_s.
    - eapply every_impl; [|apply P]. intros c L. apply letter_not in L. tauto. }
  rewrite D, split_on_app by (cbn; repeat split; discriminate).
  rewrite split_on_free.
  - cbn [py_get]. change (py_get ["padding"; (" " ++ p)%string] 1) with (Ok (" " ++ p)%string). cbn [bind].
    change (" " ++ p)%string with (String " " p). now rewrite strip_plain by (apply letters_nonblank; apply P).
  - cbn. split; [discriminate|]. eapply every_impl; [|apply P]. intros c L. apply letter_not in L. tauto.
Qed.

Lemma mseq_lit : forall d r s, mseq (lit d :: r) (String d s) = cons_piece (String d "") (mseq r s).
Proof. intros. cbn. now rewrite Ascii.eqb_refl. Qed.
Lemma mseq_one : forall f r c s, f c = true -> mseq (One f :: r) (String c s) = cons_piece (String c "") (mseq r s).
Proof. intros f r c s H. cbn [mseq]. now rewrite H. Qed.
Lemma mseq_lits : forall w r s ws rest, mseq r s = Some (ws, rest) ->
  mseq (lits w ++ r) (w ++ s)%string = Some (map (fun c => String c "") (list_ascii_of_string w) ++ ws, rest).
Proof.
  induction w as [|c w IH]; cbn [lits app]; intros r s ws rest H; auto.
  change (String c w ++ s)%string with (String c (w ++ s)%string). rewrite mseq_lit, (IH _ _ _ _ H). reflexivity.
Qed.
Lemma mseq_greedy : forall f r w s ws rest, Fits (Plus f) w -> (forall c t, s = String c t -> f c = false) ->
  mseq r s = Some (ws, rest) -> mseq (Plus f :: r) (w ++ s)%string = Some (w :: ws, rest).
Proof. intros f r w s ws rest [N A] E M. rewrite mseq_plus. now apply (plus_go_greedy f (mseq r) w s ""). Qed.

Lemma mseq_entry : forall t rest, LegalEntry t -> mseq padding_re (entry_text t ++ rest)%string = Some (pieces t, rest).
Proof.
  intros [[f n] p] rest (F & N & P). apply name_fits in F, N. apply letters_fits in P.
  unfold padding_re, entry_text, Entry. rewrite !app_s. cbn [app].
  apply mseq_greedy; auto.
  - intros c t E. injection E as <- _. reflexivity.
  - change (": " ++ n ++ " (padding: " ++ p ++ ")" ++ rest)%string
      with (String ":" (String " " (n ++ " (padding: " ++ p ++ ")" ++ rest)%string)).
    rewrite !mseq_lit.
    rewrite (mseq_greedy is_word (lit " " :: (lits "(padding: " ++ [Plus is_alpha; lit ")"])) n _
      (" " :: ["("; "p"; "a"; "d"; "d"; "i"; "n"; "g"; ":"; " "] ++ [p; ")"]) rest); auto.
    + intros c t E. injection E as <- _. reflexivity.
    + change (" (padding: " ++ p ++ ")" ++ rest)%string with (String " " ("(padding: " ++ (p ++ (")" ++ rest)))%string).
      rewrite mseq_lit, (mseq_lits "(padding: " _ _ [p; ")"] rest); [reflexivity|].
      apply mseq_greedy; auto.
      intros c t E. injection E as <- _. reflexivity.
Qed.

Lemma miss_gap : forall t c s, NoColon (t ++ String c "")%string -> ~ WordC c ->
  mseq padding_re ((t ++ String c "") ++ s)%string = None.
Proof.
  intros t c s NC NW. destruct (mseq padding_re _) as [[ws rest]|] eqn:M; auto. exfalso.
  destruct (mseq_sound _ _ _ _ M) as [F E]. destruct (fit_pieces _ F) as ([[f n] p] & -> & (Hf & _ & _)).
  rewrite cat_pieces in E. unfold entry_text, Entry in E. rewrite (app_s f) in E.
  destruct (app_cases _ _ _ _ E) as [(x & Ef & _)|(x & Et & Er)].
  - destruct Hf as [_ Hf]. rewrite Ef in Hf. apply every_app in Hf. destruct Hf as [Hf _].
    apply every_app in Hf. apply NW. apply Hf.
  - destruct x as [|d x].
    + rewrite app_nil_s in Et. destruct Hf as [_ Hf]. rewrite <- Et in Hf. apply every_app in Hf. apply NW. apply Hf.
    + injection Er as <- _. unfold NoColon in NC. rewrite Et in NC. apply every_app in NC. destruct NC as [_ [NC _]]. now apply NC.
Qed.
Lemma suffix_last : forall h t g c, t <> "" -> (h ++ t)%string = (g ++ String c "")%string ->
  exists t', t = (t' ++ String c "")%string.
Proof.
  induction h as [|k h IH]; intros t g c N E.
  - exists g. exact E.
  - destruct g as [|d g].
    + cbn in E. injection E as -> E. destruct h; cbn in E; [contradiction|discriminate].
    + cbn in E. injection E as -> E. eauto.
Qed.
Lemma scan_clean_gap : forall g s, Gap g -> scan padding_re 0 (g ++ s)%string = scan padding_re 0 s.
Proof.
  intros g s [NC L]. apply scan_gap. intros h t N E.
  destruct L as [->|(k & c & Eg & NW)].
  - destruct h; [|discriminate]. cbn in E. now subst.
  - subst g. destruct (suffix_last _ _ _ _ N (eq_sym E)) as (t' & ->).
    apply miss_gap; auto. unfold NoColon in *. rewrite E in NC. apply every_app in NC. tauto.
Qed.
Lemma scan_entry : forall t s, LegalEntry t -> scan padding_re 0 (entry_text t ++ s)%string = pieces t :: scan padding_re 0 s.
Proof. intros t s H. unfold padding_re. cbn [app]. apply scan_match. now apply mseq_entry. Qed.
Lemma scan_nocolon : forall g, NoColon g -> scan padding_re 0 g = [].
Proof.
  intros g NC. unfold padding_re. cbn [app]. apply scan_none. intros (a & ws & b & F & E).
  destruct (fit_pieces _ F) as ([[f n] p] & -> & _). rewrite cat_pieces in E. unfold entry_text, Entry in E.
  unfold NoColon in NC. rewrite E in NC. rewrite !every_app in NC. cbn in NC. tauto.
Qed.
Lemma scan_clean : forall l s, Clean l s -> scan padding_re 0 s = map pieces l.
Proof.
  induction 1 as [g H|g t l s G T C IH].
  - now apply scan_nocolon.
  - rewrite scan_clean_gap, scan_entry, IH by auto. reflexivity.
Qed.
Lemma mapM_padding : forall l, Forall LegalEntry l -> mapM_res padding_of (map pieces l) = Ok (map grid_padding l).
Proof. induction 1 as [|t l H F IH]; auto. cbn [map mapM_res]. rewrite padding_of_pieces, IH by auto. reflexivity. Qed.
Lemma clean_legal : forall l s, Clean l s -> Forall LegalEntry l.
Proof. induction 1; auto. Qed.
Lemma pieces_laid : forall l s, Pieces padding_re l s -> exists ts, l = map pieces ts /\ Laid ts s.
Proof.
  induction 1 as [g|g ws l s F P (ts & -> & L)].
  - exists []. split; auto. constructor.
  - destruct (fit_pieces _ F) as (t & -> & T). exists (t :: ts). split; auto.
    rewrite cat_pieces. now constructor.
Qed.
Lemma laid_legal : forall l s, Laid l s -> Forall LegalEntry l.
Proof. induction 1; auto. Qed.
Lemma findall_laid : forall s, exists ts, findall padding_re s = map pieces ts /\ Laid ts s.
Proof.
  intros s. apply pieces_laid. unfold findall, padding_re. cbn [app]. apply (scan_pieces _ _ (String.length s)). auto.
Qed.
Lemma parse_shape : forall s, exists ts, Laid ts s /\
  parse_padding s = match ts with [] => Err ValueError | _ => Ok (map grid_padding ts) end /\
  (ts = [] -> ~ exists a t b, LegalEntry t /\ s = (a ++ entry_text t ++ b)%string).
Proof.
  intros s. destruct (findall_laid s) as (ts & E & L). exists ts. split; auto. split.
  - unfold parse_padding. rewrite E, (mapM_padding _ (laid_legal _ _ L)). cbn [bind]. destruct ts; reflexivity.
  - intros -> (a & t & b & T & Es). cbn in E. unfold findall, padding_re in E. cbn [app] in E.
    apply scan_none in E. apply E. exists a, (pieces t), b. rewrite cat_pieces. split; auto. now apply pieces_fit in T.
Qed.

(** Axes. *)
Definition axis_pieces (a : ascii * string) : list string := [String (fst a) ""; ":"; " "; snd a].
Lemma cat_axis : forall a, cat (axis_pieces a) = axis_text a.
Proof. intros [c n]. reflexivity. Qed.
Lemma axis_fits : forall ws, Forall2 Fits axes_re ws <-> exists a, ws = axis_pieces a /\ LegalAxis a.
Proof.
  intros ws. unfold axes_re. split.
  - intros H. inversion H as [|? ? ? ? W H1]; subst. destruct W as (c & -> & C). inversion H1 as [|? ? ? ? L1 H2]; subst.
    inversion H2 as [|? ? ? ? L2 H3]; subst. inversion H3 as [|? n ? ? L3 H4]; subst. inversion H4; subst.
    apply fits_lit in L1, L2. subst. exists (c, n). split; [reflexivity|]. split; cbn.
    + now apply alpha_iff.
    + now apply plain_fits.
  - intros ([c n] & -> & L & P). cbn in L, P. unfold axis_pieces. cbn [fst snd].
    constructor. { exists c. split; auto. now apply alpha_iff. }
    constructor. { now apply fits_lit. } constructor. { now apply fits_lit. }
    constructor; [now apply plain_fits|constructor].
Qed.
Lemma axis_nocolon : forall t s, t <> "" -> NoColon t -> (forall d r, s = String d r -> d <> ":"%char) -> mseq axes_re (t ++ s)%string = None.
Proof.
  intros t s N NC NS. destruct (mseq axes_re (t ++ s)) as [[ws rest]|] eqn:M; auto. exfalso.
  destruct (mseq_sound _ _ _ _ M) as [F E]. apply axis_fits in F. destruct F as ([c n] & -> & _).
  rewrite cat_axis in E. unfold axis_text in E. cbn [fst snd] in E.
  destruct t as [|a [|b t]]; [contradiction| |].
  - cbn in E. injection E as -> E. apply (NS _ _ E). reflexivity.
  - cbn in E. injection E as -> -> _. destruct NC as (_ & NC & _). now apply NC.
Qed.
Lemma axis_text_head : forall a s d r, LegalAxis a -> (axis_text a ++ s)%string = String d r -> d <> ":"%char.
Proof.
  intros [c n] s d r [L _] E. cbn in E. injection E as <- _. apply letter_not in L. tauto.
Qed.
Lemma scan_axis_gap : forall g a s, NoColon g -> LegalAxis a ->
  scan axes_re 0 (g ++ axis_text a ++ s)%string = scan axes_re 0 (axis_text a ++ s)%string.
Proof.
  intros g a s NC L. apply scan_gap. intros h t N E. apply axis_nocolon; auto.
  - unfold NoColon in *. rewrite E in NC. apply every_app in NC. tauto.
  - intros d r E'. eapply axis_text_head; eauto.
Qed.
Lemma scan_axis : forall a s, LegalAxis a -> (forall c r, s = String c r -> is_alpha_us c = false) ->
  scan axes_re 0 (axis_text a ++ s)%string = axis_pieces a :: scan axes_re 0 s.
Proof.
  intros [c n] s [L P] E. unfold axes_re. apply scan_match. cbn [fst snd] in *.
  assert (T : (axis_text (c, n) ++ s)%string = String c (String ":" (String " " (n ++ s)%string))) by reflexivity.
  rewrite T.
  enough (G : mseq [Plus is_alpha_us] (n ++ s)%string = Some ([n], s)).
  { rewrite mseq_one by now apply alpha_iff. rewrite !mseq_lit, G. reflexivity. }
  apply mseq_greedy; auto. now apply plain_fits.
Qed.
Lemma scan_axis_end : forall g, NoColon g -> scan axes_re 0 g = [].
Proof.
  intros g NC. unfold axes_re. apply scan_none. intros (a & ws & b & F & E).
  apply axis_fits in F. destruct F as ([c n] & -> & _). rewrite cat_axis in E. unfold NoColon in NC. rewrite E in NC.
  rewrite !every_app in NC. cbn in NC. tauto.
Qed.
Lemma axes_head : forall l s c r, Axes l s -> s = String c r -> is_alpha_us c = false.
Proof.
  intros l s c r H E. destruct (is_alpha_us c) eqn:A; auto. exfalso. apply alpha_us_iff in A.
  assert (G : forall g t, Sep g -> (g ++ t)%string = String c r -> g <> "" -> False).
  { intros g t [_ [->|(d & h & -> & N)]] E' NE; [contradiction|]. cbn in E'. injection E' as -> _. contradiction. }
  destruct H as [g S|g a l s S NE L H].
  - destruct g as [|d g]; [discriminate|]. apply (G (String d g) "" S); [now rewrite app_nil_s|discriminate].
  - eauto.
Qed.
Lemma scan_axes : forall l s, Axes l s -> scan axes_re 0 s = map axis_pieces l.
Proof.
  induction 1 as [g [NC _]|g a l s [NC _] NE L A IH].
  - now apply scan_axis_end.
  - rewrite scan_axis_gap, scan_axis, IH by (auto; intros; eapply axes_head; eauto). reflexivity.
Qed.
Lemma scan_axes0 : forall l s, Axes0 l s -> scan axes_re 0 s = map axis_pieces l.
Proof.
  intros [|a l] s H.
  - now apply scan_axis_end.
  - destruct H as (L & g & s' & NC & -> & A). cbn [map].
    rewrite scan_axis_gap, scan_axis, (scan_axes _ _ A) by (auto; intros; eapply axes_head; eauto). reflexivity.
Qed.
Lemma axes0_legal : forall l s, Axes0 l s -> Forall LegalAxis l.
Proof.
  intros [|a l] s H; auto. destruct H as (L & g & s' & _ & _ & A). constructor; auto.
  clear - A. induction A; auto.
Qed.

Definition put_axis (t : axes3) (a : ascii * string) : axes3 :=
  let '(x, y, z) := t in
  let n := lower (String (fst a) "") in
  if String.eqb n "x" then (Some (snd a), y, z)
  else if String.eqb n "y" then (x, Some (snd a), z)
  else if String.eqb n "z" then (x, y, Some (snd a))
  else (x, y, z).
Lemma plain_nonblank : forall s, PlainName s -> all_chars nonblank s = true.
Proof.
  intros s [_ H]. revert H. induction s as [|c s IH]; cbn; auto. intros [[L| ->] E]; rewrite (IH E).
  - apply letter_not in L. unfold nonblank. destruct L as (_ & _ & _ & _ & _ & ->). reflexivity.
  - reflexivity.
Qed.
Lemma axis_step_put : forall t a, LegalAxis a -> axis_step t (cat (axis_pieces a)) = Ok (put_axis t a).
Proof.
  intros [[x y] z] [c n] [L P]. cbn [fst snd] in *. rewrite cat_axis. unfold axis_step, axis_text. cbn [fst snd].
  change (String c (": " ++ n)) with ((String c "") ++ String ":" (String " " n))%string.
  rewrite split_on_app, split_on_free.
  - change (py_get [String c ""; String " " n] 0) with (Ok (String c "")).
    change (py_get [String c ""; String " " n] 1) with (Ok (String " " n)). cbn [bind].
    rewrite strip_plain by now apply plain_nonblank.
    replace (strip (String c "")) with (String c ""); [reflexivity|].
    apply letter_not in L. destruct L as (_ & _ & _ & _ & _ & B). unfold strip. cbn. rewrite B. cbn. now rewrite B.
  - cbn. split; [discriminate|]. destruct P as [_ P]. eapply every_impl; [|apply P].
    intros d [D| ->]; [apply letter_not in D; tauto|discriminate].
  - cbn. apply letter_not in L. tauto.
Qed.
Lemma axis_steps_put : forall l t, Forall LegalAxis l ->
  axis_steps t (map cat (map axis_pieces l)) = Ok (fold_left put_axis l t).
Proof.
  induction l as [|a l IH]; intros t F; auto. inversion_clear F. cbn [map axis_steps].
  rewrite axis_step_put by auto. cbn [bind]. now rewrite IH.
Qed.
Definition axis_at (d : ascii) (t : axes3) : option string :=
  let '(x, y, z) := t in if Ascii.eqb d "x" then x else if Ascii.eqb d "y" then y else z.
Lemma lower1_code : forall c, nat_of_ascii (lower1 c) = if (65 <=? nat_of_ascii c) && (nat_of_ascii c <=? 90) then nat_of_ascii c + 32 else nat_of_ascii c.
Proof.
  intros c. unfold lower1. destruct (_ && _) eqn:E; auto.
  apply andb_true_iff in E. rewrite !Nat.leb_le in E. apply nat_ascii_embedding. lia.
Qed.
Lemma ascii_inj : forall c d, nat_of_ascii c = nat_of_ascii d -> c = d.
Proof. intros c d H. rewrite <- (ascii_nat_embedding c), <- (ascii_nat_embedding d). now rewrite H. Qed.
Lemma same_letter : forall c d, Direction d -> (SameLetter c d <-> lower1 c = d).
Proof.
  intros c d D. unfold SameLetter, UpperC. split.
  - intros H. apply ascii_inj. rewrite lower1_code.
    destruct ((65 <=? nat_of_ascii c) && (nat_of_ascii c <=? 90)) eqn:E.
    + apply andb_true_iff in E. rewrite !Nat.leb_le in E.
      destruct H as [->|[[H U]|[H U]]]; destruct D as [->|[->| ->]]; cbn in *; lia.
    + apply andb_false_iff in E. rewrite !Nat.leb_gt in E.
      destruct H as [->|[[H U]|[H U]]]; destruct D as [->|[->| ->]]; cbn in *; lia.
  - intros <-. rewrite lower1_code.
    destruct ((65 <=? nat_of_ascii c) && (nat_of_ascii c <=? 90)) eqn:E.
    + apply andb_true_iff in E. rewrite !Nat.leb_le in E. right. right. lia.
    + left. apply ascii_inj. now rewrite lower1_code, E.
Qed.
Lemma put_axis_at : forall d t a, Direction d ->
  axis_at d (put_axis t a) = if Ascii.eqb (lower1 (fst a)) d then Some (snd a) else axis_at d t.
Proof.
  intros d [[x y] z] [c n] D. unfold put_axis. cbn [fst snd lower]. generalize (lower1 c) as k. intros k.
  assert (K : forall e, String.eqb (String k "") (String e "") = Ascii.eqb k e).
  { intros e. cbn. destruct (Ascii.eqb k e); reflexivity. }
  rewrite (K "x"%char), (K "y"%char), (K "z"%char).
  destruct (Ascii.eqb k "x") eqn:X; [apply Ascii.eqb_eq in X; subst; now destruct D as [->|[->| ->]]|].
  destruct (Ascii.eqb k "y") eqn:Y; [apply Ascii.eqb_eq in Y; subst; now destruct D as [->|[->| ->]]|].
  destruct (Ascii.eqb k "z") eqn:Z; [apply Ascii.eqb_eq in Z; subst; now destruct D as [->|[->| ->]]|].
  destruct D as [->|[->| ->]]; rewrite ?X, ?Y, ?Z; reflexivity.
Qed.
Lemma fold_given : forall d l v, Direction d -> Given d l v -> axis_at d (fold_left put_axis l (None, None, None)) = v.
Proof.
  intros d l v D G. induction G as [|l c n S|l c n v S G IH].
  - now destruct D as [->|[->| ->]].
  - rewrite fold_left_app. cbn [fold_left]. rewrite put_axis_at by auto. cbn [fst snd].
    apply same_letter in S; auto. rewrite S, Ascii.eqb_refl. reflexivity.
  - rewrite fold_left_app. cbn [fold_left]. rewrite put_axis_at by auto. cbn [fst snd].
    destruct (Ascii.eqb (lower1 c) d) eqn:E; auto. apply Ascii.eqb_eq in E. exfalso. apply S. now apply same_letter.
Qed.

(** Directions. *)
Definition dir_pieces (d : ascii) : list string := ["_"; String d ""; "_"].
Lemma xyz_iff : forall d, is_xyz d = true <-> Direction d.
Proof.
  intros d. unfold is_xyz. rewrite between_iff. unfold Direction. split.
  - intros H. assert (E : nat_of_ascii d = 120 \/ nat_of_ascii d = 121 \/ nat_of_ascii d = 122) by lia.
    destruct E as [E|[E|E]]; [left|right; left|right; right]; apply ascii_inj; exact E.
  - intros [->|[->| ->]]; cbn; lia.
Qed.
Lemma dir_fits : forall ws, Forall2 Fits direction_re ws <-> exists d, ws = dir_pieces d /\ Direction d.
Proof.
  intros ws. unfold direction_re. split.
  - intros H. inversion H as [|? ? ? ? L1 H1]; subst. inversion H1 as [|? ? ? ? W H2]; subst. destruct W as (c & -> & C).
    inversion H2 as [|? ? ? ? L2 H3]; subst. inversion H3; subst. apply fits_lit in L1, L2. subst.
    exists c. split; auto. now apply xyz_iff.
  - intros (d & -> & D). constructor; [now apply fits_lit|]. constructor.
    + exists d. split; auto. now apply xyz_iff.
    + constructor; [now apply fits_lit|constructor].
Qed.
Lemma vector_fits : forall s, mseq vector_re s <> None <-> Directed s.
Proof.
  intros s. unfold vector_re. split.
  - intros H. destruct (mseq _ s) as [[ws rest]|] eqn:M; [|contradiction].
    destruct (mseq_sound _ _ _ _ M) as [F ->].
    inversion F as [|? a ? ? A H1]; subst. inversion H1 as [|? ? ? ? L1 H2]; subst.
    inversion H2 as [|? ? ? ? W H3]; subst. destruct W as (d & -> & D). inversion H3 as [|? ? ? ? L2 H4]; subst.
    inversion H4 as [|? b ? ? B H5]; subst. inversion H5; subst. apply fits_lit in L1, L2. subst.
    exists a, d, b, rest. split; [now apply lower_fits|]. split; [now apply xyz_iff|]. split; [now apply lower_fits|].
    rewrite !cat_cons. change (cat []) with "". rewrite app_nil_s. rewrite !app_s. reflexivity.
  - intros (a & d & b & rest & A & D & B & ->).
    apply lower_fits in A, B. apply xyz_iff in D.
    assert (F : Forall2 Fits [Plus is_lower_us; lit "_"; One is_xyz; lit "_"; Plus is_lower_us] [a; "_"; String d ""; "_"; b]).
    { constructor; auto. constructor; [now apply fits_lit|]. constructor; [now exists d|].
      constructor; [now apply fits_lit|]. constructor; auto. }
    pose proof (mseq_complete _ _ F rest) as H. rewrite !cat_cons in H. change (cat []) with "" in H.
    rewrite app_nil_s, !app_s in H. exact H.
Qed.
Lemma scan_first : forall s d, FirstDirection s d -> exists l, scan direction_re 0 s = dir_pieces d :: l.
Proof.
  intros s d (D & a & b & E & Min). unfold direction_re.
  assert (G : scan [lit "_"; One is_xyz; lit "_"] 0 (a ++ (dir_text d ++ b))%string = scan [lit "_"; One is_xyz; lit "_"] 0 (dir_text d ++ b)%string).
  { apply scan_gap. intros h t N Ea.
    destruct (mseq _ (t ++ dir_text d ++ b)) as [[ws rest]|] eqn:M; auto. exfalso.
    destruct (mseq_sound _ _ _ _ M) as [F Es]. change [lit "_"; One is_xyz; lit "_"] with direction_re in F.
    apply dir_fits in F. destruct F as (d' & -> & D').
    assert (X : s = (h ++ dir_text d' ++ rest)%string).
    { rewrite E, Ea, !app_s. f_equal. rewrite Es. reflexivity. }
    specialize (Min _ _ _ D' X). rewrite Ea, slen_app in Min. destruct t; [contradiction|]. cbn in Min. lia. }
  rewrite E, G. eexists. apply (scan_match (lit "_") [One is_xyz; lit "_"] _ (dir_pieces d) b).
  apply xyz_iff in D. cbn. rewrite D. reflexivity.
Qed.
Lemma first_exists : forall s, (exists a d b, Direction d /\ s = (a ++ dir_text d ++ b)%string) -> exists d, FirstDirection s d.
Proof.
  induction s as [|c s IH]; intros (a & d & b & D & E).
  - destruct a; discriminate.
  - destruct (mseq direction_re (String c s)) as [[ws rest]|] eqn:M.
    + destruct (mseq_sound _ _ _ _ M) as [F Es]. apply dir_fits in F. destruct F as (d' & -> & D').
      exists d'. split; auto. exists "", rest. split; [exact Es|]. intros. cbn. lia.
    + assert (NP : forall d' b', Direction d' -> String c s <> (dir_text d' ++ b')%string).
      { intros d' b' D' E'. assert (F : Forall2 Fits direction_re (dir_pieces d')) by (apply dir_fits; eauto).
        apply (mseq_complete _ _ F b'). change (cat (dir_pieces d')) with (dir_text d'). now rewrite <- E'. }
      destruct a as [|k a]; [exfalso; now apply (NP d b D)|]. cbn in E. injection E as <- E.
      destruct (IH (ex_intro _ a (ex_intro _ d (ex_intro _ b (conj D E))))) as (d0 & D0 & a0 & b0 & E0 & Min).
      exists d0. split; auto. exists (String c a0), b0. split; [now rewrite E0|].
      intros a' d' b' D' E'. destruct a' as [|k a']; [exfalso; now apply (NP d' b' D')|].
      injection E' as <- E'. specialize (Min _ _ _ D' E'). cbn. lia.
Qed.
Lemma vector_some : forall s d, Directed s -> FirstDirection s d -> parse_vector_axis s = Ok (Some (capital d)).
Proof.
  intros s d V F. unfold parse_vector_axis. apply vector_fits in V.
  destruct (mseq vector_re s); [|contradiction]. unfold search, findall.
  destruct (scan_first _ _ F) as [l ->]. destruct F as [[->|[->| ->]] _]; reflexivity.
Qed.
