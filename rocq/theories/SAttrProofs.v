(** The matcher, and the parsers built on it. *)
From Coq Require Import String Ascii.
From Verif Require Import Common MaskModel GridTypeModel ChainModel VerdatModel VerdatText SAttrModel SAttrSpec.
Open Scope string_scope.
Open Scope list_scope.
Open Scope nat_scope.

Section PlusSec.
  Context (f : ascii -> bool) (k : string -> option (list string * string)).
  Fixpoint plus_go (pre s : string) {struct s} : option (list string * string) :=
    match s with
    | String c s' =>
        if f c then
          let pre' := (pre ++ String c "")%string in
          match plus_go pre' s' with
          | Some x => Some x
          | None => cons_piece pre' (k s')
          end
        else None
    | "" => None
    end.
End PlusSec.
Lemma mseq_plus : forall f r s, mseq (Plus f :: r) s = plus_go f (mseq r) "" s.
Proof. reflexivity. Qed.

Definition Fits (e : elem) (w : string) : Prop :=
  match e with
  | One f => exists c, w = String c "" /\ f c = true
  | Plus f => w <> "" /\ all_chars f w = true
  end.

Lemma cat_cons : forall w ws, cat (w :: ws) = (w ++ cat ws)%string.
Proof. intros w [|v ws]; cbn; auto. now rewrite app_nil_s. Qed.

Lemma plus_go_sound : forall f k s pre ws rest,
  plus_go f k pre s = Some (ws, rest) ->
  exists w ws' s', ws = (pre ++ w)%string :: ws' /\ w <> "" /\ all_chars f w = true /\ s = (w ++ s')%string /\ k s' = Some (ws', rest).
Proof.
  induction s as [|c s IH]; cbn; intros pre ws rest H; [discriminate|].
  destruct (f c) eqn:F; [|discriminate].
  destruct (plus_go f k (pre ++ String c "") s) as [[ws0 r0]|] eqn:G.
  - injection H as -> ->. destruct (IH _ _ _ G) as (w & ws' & s' & -> & N & A & -> & K).
    exists (String c w), ws', s'. rewrite app_s. cbn. rewrite F, A. repeat split; auto. discriminate.
  - unfold cons_piece in H. destruct (k s) as [[ws0 r0]|] eqn:K; [|discriminate].
    injection H as <- <-. exists (String c ""), ws0, s. cbn. rewrite F. repeat split; auto. discriminate.
Qed.
Lemma plus_go_complete : forall f k w s' pre,
  w <> "" -> all_chars f w = true -> k s' <> None -> plus_go f k pre (w ++ s')%string <> None.
Proof.
  induction w as [|c w IH]; intros s' pre N A K; [contradiction|].
  cbn in *. apply andb_true_iff in A. destruct A as [F A]. rewrite F.
  destruct (plus_go f k (pre ++ String c "") (w ++ s')) as [x|] eqn:G; [discriminate|].
  destruct w as [|d w].
  - cbn. destruct (k s') as [[? ?]|]; [discriminate|contradiction].
  - exfalso. eapply (IH s' (pre ++ String c "")%string); eauto. discriminate.
Qed.
(** Greedy: when the run of characters ends there, the whole run is taken. *)
Lemma plus_go_greedy : forall f k w s' pre ws rest,
  w <> "" -> all_chars f w = true -> (forall c r, s' = String c r -> f c = false) ->
  k s' = Some (ws, rest) -> plus_go f k pre (w ++ s')%string = Some ((pre ++ w)%string :: ws, rest).
Proof.
  induction w as [|c w IH]; intros s' pre ws rest N A E K; [contradiction|].
  cbn in *. apply andb_true_iff in A. destruct A as [F A]. rewrite F.
  destruct w as [|d w].
  - cbn. replace (plus_go f k (pre ++ String c "") s') with (@None (list string * string)).
    + rewrite K. reflexivity.
    + destruct s' as [|e s']; cbn; auto. now rewrite (E e s').
  - rewrite (IH s' (pre ++ String c "")%string ws rest); auto; [|discriminate]. now rewrite app_s.
Qed.

Lemma mseq_sound : forall p s ws rest, mseq p s = Some (ws, rest) -> Forall2 Fits p ws /\ s = (cat ws ++ rest)%string.
Proof.
  induction p as [|[f|f] p IH]; intros s ws rest H.
  - injection H as <- <-. split; auto.
  - cbn in H. destruct s as [|c s]; [discriminate|]. destruct (f c) eqn:F; [|discriminate].
    unfold cons_piece in H. destruct (mseq p s) as [[ws0 r0]|] eqn:M; [|discriminate].
    injection H as <- <-. destruct (IH _ _ _ M) as [A ->]. split.
    + constructor; auto. exists c; auto.
    + rewrite cat_cons, app_s. reflexivity.
  - rewrite mseq_plus in H. destruct (plus_go_sound _ _ _ _ _ _ H) as (w & ws' & s' & -> & N & A & -> & K).
    destruct (IH _ _ _ K) as [B ->]. split.
    + constructor; auto. cbn. auto.
    + rewrite cat_cons, app_s. reflexivity.
Qed.
Lemma mseq_complete : forall p ws, Forall2 Fits p ws -> forall rest, mseq p (cat ws ++ rest)%string <> None.
Proof.
  induction 1 as [|e w p ws F A IH]; intros rest; [discriminate|].
  rewrite cat_cons, app_s. destruct e as [f|f].
  - destruct F as (c & -> & F). cbn. rewrite F. specialize (IH rest).
    destruct (mseq p (cat ws ++ rest)) as [[? ?]|]; [discriminate|contradiction].
  - destruct F as [N F]. rewrite mseq_plus. apply plus_go_complete; auto.
Qed.

Lemma slen_app : forall a b, String.length (a ++ b)%string = String.length a + String.length b.
Proof. induction a; cbn; intros; auto. Qed.
Lemma scan_skip : forall p w s, scan p (String.length w) (w ++ s)%string = scan p 0 s.
Proof. induction w; cbn; intros; auto. Qed.

Lemma fits_nonempty : forall e w, Fits e w -> w <> "".
Proof. intros [f|f] w; cbn; [intros (c & -> & _)|intros [N _]]; auto; discriminate. Qed.
Lemma pieces_nonempty : forall e p ws, Forall2 Fits (e :: p) ws -> cat ws <> "".
Proof.
  intros e p ws H. inversion_clear H. rewrite cat_cons. apply fits_nonempty in H0.
  destruct y; [contradiction|discriminate].
Qed.

Lemma scan_match : forall e p s ws rest, mseq (e :: p) s = Some (ws, rest) ->
  scan (e :: p) 0 s = ws :: scan (e :: p) 0 rest.
Proof.
  intros e p s ws rest M. destruct (mseq_sound _ _ _ _ M) as [F E].
  pose proof (pieces_nonempty _ _ _ F) as N.
  destruct (cat ws) as [|c w] eqn:C; [contradiction|]. subst s.
  change (String c w ++ rest)%string with (String c (w ++ rest)%string) in *.
  cbn [scan]. rewrite M. f_equal.
  replace (String.length (String c (w ++ rest)) - String.length rest - 1) with (String.length w).
  - apply scan_skip.
  - cbn [String.length]. rewrite slen_app. lia.
Qed.
Lemma scan_miss : forall p c s, mseq p (String c s) = None -> scan p 0 (String c s) = scan p 0 s.
Proof. intros p c s H. cbn [scan]. now rewrite H. Qed.
Lemma scan_gap : forall p g s,
  (forall h t, t <> "" -> g = (h ++ t)%string -> mseq p (t ++ s)%string = None) -> scan p 0 (g ++ s)%string = scan p 0 s.
Proof.
  induction g as [|c g IH]; intros s H; auto.
  change (String c g ++ s)%string with (String c (g ++ s)%string).
  rewrite scan_miss.
  - apply IH. intros h t N E. apply (H (String c h) t); auto. cbn. now rewrite E.
  - apply (H "" (String c g)); auto. discriminate.
Qed.
(** Nothing is found exactly when nothing matches anywhere. *)
Lemma scan_none : forall e p s,
  scan (e :: p) 0 s = [] <-> ~ exists a ws b, Forall2 Fits (e :: p) ws /\ s = (a ++ cat ws ++ b)%string.
Proof.
  intros e p. induction s as [|c s IH].
  - split; [|reflexivity]. intros _ (a & ws & b & F & E). apply pieces_nonempty in F.
    destruct a; [|discriminate]. destruct (cat ws); [contradiction|discriminate].
  - destruct (mseq (e :: p) (String c s)) as [[ws rest]|] eqn:M.
    + rewrite (scan_match _ _ _ _ _ M). split; [discriminate|]. intros H. exfalso. apply H.
      destruct (mseq_sound _ _ _ _ M) as [F ->]. exists "", ws, rest. auto.
    + rewrite (scan_miss _ _ _ M), IH. split; intros H (a & ws & b & F & E); apply H.
      * destruct a as [|d a].
        -- exfalso. apply (mseq_complete _ _ F b). cbn in E. rewrite <- E. apply M.
        -- injection E as -> ->. exists a, ws, b; auto.
      * exists (String c a), ws, b. rewrite E. auto.
Qed.

(** Found pieces in order, with text around them. *)
Inductive Pieces (p : list elem) : list (list string) -> string -> Prop :=
| pieces_end : forall g, Pieces p [] g
| pieces_cons : forall g ws l s, Forall2 Fits p ws -> Pieces p l s -> Pieces p (ws :: l) (g ++ cat ws ++ s)%string.
Lemma pieces_more : forall p l s c, Pieces p l s -> Pieces p l (String c s).
Proof.
  intros p l s c H. destruct H as [g|g ws l s F H].
  - constructor.
  - change (String c (g ++ cat ws ++ s)) with ((String c g) ++ cat ws ++ s)%string. now constructor.
Qed.
Lemma scan_pieces : forall e p n s, String.length s <= n -> Pieces (e :: p) (scan (e :: p) 0 s) s.
Proof.
  intros e p. induction n as [|n IH]; intros s L.
  - destruct s; [|cbn in L; lia]. constructor.
  - destruct s as [|c s]; [constructor|].
    destruct (mseq (e :: p) (String c s)) as [[ws rest]|] eqn:M.
    + rewrite (scan_match _ _ _ _ _ M). destruct (mseq_sound _ _ _ _ M) as [F E]. rewrite E.
      change (cat ws ++ rest)%string with ("" ++ cat ws ++ rest)%string. constructor; auto.
      apply IH. pose proof (pieces_nonempty _ _ _ F). rewrite E, slen_app in L.
      destruct (cat ws); [contradiction|]. cbn in L. lia.
    + rewrite (scan_miss _ _ _ M). apply pieces_more. apply IH. cbn in L. lia.
Qed.

(** Character classes. *)
Lemma between_iff : forall a b c, between a b c = true <-> a <= nat_of_ascii c <= b.
Proof. intros. unfold between, code. rewrite andb_true_iff, !Nat.leb_le. reflexivity. Qed.
Lemma alpha_iff : forall c, is_alpha c = true <-> Letter c.
Proof. intros. unfold is_alpha, Letter, LowerC, UpperC, is_lower_c, is_upper_c. now rewrite orb_true_iff, !between_iff. Qed.
Lemma us_iff : forall c, is_us c = true <-> c = "_"%char.
Proof. intros. unfold is_us. apply Ascii.eqb_eq. Qed.
Lemma word_iff : forall c, is_word c = true <-> WordC c.
Proof. intros. unfold is_word, WordC, DigitC. rewrite !orb_true_iff, alpha_iff, between_iff, us_iff. tauto. Qed.
Lemma alpha_us_iff : forall c, is_alpha_us c = true <-> (Letter c \/ c = "_"%char).
Proof. intros. unfold is_alpha_us. now rewrite orb_true_iff, alpha_iff, us_iff. Qed.
Lemma lower_us_iff : forall c, is_lower_us c = true <-> (LowerC c \/ c = "_"%char).
Proof. intros. unfold is_lower_us, LowerC, is_lower_c. now rewrite orb_true_iff, between_iff, us_iff. Qed.
Lemma every_iff : forall P f, (forall c, f c = true <-> P c) -> forall s, all_chars f s = true <-> Every P s.
Proof. intros P f H. induction s; cbn; [tauto|]. rewrite andb_true_iff, H, IHs. tauto. Qed.
Lemma name_fits : forall s, Name s <-> Fits (Plus is_word) s.
Proof. intros. cbn. unfold Name. now rewrite (every_iff _ _ word_iff). Qed.
Lemma letters_fits : forall s, Letters s <-> Fits (Plus is_alpha) s.
Proof. intros. cbn. unfold Letters. now rewrite (every_iff _ _ alpha_iff). Qed.
Lemma plain_fits : forall s, PlainName s <-> Fits (Plus is_alpha_us) s.
Proof. intros. cbn. unfold PlainName. now rewrite (every_iff _ _ alpha_us_iff). Qed.
Lemma lower_fits : forall s, LowerName s <-> Fits (Plus is_lower_us) s.
Proof. intros. cbn. unfold LowerName. now rewrite (every_iff _ _ lower_us_iff). Qed.
Lemma every_app : forall P a b, Every P (a ++ b)%string <-> Every P a /\ Every P b.
Proof. induction a; cbn; intros; [tauto|]. rewrite IHa. tauto. Qed.
Lemma every_impl : forall (P Q : ascii -> Prop) s, (forall c, P c -> Q c) -> Every P s -> Every Q s.
Proof. induction s; cbn; intuition. Qed.

(** Splitting. *)
Lemma split_on_free : forall d s, Every (fun c => c <> d) s -> split_on d s = [s].
Proof.
  induction s as [|c s IH]; cbn; auto. intros [N E].
  apply Ascii.eqb_neq in N. now rewrite N, (IH E).
Qed.
Lemma split_on_app : forall d a b, Every (fun c => c <> d) a -> split_on d (a ++ String d b)%string = a :: split_on d b.
Proof.
  induction a as [|c a IH]; cbn; intros b.
  - now rewrite Ascii.eqb_refl.
  - intros [N E]. apply Ascii.eqb_neq in N. now rewrite N, (IH b E).
Qed.
Lemma drop_parens_free : forall s, Every (fun c => c <> "("%char /\ c <> ")"%char) s -> drop_parens s = s.
Proof.
  induction s as [|c s IH]; cbn; auto. intros [[A B] E].
  apply Ascii.eqb_neq in A, B. now rewrite A, B, (IH E).
Qed.
Lemma drop_parens_app : forall a b, drop_parens (a ++ b)%string = (drop_parens a ++ drop_parens b)%string.
Proof. induction a as [|c a IH]; cbn; intros; auto. destruct (_ || _); cbn; now rewrite IH. Qed.

Ltac char_ne := let E := fresh in intros E; subst; cbn in *; lia.
Lemma letter_not : forall c, Letter c ->
  c <> ":"%char /\ c <> " "%char /\ c <> "("%char /\ c <> ")"%char /\ c <> "_"%char /\ is_blank c = false.
Proof.
  intros c H. unfold Letter, LowerC, UpperC in H.
  repeat split; try char_ne.
  destruct (is_blank c) eqn:B; auto. exfalso. unfold is_blank in B.
  repeat rewrite ?orb_true_iff, ?andb_true_iff, ?Nat.leb_le, ?Nat.eqb_eq, ?Ascii.eqb_eq in B.
  repeat match goal with B : _ \/ _ |- _ => destruct B | B : _ /\ _ |- _ => destruct B end; subst; cbn in *; try lia.
Qed.
Lemma word_not : forall c, WordC c -> c <> ":"%char /\ c <> " "%char.
Proof.
  intros c [H|[H| ->]].
  - apply letter_not in H. tauto.
  - unfold DigitC in H. split; char_ne.
  - split; discriminate.
Qed.
