(** Lines, margins and numbers as text. *)
From Coq Require Import String Ascii NArith DecimalString DecimalN.
From Verif Require Import Common CommonProofs DepthModel DepthProofs GridTypeModel IsoModel MaskSpec MaskProofs InfoModel InfoSpec.
Open Scope string_scope.
Open Scope list_scope.
Open Scope nat_scope.

Lemma sapp_nil s : (s ++ "")%string = s.
Proof. induction s as [|c s IH]; [reflexivity|]. cbn [append]. now rewrite IH. Qed.
Lemma sapp_assoc a b c : ((a ++ b) ++ c)%string = (a ++ b ++ c)%string.
Proof. induction a as [|x a IH]; [reflexivity|]. cbn [append]. now rewrite IH. Qed.
Lemma one_app a b : OneLine (a ++ b) <-> OneLine a /\ OneLine b.
Proof. apply MaskProofs.all_app. Qed.

Lemma lines_nonempty s : lines s <> [].
Proof. destruct s as [|c s]; [discriminate|]. cbn [lines]. destruct (Ascii.eqb c nl); [discriminate|]. destruct (lines s); discriminate. Qed.
Lemma lines_one_line s : OneLine s -> lines s = [s].
Proof.
  induction s as [|c s IH]; [reflexivity|]. intros [Hc Hs]. cbn [lines]. destruct (Ascii.eqb_spec c nl) as [|_]; [contradiction|]. now rewrite (IH Hs).
Qed.
Lemma lines_newline s t : OneLine s -> lines (s ++ newline ++ t)%string = s :: lines t.
Proof.
  induction s as [|c s IH]; intros H.
  - reflexivity.
  - destruct H as [Hc Hs]. cbn [append lines]. destruct (Ascii.eqb_spec c nl) as [|_]; [contradiction|]. rewrite (IH Hs). reflexivity.
Qed.
Lemma lines_of_lines t ls : LinesOf t ls -> lines t = ls.
Proof. induction 1; [now apply lines_one_line|]. rewrite lines_newline; auto. now f_equal. Qed.
Lemma unlines_cons s ls : ls <> [] -> unlines (s :: ls) = (s ++ newline ++ unlines ls)%string.
Proof. destruct ls; [contradiction|]. reflexivity. Qed.
Lemma lines_of_unlines ls : ls <> [] -> Forall OneLine ls -> LinesOf (unlines ls) ls.
Proof.
  intros N F. induction F as [|s ls Hs F IH]; [contradiction|]. destruct ls as [|a ls].
  - now apply lines_one.
  - rewrite unlines_cons by discriminate. apply lines_more; auto. apply IH. discriminate.
Qed.
Lemma lines_unlines ls : ls <> [] -> Forall OneLine ls -> lines (unlines ls) = ls.
Proof. intros N F. apply lines_of_lines. now apply lines_of_unlines. Qed.
Lemma lines_all s : Forall OneLine (lines s).
Proof.
  induction s as [|c s IH]; [repeat constructor|]. cbn [lines]. destruct (Ascii.eqb_spec c nl) as [|Hc]; [constructor; [exact I|exact IH]|].
  destruct (lines s) as [|l ls]; [constructor; [split; [exact Hc|exact I]|constructor]|]. inversion IH; subst. constructor; auto. split; assumption.
Qed.
Lemma unlines_lines s : unlines (lines s) = s.
Proof.
  induction s as [|c s IH]; [reflexivity|]. cbn [lines]. destruct (Ascii.eqb_spec c nl) as [->|Hc].
  - rewrite unlines_cons by apply lines_nonempty. rewrite IH. reflexivity.
  - destruct (lines s) as [|l ls] eqn:E; [now apply lines_nonempty in E|]. rewrite <- IH. destruct ls; reflexivity.
Qed.
Lemma lines_text s : LinesOf s (lines s).
Proof. rewrite <- (unlines_lines s) at 1. apply lines_of_unlines; [apply lines_nonempty|apply lines_all]. Qed.
Lemma unlines_same a b : a <> [] -> b <> [] -> Forall OneLine a -> Forall OneLine b -> unlines a = unlines b -> a = b.
Proof. intros Na Nb Fa Fb E. rewrite <- (lines_unlines a Na Fa), <- (lines_unlines b Nb Fb). now rewrite E. Qed.
Lemma lines_app a b la x y lb : lines a = la ++ [x] -> lines b = y :: lb -> lines (a ++ b)%string = la ++ (x ++ y)%string :: lb.
Proof.
  revert la x. induction a as [|c a IH]; intros la x Ha Hb.
  - cbn [lines] in Ha. destruct la as [|z la]; [|destruct la; discriminate]. injection Ha as <-. exact Hb.
  - cbn [append lines] in *. destruct (Ascii.eqb c nl).
    + destruct la as [|z la]; [exfalso; injection Ha as _ Ha; now apply lines_nonempty in Ha|]. injection Ha as <- Ha. rewrite (IH la x Ha Hb). reflexivity.
    + destruct (lines a) as [|l ls] eqn:E; [now apply lines_nonempty in E|]. destruct la as [|z la]; cbn [app] in Ha.
      * injection Ha as <- ->. rewrite (IH [] l eq_refl Hb). reflexivity.
      * injection Ha as <- ->. rewrite (IH (l :: la) x eq_refl Hb). reflexivity.
Qed.

(** ** Numbers *)
Lemma uint_chars (P : ascii -> Prop) : (forall c, In c ["0"; "1"; "2"; "3"; "4"; "5"; "6"; "7"; "8"; "9"]%char -> P c) -> forall d, MaskSpec.all_chars P (NilEmpty.string_of_uint d).
Proof. intros H. induction d; cbn [NilEmpty.string_of_uint MaskSpec.all_chars]; try (split; [apply H; cbn; auto 12|assumption]). exact I. Qed.
Lemma decimal_one n : OneLine (decimal n).
Proof. apply uint_chars. intros c H. cbn in H. unfold nl. repeat (destruct H as [<-|H]; [discriminate|]). destruct H. Qed.
Lemma decimal_commas n : MaskSpec.all_chars (fun c => c <> ","%char /\ c <> ")"%char) (decimal n).
Proof. apply uint_chars. intros c H. cbn in H. repeat (destruct H as [<-|H]; [split; discriminate|]). destruct H. Qed.
Lemma decimal_inj a b : decimal a = decimal b -> a = b.
Proof.
  unfold decimal, dec. intros H. assert (Some (N.to_uint (N.of_nat a)) = Some (N.to_uint (N.of_nat b))) by (rewrite <- !NilEmpty.usu; now rewrite H).
  injection H0 as H0. apply (f_equal N.of_uint) in H0. rewrite !Unsigned.of_to in H0. now apply Nnat.Nat2N.inj.
Qed.
Lemma before_stop (P : ascii -> Prop) a b c d x y : MaskSpec.all_chars P a -> MaskSpec.all_chars P b -> ~ P c -> ~ P d ->
  (a ++ String c x)%string = (b ++ String d y)%string -> a = b /\ c = d /\ x = y.
Proof.
  revert b. induction a as [|e a IH]; intros [|f b] Ha Hb Nc Nd E; cbn [append] in E.
  - injection E as -> ->. auto.
  - injection E as -> _. destruct Hb as [Hb _]. contradiction.
  - injection E as -> _. destruct Ha as [Ha _]. contradiction.
  - injection E as -> E. destruct Ha as [_ Ha], Hb as [_ Hb]. destruct (IH b Ha Hb Nc Nd E) as (-> & -> & ->). auto.
Qed.
Fixpoint commas (l : list nat) : string := match l with [] => "" | n :: r => match r with [] => decimal n | _ => (decimal n ++ ", " ++ commas r)%string end end.
Lemma commas_concat l : String.concat ", " (map decimal l) = commas l.
Proof. induction l as [|n [|m l] IH]; [reflexivity..|]. cbn [map String.concat commas] in *. now rewrite IH. Qed.
Definition P0 (c : ascii) : Prop := c <> ","%char /\ c <> ")"%char.
Lemma commas_inj : forall a b, a <> [] -> b <> [] -> (commas a ++ ")")%string = (commas b ++ ")")%string -> a = b.
Proof.
  assert (K : forall l, l <> [] -> exists c x, (commas l ++ ")")%string = (decimal (hd 0 l) ++ String c x)%string /\ ~ P0 c /\
     (tl l = [] -> c = ")"%char) /\ (tl l <> [] -> c = ","%char /\ x = String " " (commas (tl l) ++ ")")%string)).
  { intros [|n [|m l]] N; [contradiction| |]; cbn [commas hd tl].
    - exists ")"%char, "". split; [reflexivity|]. split; [intros [_ H]; now apply H|]. split; [auto|]. intros H. contradiction.
    - exists ","%char, (String " " (commas (m :: l) ++ ")"))%string. split; [now rewrite sapp_assoc|]. split; [intros [H _]; now apply H|]. split; [discriminate|auto]. }
  induction a as [|n a IH]; intros b Na Nb E; [contradiction|]. destruct b as [|m b]; [contradiction|].
  destruct (K (n :: a) Na) as (c & x & E1 & H1 & F1 & G1). destruct (K (m :: b) Nb) as (d & y & E2 & H2 & F2 & G2). rewrite E1, E2 in E. cbn [hd tl] in *.
  destruct (before_stop P0 _ _ _ _ _ _ (decimal_commas n) (decimal_commas m) H1 H2 E) as (En & Ec & Ex). apply decimal_inj in En. subst m d y. f_equal.
  destruct a as [|n' a], b as [|m' b]; [reflexivity| | |].
  - rewrite (F1 eq_refl) in G2. destruct G2 as [X _]; discriminate.
  - rewrite (F2 eq_refl) in G1. destruct G1 as [X _]; discriminate.
  - destruct G1 as [_ X1]; [discriminate|]. destruct G2 as [_ X2]; [discriminate|]. rewrite X1 in X2. injection X2 as X2. apply IH; auto; discriminate.
Qed.
Lemma shape_one s : OneLine (show_shape s).
Proof.
  assert (C : forall l, OneLine (commas l)).
  { induction l as [|n [|m l] IH]; [exact I|apply decimal_one|]. cbn [commas]. rewrite !one_app. split; [apply decimal_one|]. split; [repeat split; discriminate|exact IH]. }
  assert (X : OneLine ("(" ++ String.concat ", " (map decimal s) ++ ")")) by (rewrite commas_concat, !one_app; repeat split; try discriminate; apply C).
  destruct s as [|n [|m s]]; [exact X| |exact X]. cbn [show_shape]. rewrite !one_app. repeat split; try discriminate. apply decimal_one.
Qed.
Lemma digit_head n : exists c r, decimal n = String c r.
Proof.
  destruct (decimal n) as [|c r] eqn:E; [|eauto]. exfalso. unfold decimal, dec in E.
  assert (N.to_uint (N.of_nat n) = Decimal.Nil) by (destruct (N.to_uint (N.of_nat n)); try discriminate; reflexivity).
  destruct (N.of_nat n) as [|p]; [discriminate|]. cbn in H. now apply DecimalPos.Unsigned.to_uint_nonnil in H.
Qed.
Lemma shape_inj a b : show_shape a = show_shape b -> a = b.
Proof.
  assert (G : forall l, show_shape l = match l with [n] => ("(" ++ decimal n ++ ",)")%string | _ => ("(" ++ commas l ++ ")")%string end).
  { intros [|n [|m l]]; [reflexivity..|]. cbn [show_shape]. now rewrite commas_concat. }
  assert (W : forall n m l, (decimal n ++ ",)")%string <> (commas (m :: l) ++ ")")%string).
  { intros n m l E. destruct l as [|k l].
    - cbn [commas] in E. destruct (before_stop P0 _ _ _ _ _ _ (decimal_commas n) (decimal_commas m) (fun H => proj1 H eq_refl) (fun H => proj2 H eq_refl) E) as (_ & X & _). discriminate.
    - cbn [commas] in E. rewrite sapp_assoc in E. destruct (before_stop P0 _ _ _ _ _ _ (decimal_commas n) (decimal_commas m) (fun H => proj1 H eq_refl) (fun H => proj1 H eq_refl) E) as (_ & _ & X). discriminate. }
  assert (V : forall m l, (commas (m :: l) ++ ")")%string <> ")").
  { intros m l E. destruct (digit_head m) as (c & r & D). pose proof (decimal_commas m) as Hd. rewrite D in Hd. destruct Hd as [Hd _]. destruct l; cbn [commas] in E; rewrite D in E; cbn [append] in E; injection E as E _; now apply Hd. }
  rewrite !G. destruct a as [|n [|m a]], b as [|n' [|m' b]]; intros E; auto; cbn [append] in E; injection E as E.
  - exfalso. destruct (digit_head n') as (c & r & D). pose proof (decimal_commas n') as Hd. rewrite D in Hd, E. destruct Hd as [Hd _]. cbn [append] in E. injection E as E _. now apply Hd.
  - exfalso. symmetry in E. exact (V n' (m' :: b) E).
  - exfalso. destruct (digit_head n) as (c & r & D). pose proof (decimal_commas n) as Hd. rewrite D in Hd, E. destruct Hd as [Hd _]. cbn [append] in E. injection E as E _. now apply Hd.
  - destruct (before_stop P0 _ _ _ _ _ _ (decimal_commas n) (decimal_commas n') (fun H => proj1 H eq_refl) (fun H => proj1 H eq_refl) E) as (X & _). apply decimal_inj in X. now subst.
  - exfalso. exact (W n n' (m' :: b) E).
  - exfalso. exact (V n (m :: a) E).
  - exfalso. symmetry in E. exact (W n' n (m :: a) E).
  - apply (commas_inj (n :: m :: a) (n' :: m' :: b)); [discriminate|discriminate|exact E].
Qed.

(** ** Spaces *)
Definition P0' (c : ascii) : Prop := c <> " "%char.
Lemma decimal_digits n : MaskSpec.all_chars P0' (decimal n).
Proof. apply uint_chars. intros c H. cbn in H. unfold P0'. repeat (destruct H as [<-|H]; [discriminate|]). destruct H. Qed.
