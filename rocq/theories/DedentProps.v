(** C111: indentation is taken off reports, whatever blanks it is made of. *)
From Coq Require Import String Ascii.
From Verif Require Import Common MaskSpec MaskProofs InfoModel InfoSpec InfoProofs.
Open Scope string_scope.
Open Scope list_scope.

(** A blank or a tab. *)
Definition Indents (w : string) : Prop := all_chars (fun c => c = " "%char \/ c = "009"%char) w.
Definition Flush (l : string) : Prop := exists c r, l = String c r /\ c <> " "%char /\ c <> "009"%char.

Lemma space_iff c : space c = true <-> c = " "%char \/ c = "009"%char.
Proof. unfold space. now rewrite orb_true_iff, !Ascii.eqb_eq. Qed.
Lemma indent_app w l : Indents w -> indent (w ++ l)%string = (w ++ indent l)%string.
Proof. induction w as [|c w IH]; [reflexivity|]. intros [Hc Hw]. cbn [append indent]. apply space_iff in Hc. now rewrite Hc, IH. Qed.
Lemma blank_app w l : Indents w -> blank (w ++ l)%string = blank l.
Proof. induction w as [|c w IH]; [reflexivity|]. intros [Hc Hw]. cbn [append blank]. apply space_iff in Hc. rewrite Hc. now apply IH. Qed.
Lemma meet_app w a b : meet (w ++ a)%string (w ++ b)%string = (w ++ meet a b)%string.
Proof. induction w as [|c w IH]; [reflexivity|]. cbn [append meet]. now rewrite Ascii.eqb_refl, IH. Qed.
Lemma meets_app w r : forall i, fold_left meet (map (append w) r) (w ++ i)%string = (w ++ fold_left meet r i)%string.
Proof. induction r as [|a r IH]; intros i; [reflexivity|]. cbn [map fold_left]. now rewrite meet_app, IH. Qed.
Lemma meet_flush r : forall i, (i = "" \/ In "" r) -> fold_left meet r i = "".
Proof.
  induction r as [|a r IH]; intros i H; [destruct H as [H|[]]; exact H|]. cbn [fold_left]. apply IH. destruct H as [->|[->|H]]; [left; reflexivity|left; destruct i; reflexivity|now right].
Qed.
Lemma strip_app w l : strip w (w ++ l)%string = Some l.
Proof. induction w as [|c w IH]; [now destruct l|]. cbn [append strip]. now rewrite Ascii.eqb_refl. Qed.
Lemma filter_none {A} (p : A -> bool) l : (forall x, In x l -> p x = true) -> filter p l = l.
Proof. induction l as [|x l IH]; [reflexivity|]. intros H. cbn [filter]. rewrite (H x (or_introl eq_refl)), IH; [reflexivity|]. intros y Hy. apply H. now right. Qed.

(** Lines with something in them, one of them flush left: indented by the same
    blanks and tabs, they are dedented to themselves. *)
Theorem c111_dedented : forall w ls,
  Indents w -> Forall OneLine ls -> (forall l, In l ls -> ~ Indents l) -> (exists l, In l ls /\ Flush l) ->
  dedent (unlines (map (append w) ls)) = unlines ls.
Proof.
  intros w ls Hw F1 Nb (l0 & I0 & c0 & r0 & E0 & C1 & C2).
  assert (Bl : forall l, In l ls -> blank l = false).
  { intros l I. apply not_true_is_false. intros B. apply (Nb l I). clear - B. induction l as [|c l IH]; [exact Logic.I|]. cbn [blank] in B. apply andb_true_iff in B. destruct B as [B1 B2].
    split; [now apply space_iff|now apply IH]. }
  assert (Ow : OneLine w). { clear - Hw. induction w as [|c w IH]; [exact Logic.I|]. destruct Hw as [Hc Hw]. split; [destruct Hc as [-> | ->]; discriminate|now apply IH]. }
  unfold dedent. rewrite lines_unlines.
  - assert (E : map cleared (map (append w) ls) = map (append w) ls).
    { rewrite map_map. apply map_ext_in. intros l I. unfold cleared. now rewrite blank_app, (Bl l I). }
    rewrite E. clear E.
    assert (M : margin (map (append w) ls) = w).
    { unfold margin. rewrite filter_none.
      - rewrite map_map. rewrite (map_ext_in _ (fun l => (w ++ indent l)%string)) by (intros l _; now apply indent_app). rewrite <- (map_map indent (append w)).
        assert (J : In "" (map indent ls)).
        { apply in_map_iff. exists l0. split; [|exact I0]. rewrite E0. cbn [indent]. destruct (space c0) eqn:S; [|reflexivity]. apply space_iff in S. tauto. }
        destruct (map indent ls) as [|i r]; [destruct J|]. cbn [map]. rewrite meets_app, meet_flush; [apply sapp_nil|]. destruct J as [->|J]; auto.
      - intros x Hx. apply in_map_iff in Hx. destruct Hx as (l & <- & I). now rewrite blank_app, (Bl l I). }
    rewrite M, map_map. f_equal. rewrite <- (map_id ls) at 2. apply map_ext. intros l. unfold stripped. now rewrite strip_app.
  - intros X. apply map_eq_nil in X. subst ls. destruct I0.
  - apply Forall_forall. intros x Hx. apply in_map_iff in Hx. destruct Hx as (l & <- & I). apply one_app. split; [exact Ow|]. rewrite Forall_forall in F1. now apply F1.
Qed.
Print Assumptions c111_dedented.
Example c111_dedented_example :
  let w := String "009" (String " " "") in let ls := ["Time object:"; String "009" "filename: a.nc"; "  varname: t"] in
  Indents w /\ (exists l, In l ls /\ Flush l) /\ dedent (unlines (map (append w) ls)) = unlines ls.
Proof.
  intros w ls. assert (Hw : Indents w) by (repeat split; auto). assert (Fl : exists l, In l ls /\ Flush l) by (exists "Time object:"; split; [left; reflexivity|do 2 eexists; repeat split; discriminate]).
  split; [exact Hw|split; [exact Fl|]]. apply c111_dedented; auto.
  - repeat constructor; discriminate.
  - intros l Hl H. cbn [ls In] in Hl. destruct Hl as [<-|[<-|[<-|[]]]]; cbn in H; repeat (let X := fresh in destruct H as [X H]; try (destruct X; discriminate)).
Qed.
