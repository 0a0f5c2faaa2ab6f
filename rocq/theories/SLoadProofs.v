(** Lemmas about loading depths. *)
From Coq Require Import String.
From Verif Require Import Common CommonProofs TimeModel GridTypeModel GridTypeProofs SearchModel SearchSpec SearchProofs SearchProps TFileModel LoadModel LoadProofs SLoadModel SLoadSpec.
Open Scope string_scope.
Open Scope list_scope.
Open Scope nat_scope.

Lemma finds_best names cf f k qn qc : NoDup (map fst names) -> NoDup (map fst cf) -> In (k, qn) names -> In (k, qc) cf ->
  exists r, finds names cf f k = Some r /\ Best f f qc qn r.
Proof.
  intros N1 N2 H1 H2. unfold finds. apply c55_precedence; auto; [right; now exists qn|now left|now left].
Qed.
Lemma finds_unique names cf f k n labels v : NoDup (map fst names) -> NoDup (map fst cf) -> In (k, [n]) names -> In (k, labels) cf ->
  NamedAndLabelled f n labels v -> finds names cf f k = Some (Some v).
Proof.
  intros N1 N2 H1 H2 (I & En & U & L). destruct (finds_best names cf f k _ _ N1 N2 H1 H2) as (r & -> & B). f_equal.
  destruct r as [w|].
  - f_equal. destruct B as [(q & (pre & post & Eq & _) & A)|(_ & [(q & (pre & post & Eq & _) & A)|(_ & X & _)])].
    + assert (In q labels) by (rewrite Eq; apply in_or_app; cbn; auto).
      destruct A as [(p1 & p2 & E & C & _)|(_ & p1 & p2 & E & C & _)]; (apply (L w q); auto; [rewrite E; apply in_or_app; cbn; auto|]); [now left|now right].
    + assert (q = n). { assert (X : In q [n]) by (rewrite Eq; apply in_or_app; cbn; auto). destruct X as [->|[]]. reflexivity. } subst q.
      destruct A as (p1 & p2 & E & C & _). apply U; auto. rewrite E. apply in_or_app. cbn. auto.
    + congruence.
  - exfalso. destruct B as (_ & B & _). destruct (in_split _ _ I) as (p1 & p2 & E).
    assert (X : exists w, NameAnswer f n w).
    { clear - I En. unfold NameAnswer, FirstOf. revert I. induction (f_vars f) as [|x l IH]; intros I; [contradiction|].
      destruct (string_dec (v_name x) n) as [Ex|Ex].
      - exists x, [], l. repeat split; auto; intros y [].
      - destruct I as [->|I]; [contradiction|]. destruct (IH I) as (w & pre & post & -> & C & N). exists w, (x :: pre), post. split; [reflexivity|]. split; [exact C|].
        intros y [<-|Hy]; auto. }
    destruct X as (w & X). apply (B n) in X; cbn; auto.
Qed.
