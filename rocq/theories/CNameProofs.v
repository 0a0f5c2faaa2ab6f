From Coq Require Import String Ascii.
From Verif Require Import Common CommonProofs IsoModel LoadProofs CNameModel CNameSpec.
Open Scope string_scope.
Open Scope list_scope.
Open Scope nat_scope.

Fixpoint occurs (c : ascii) (s : string) : Prop := match s with EmptyString => False | String a r => a = c \/ occurs c r end.
Lemma occurs_app c a b : occurs c (a ++ b)%string <-> occurs c a \/ occurs c b.
Proof. induction a as [|x a IH]; cbn; [tauto|]. rewrite IH. tauto. Qed.
Lemma uint_no_bar d : ~ occurs "_" (DecimalString.NilEmpty.string_of_uint d).
Proof. induction d; cbn; intros H; try tauto; destruct H as [H|H]; try discriminate; tauto. Qed.
Lemma last_bar : forall a a' d d', ~ occurs "_" d -> ~ occurs "_" d' -> (a ++ "_" ++ d = a' ++ "_" ++ d')%string -> a = a' /\ d = d'.
Proof.
  induction a as [|x a IH]; intros [|x' a'] d d' H H' E; cbn in E.
  - injection E as ->. auto.
  - injection E as <- ->. exfalso. apply H. apply occurs_app. right. cbn. now left.
  - injection E as -> <-. exfalso. apply H'. apply occurs_app. right. cbn. now left.
  - injection E as -> E2. destruct (IH a' d d' H H' E2) as [-> ->]. auto.
Qed.

Section Names.
  Context (cname : nat -> string) (bases : nat -> list nat) (how : nat -> counting).
  Notation create := (create cname bases how).
  Notation create_all := (create_all cname bases how).
  Lemma class_name_inj c n d m : class_name cname c n = class_name cname d m -> cname c = cname d /\ n = m.
  Proof.
    unfold class_name. intros H. apply last_bar in H; [|apply uint_no_bar|apply uint_no_bar]. destruct H as [H1 H2]. split; [auto|]. apply dec_inj in H2. lia.
  Qed.
  Definition grows (st st' : counters) : Prop := forall c n, st c = Some n -> exists n', st' c = Some n' /\ n <= n'.
  Lemma counter_own st c n : st c = Some n -> counter bases st c = Some n.
  Proof. intros H. unfold counter. cbn [lookup]. now rewrite H. Qed.
  Lemma put_same st c n : put st c n c = Some n.
  Proof. unfold put. now rewrite Nat.eqb_refl. Qed.
  Lemma put_grows st c n : counter bases st c = Some n -> grows st (put st c (S n)).
  Proof.
    intros H d m E. unfold put. destruct (Nat.eqb_spec d c) as [->|]; [|eauto]. rewrite (counter_own _ _ _ E) in H. injection H as ->. eauto.
  Qed.
  Lemma grows_refl st : grows st st. Proof. intros c n H. eauto. Qed.
  Lemma grows_trans a b c : grows a b -> grows b c -> grows a c.
  Proof. intros H1 H2 d n E. destruct (H1 d n E) as (m & E1 & L1). destruct (H2 d m E1) as (k & E2 & L2). exists k. split; [auto|lia]. Qed.
  Lemma create_grows st c g st' s : create st c g = Ok (st', s) -> grows st st'.
  Proof.
    unfold CNameModel.create. destruct g as [g|].
    - destruct (how c); [|intros H; injection H as <- _; apply grows_refl..]. destruct (counter bases st c) eqn:E; [|discriminate]. intros H. injection H as <- _. now apply put_grows.
    - destruct (counter bases st c) eqn:E; [|discriminate]. intros H. injection H as <- _. destruct (how c); [now apply put_grows|now apply put_grows|apply grows_refl].
  Qed.
  (** A default name of a counting class is below the counter afterwards. *)
  Lemma create_none st c st' s : how c <> CountNone -> create st c None = Ok (st', s) ->
    exists n, s = class_name cname c n /\ st' c = Some (S n) /\ forall m, st c = Some m -> m = n.
  Proof.
    intros H. unfold CNameModel.create. destruct (counter bases st c) as [n|] eqn:E; [|discriminate]. intros X. injection X as <- <-. exists n. split; [reflexivity|]. split.
    - destruct (how c); [apply put_same|apply put_same|congruence].
    - intros m Hm. rewrite (counter_own _ _ _ Hm) in E. congruence.
  Qed.
  (** Every default name later is at least the counter now. *)
  Lemma later_names : forall ops st st' names k i c s, create_all st ops = Ok (st', names) -> how c <> CountNone -> st c = Some k ->
    nth_error ops i = Some (c, None) -> nth_error names i = Some s -> exists n, s = class_name cname c n /\ k <= n.
  Proof.
    induction ops as [|[d g] ops IH]; intros st st' names k i c s E Hc Hk Hi Hs; [destruct i; discriminate|]. cbn [CNameModel.create_all] in E.
    destruct (create st d g) as [[st1 s1]|] eqn:E1; [|discriminate]. cbn [bind fst] in E. destruct (create_all st1 ops) as [[st2 ns]|] eqn:E2; [|discriminate]. cbn [bind fst snd] in E.
    injection E as <- <-. destruct i as [|i]; cbn in Hi, Hs.
    - injection Hi as -> ->. injection Hs as <-. destruct (create_none _ _ _ _ Hc E1) as (n & -> & _ & H). exists n. split; [reflexivity|]. rewrite (H k Hk). lia.
    - destruct (create_grows _ _ _ _ _ E1 c k Hk) as (k' & Hk' & L). destruct (IH _ _ _ k' i c s E2 Hc Hk' Hi Hs) as (n & En & Ln). exists n. split; [auto|lia].
  Qed.
  Lemma all_names : forall ops st st' names i c s, create_all st ops = Ok (st', names) -> nth_error ops i = Some (c, None) -> nth_error names i = Some s -> exists n, s = class_name cname c n.
  Proof.
    induction ops as [|[d g] ops IH]; intros st st' names i c s E Hi Hs; [destruct i; discriminate|]. cbn [CNameModel.create_all] in E.
    destruct (create st d g) as [[st1 s1]|] eqn:E1; [|discriminate]. cbn [bind fst] in E. destruct (create_all st1 ops) as [[st2 ns]|] eqn:E2; [|discriminate]. cbn [bind fst snd] in E.
    injection E as <- <-. destruct i as [|i]; cbn in Hi, Hs; [|eauto]. injection Hi as -> ->. injection Hs as <-. unfold CNameModel.create in E1.
    destruct (counter bases st c); [|discriminate]. injection E1 as _ <-. eauto.
  Qed.
  Lemma differ_lt : forall ops st st' names i j c d a b, create_all st ops = Ok (st', names) -> i < j ->
    (forall c, In (c, None) ops -> how c <> CountNone) -> (forall c d, In (c, None) ops -> In (d, None) ops -> cname c = cname d -> c = d) ->
    nth_error ops i = Some (c, None) -> nth_error ops j = Some (d, None) -> nth_error names i = Some a -> nth_error names j = Some b -> a <> b.
  Proof.
    induction ops as [|[x g] ops IH]; intros st st' names i j c d a b E Hij Hc Hinj Hi Hj Ha Hb; [destruct i; discriminate|].
    pose proof E as E0. cbn [CNameModel.create_all] in E.
    destruct (create st x g) as [[st1 s1]|] eqn:E1; [|discriminate]. cbn [bind fst] in E. destruct (create_all st1 ops) as [[st2 ns]|] eqn:E2; [|discriminate]. cbn [bind fst snd] in E.
    injection E as <- <-. destruct j as [|j]; [lia|]. destruct i as [|i].
    - cbn in Hi, Ha, Hj, Hb. injection Hi as -> ->. injection Ha as <-. assert (Ic : how c <> CountNone) by (apply Hc; now left).
      destruct (create_none _ _ _ _ Ic E1) as (n & -> & Hn & _). intros <-.
      destruct (all_names _ _ _ _ _ _ _ E2 Hj Hb) as (m & Em). destruct (class_name_inj _ _ _ _ Em) as [En _].
      apply Hinj in En; [|now left|right; eapply nth_error_In; eauto]. subst d.
      destruct (later_names _ _ _ _ (S n) _ _ _ E2 Ic Hn Hj Hb) as (k & Ek & L). apply class_name_inj in Ek. lia.
    - cbn in Hi, Ha, Hj, Hb. apply (IH st1 st2 ns i j c d a b); auto; [lia|intros; apply Hc; now right|intros; apply Hinj; auto; now right].
  Qed.
  (** Counting from the class's own counter. *)
  Definition counts (c : nat) (op : nat * option string) : bool :=
    (fst op =? c) && match how c, snd op with CountAll, _ => true | CountUnnamed, None => true | _, _ => false end.
  Lemma create_count st d g st' s c k : create st d g = Ok (st', s) -> st c = Some k ->
    st' c = Some (k + if counts c (d, g) then 1 else 0).
  Proof.
    unfold CNameModel.create, counts. cbn [fst snd]. intros E Hk. destruct (Nat.eqb_spec d c) as [->|Hd]; cbn [andb].
    - destruct g as [g|]; destruct (how c); rewrite ?(counter_own _ _ _ Hk) in E; injection E as <- _; rewrite ?put_same, ?Hk; f_equal; lia.
    - assert (P : forall n, put st d n c = Some k) by (intros n; unfold put; destruct (Nat.eqb_spec c d); congruence).
      rewrite Nat.add_0_r. destruct g as [g|]; destruct (how d); try (destruct (counter bases st d); [|discriminate]); injection E as <- _; auto.
  Qed.
  Lemma numbering : forall ops st st' names k i c s, create_all st ops = Ok (st', names) -> st c = Some k ->
    nth_error ops i = Some (c, None) -> nth_error names i = Some s -> s = class_name cname c (k + length (filter (counts c) (firstn i ops))).
  Proof.
    induction ops as [|[d g] ops IH]; intros st st' names k i c s E Hk Hi Hs; [destruct i; discriminate|]. cbn [CNameModel.create_all] in E.
    destruct (create st d g) as [[st1 s1]|] eqn:E1; [|discriminate]. cbn [bind fst] in E. destruct (create_all st1 ops) as [[st2 ns]|] eqn:E2; [|discriminate]. cbn [bind fst snd] in E.
    injection E as <- <-. destruct i as [|i]; cbn [nth_error firstn filter] in *.
    - injection Hi as -> ->. injection Hs as <-. unfold CNameModel.create in E1. rewrite (counter_own _ _ _ Hk) in E1. injection E1 as _ <-. cbn. now rewrite Nat.add_0_r.
    - pose proof (create_count _ _ _ _ _ _ _ E1 Hk) as Hk'. rewrite (IH _ _ _ _ i c s E2 Hk' Hi Hs). f_equal. destruct (counts c (d, g)); cbn [length]; lia.
  Qed.
  Lemma kept : forall ops st st' names i c s, create_all st ops = Ok (st', names) -> nth_error ops i = Some (c, Some s) -> nth_error names i = Some s.
  Proof.
    induction ops as [|[d g] ops IH]; intros st st' names i c s E Hi; [destruct i; discriminate|]. cbn [CNameModel.create_all] in E.
    destruct (create st d g) as [[st1 s1]|] eqn:E1; [|discriminate]. cbn [bind fst] in E. destruct (create_all st1 ops) as [[st2 ns]|] eqn:E2; [|discriminate]. cbn [bind fst snd] in E.
    injection E as <- <-. destruct i as [|i]; cbn in Hi |- *; [|eauto]. injection Hi as -> ->. unfold CNameModel.create in E1.
    destruct (how c); [destruct (counter bases st c); [|discriminate]| |]; injection E1 as _ <-; reflexivity.
  Qed.
  Lemma create_runs : forall ops st, (forall c, In c (map fst ops) -> exists d, In d (c :: bases c) /\ st d <> None) -> exists st' names, create_all st ops = Ok (st', names) /\ length names = length ops.
  Proof.
    induction ops as [|[d g] ops IH]; intros st H; [exists st, []; auto|]. cbn [CNameModel.create_all].
    assert (C : exists n, counter bases st d = Some n).
    { destruct (H d) as (x & Hx & Nx); [now left|]. unfold counter. induction (d :: bases d) as [|y l IHl]; [destruct Hx|]. cbn [lookup]. destruct (st y) as [n|] eqn:Ey; [eauto|]. destruct Hx as [->|Hx]; [congruence|auto]. }
    destruct C as [n Hn]. assert (E : exists st1 s1, create st d g = Ok (st1, s1)).
    { unfold CNameModel.create. rewrite Hn. destruct g; [destruct (how d)|]; eauto. }
    destruct E as (st1 & s1 & E). rewrite E. cbn [bind fst]. destruct (IH st1) as (st2 & ns & E2 & L).
    - intros c Hc. destruct (H c) as (x & Hx & Nx); [now right|]. exists x. split; [auto|]. destruct (st x) as [m|] eqn:Em; [|congruence]. destruct (create_grows _ _ _ _ _ E x m Em) as (m' & -> & _). discriminate.
    - rewrite E2. cbn [bind fst snd]. exists st2, (s1 :: ns). split; [reflexivity|]. cbn. now rewrite L.
  Qed.
End Names.
