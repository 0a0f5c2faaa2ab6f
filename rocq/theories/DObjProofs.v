From Coq Require Import String Lqa.
From Verif Require Import Common CommonProofs DepthModel DepthProofs GridTypeModel GridTypeProofs DObjModel DObjSpec.
Open Scope string_scope.
Open Scope list_scope.
Open Scope nat_scope.

Lemma dget_in {V} (d : dict V) k v : dget d k = Some v -> In (k, v) d.
Proof. induction d as [|[a x] d IH]; cbn; [discriminate|]. destruct (String.eqb_spec k a) as [->|]; [intros H; injection H as ->; now left|auto]. Qed.
Lemma dget_none {V} (d : dict V) k : dget d k = None <-> ~ In k (map fst d).
Proof. induction d as [|[a x] d IH]; cbn; [tauto|]. destruct (String.eqb_spec k a) as [->|N]; [split; [discriminate|tauto]|]. rewrite IH. intuition congruence. Qed.
Lemma dget_iff {V} (d : dict V) k v : NoDup (map fst d) -> In (k, v) d -> dget d k = Some v.
Proof.
  induction d as [|[a x] d IH]; cbn; [tauto|]. intros N. inversion N as [|? ? Na Nd]; subst. intros [E|H]; [injection E as -> ->; now rewrite String.eqb_refl|].
  destruct (String.eqb_spec k a) as [->|]; [|auto]. exfalso. apply Na. apply in_map_iff. exists (a, v). auto.
Qed.
Lemma arg_value kw k d : Value kw k d (arg kw k d).
Proof. unfold Value, arg. destruct (dget kw k) eqn:E; [left; now apply dget_in|right; split; [now apply dget_none|reflexivity]]. Qed.
Lemma isin_iff k l : isin k l = true <-> In k l.
Proof. unfold isin. rewrite existsb_exists. split; [intros (x & H & E); apply String.eqb_eq in E; now subst|intros H; exists k; split; [auto|apply String.eqb_refl]]. Qed.
Lemma dget_drop kw ks k : ~ In k ks -> dget (drop ks kw) k = dget kw k.
Proof.
  intros H. unfold drop. induction kw as [|[a x] kw IH]; cbn [filter]; [reflexivity|]. cbn [fst]. destruct (isin a ks) eqn:E; cbn [negb dget].
  - apply isin_iff in E. destruct (String.eqb_spec k a) as [->|]; [tauto|auto].
  - now rewrite IH.
Qed.
Lemma fixed_blocked c k : isin k (fixed c) = true <-> Blocked c k.
Proof. rewrite isin_iff. unfold fixed, Blocked. destruct c; cbn; intuition congruence. Qed.

Lemma set_terms_ok c : forall d o, (forall k, In k (map fst d) -> ~ Blocked c k) ->
  exists o', set_terms c o d = Ok o' /\ forall k, ~ In k (map fst d) -> dget o' k = dget o k.
Proof.
  induction d as [|[a x] d IH]; intros o H; cbn [set_terms]; [eauto|]. unfold set_attr. destruct (isin a (fixed c)) eqn:E.
  - apply fixed_blocked in E. exfalso. apply (H a); [now left|auto].
  - cbn [bind]. destruct (IH (dset o a x)) as (o' & E' & G); [intros k Hk; apply H; now right|]. exists o'. split; [auto|]. intros k Hk. rewrite G by (cbn in Hk; tauto).
    rewrite dget_dset. destruct (String.eqb_spec k a) as [->|]; [cbn in Hk; tauto|reflexivity].
Qed.
Lemma set_terms_get c : forall d o o', NoDup (map fst d) -> set_terms c o d = Ok o' -> forall k v, In (k, v) d -> dget o' k = Some v.
Proof.
  induction d as [|[a x] d IH]; intros o o' N E k v H; [destruct H|]. inversion N as [|? ? Na Nd]; subst. cbn [set_terms] in E. unfold set_attr in E.
  destruct (isin a (fixed c)) eqn:F; [discriminate|]. cbn [bind] in E. destruct H as [H|H]; [|eauto]. injection H as -> ->.
  destruct (set_terms_ok c d (dset o k v)) as (o2 & E2 & G).
  - intros y Hy. intros B. apply fixed_blocked in B. revert E. clear - Hy B. revert o'. generalize (dset o k v). induction d as [|[b w] d IH]; intros o1 o'; [destruct Hy|]. cbn [set_terms]. unfold set_attr.
    destruct Hy as [<-|Hy]; [cbn [fst] in B; now rewrite B|]. destruct (isin b (fixed c)); [discriminate|]. cbn [bind]. now apply IH.
  - rewrite E in E2. injection E2 as <-. rewrite (G k Na), dget_dset, String.eqb_refl. reflexivity.
Qed.
Lemma set_terms_blocked c : forall d o, (exists k, In k (map fst d) /\ Blocked c k) -> set_terms c o d = Err AttributeError.
Proof.
  induction d as [|[a x] d IH]; intros o (k & Hk & B); [destruct Hk|]. cbn [set_terms]. unfold set_attr. destruct (isin a (fixed c)) eqn:F; [reflexivity|]. cbn [bind].
  apply IH. exists k. split; [|auto]. destruct Hk as [<-|]; [|auto]. cbn [fst] in B. apply fixed_blocked in B. congruence.
Qed.

Section First.
  Context (better : Q -> Q -> bool) (R : forall x, better x x = false) (T : forall x y z, better x y = false -> better z y = true -> better z x = true)
    (Tr : forall x y z, better x y = true -> better y z = true -> better x z = true).
  Lemma argbest_first : forall l k best b pre, length pre = k ->
    nth_error pre best = Some b -> (forall j x, j < best -> nth_error pre j = Some x -> better b x = true) -> (forall x, In x pre -> better x b = false) ->
    exists m, nth_error (pre ++ l) (argbest better k best b l) = Some m /\ (forall x, In x (pre ++ l) -> better x m = false) /\
      forall j x, j < argbest better k best b l -> nth_error (pre ++ l) j = Some x -> better m x = true.
  Proof.
    induction l as [|y l IH]; intros k best b pre Hk Hb Hf Hm; cbn [argbest].
    - exists b. rewrite app_nil_r. auto.
    - replace (pre ++ y :: l) with ((pre ++ [y]) ++ l) by (now rewrite <- app_assoc). destruct (better y b) eqn:E.
      + apply IH; auto.
        * rewrite app_length. cbn. lia.
        * rewrite nth_error_app2 by lia. rewrite Hk, Nat.sub_diag. reflexivity.
        * intros j x Hj Hx. rewrite nth_error_app1 in Hx by lia. apply nth_error_In in Hx. specialize (Hm x Hx). eapply T; eauto.
        * intros x Hx. apply in_app_or in Hx. destruct Hx as [Hx|[->|[]]]; [|apply R].
          destruct (better x y) eqn:E2; [|reflexivity]. exfalso. pose proof (Hm x Hx). assert (better x b = true) by eauto. congruence.
      + apply IH; auto.
        * rewrite app_length. cbn. lia.
        * rewrite nth_error_app1; [auto|]. apply nth_error_Some_lt in Hb. lia.
        * intros j x Hj Hx. rewrite nth_error_app1 in Hx; eauto. apply nth_error_Some_lt in Hb. lia.
        * intros x Hx. apply in_app_or in Hx. destruct Hx as [Hx|[->|[]]]; auto.
  Qed.
End First.
Lemma qlt_true a b : Qlt_bool a b = true <-> (a < b)%Q.
Proof. unfold Qlt_bool. rewrite negb_true_iff. split; [intros H; apply Qnot_le_lt; intros L; apply Qle_bool_iff in L; congruence|intros H; destruct (Qle_bool b a) eqn:E; [apply Qle_bool_iff in E; lra|reflexivity]]. Qed.
Lemma qlt_false a b : Qlt_bool a b = false <-> (b <= a)%Q.
Proof. unfold Qlt_bool. rewrite negb_false_iff. apply Qle_bool_iff. Qed.
Lemma argmin_first l : l <> [] -> exists k, argmin l = Ok k /\ FirstLeast l k.
Proof.
  destruct l as [|x l]; [congruence|]. intros _. unfold argmin. eexists. split; [reflexivity|].
  destruct (argbest_first Qlt_bool) with (l := l) (k := 1) (best := 0) (b := x) (pre := [x]) as (m & A & B & C); auto.
  - intros y. apply qlt_false. lra.
  - intros a b c H1 H2. apply qlt_false in H1. apply qlt_true in H2. apply qlt_true. lra.
  - intros a b c H1 H2. apply qlt_true in H1, H2. apply qlt_true. lra.
  - intros j y Hj. lia.
  - intros y [->|[]]. apply qlt_false. lra.
  - exists m. split; [exact A|]. split; [intros y Hy; apply qlt_false; now apply B|intros j y Hj Hy; apply qlt_true; eapply C; eauto].
Qed.
Lemma argmax_first l : l <> [] -> exists k, argmax l = Ok k /\ FirstGreatest l k.
Proof.
  destruct l as [|x l]; [congruence|]. intros _. unfold argmax. eexists. split; [reflexivity|].
  destruct (argbest_first (fun a b => Qlt_bool b a)) with (l := l) (k := 1) (best := 0) (b := x) (pre := [x]) as (m & A & B & C); auto.
  - intros y. apply qlt_false. lra.
  - intros a b c H1 H2. apply qlt_false in H1. apply qlt_true in H2. apply qlt_true. lra.
  - intros a b c H1 H2. apply qlt_true in H1, H2. apply qlt_true. lra.
  - intros j y Hj. lia.
  - intros y [->|[]]. apply qlt_false. lra.
  - exists m. split; [exact A|]. split; [intros y Hy; apply qlt_false; now apply B|intros j y Hj Hy; apply qlt_true; eapply C; eauto].
Qed.

(** ** Construction *)
Lemma take_ok c o d : (forall k, In k (map fst d) -> ~ Blocked c k) -> NoDup (map fst d) ->
  exists o', take_terms c o (VDict d) = Ok o' /\ (forall k v, In (k, v) d -> dget o' k = Some v) /\
    forall k, ~ In k (map fst d) -> dget o' k = if String.eqb k "terms" then Some (VDict d) else dget o k.
Proof.
  intros H N. cbn [take_terms]. destruct (set_terms_ok c d (dset o "terms" (VDict d)) H) as (o' & E & G). exists o'. split; [exact E|]. split; [eapply set_terms_get; eauto|].
  intros k Hk. rewrite (G k Hk). apply dget_dset.
Qed.
