(** Proofs about the chaining of boundary segments. *)
From Coq Require Import Permutation.
From Verif Require Import Common ChainModel ChainSpec.
Open Scope Z_scope.

Lemma insert_perm : forall s l, Permutation (insert_seg s l) (s :: l).
Proof.
  induction l as [|x l IH]; cbn; auto. destruct (seg_leb s x); auto.
  rewrite IH. apply perm_swap.
Qed.
Lemma sort_perm : forall l, Permutation (sort_segs l) l.
Proof. induction l; cbn; auto. rewrite insert_perm. now constructor. Qed.

Lemma steps_snoc : forall b p, b <> [] -> steps (b ++ [p]) = steps b ++ [(last_pt b, p)].
Proof.
  induction b as [|a b IH]; intros p H; [congruence|]. destruct b as [|c b]; [reflexivity|].
  change ((a :: c :: b) ++ [p]) with (a :: (c :: b) ++ [p]).
  change (steps (a :: (c :: b) ++ [p])) with ((a, c) :: steps ((c :: b) ++ [p])).
  rewrite IH by discriminate. reflexivity.
Qed.
Lemma steps_cons : forall b p, b <> [] -> steps (p :: b) = (p, first_pt b) :: steps b.
Proof. destruct b; intros; [congruence|reflexivity]. Qed.
Lemma last_snoc : forall b (p : Z), last_pt (b ++ [p]) = p.
Proof. intros. unfold last_pt. apply last_last. Qed.
Lemma first_snoc : forall b (p : Z), b <> [] -> first_pt (b ++ [p]) = first_pt b.
Proof. destruct b; intros; [congruence|reflexivity]. Qed.
Lemma last_cons : forall b (p : Z), b <> [] -> last_pt (p :: b) = last_pt b.
Proof. destruct b; intros; [congruence|reflexivity]. Qed.
Lemma steps_length : forall b, length (steps b) = (length b - 1)%nat.
Proof. induction b as [|a [|c b] IH]; cbn in *; auto. rewrite IH. lia. Qed.
Lemma map_fst_steps : forall b p, map fst (steps (b ++ [p])) = b.
Proof.
  induction b as [|a b IH]; intros p; [reflexivity|]. destruct b as [|c b]; [reflexivity|].
  change (steps ((a :: c :: b) ++ [p])) with ((a, c) :: steps ((c :: b) ++ [p])).
  cbn [map fst]. now rewrite IH.
Qed.
Lemma map_snd_steps : forall b p, map snd (steps (p :: b)) = b.
Proof.
  induction b as [|a b IH]; intros p; [reflexivity|].
  change (steps (p :: a :: b)) with ((p, a) :: steps (a :: b)). cbn [map snd]. now rewrite IH.
Qed.
Lemma fst_loop : forall l, map fst (loop_steps l) = l.
Proof. destruct l; [reflexivity|]. unfold loop_steps. apply map_fst_steps. Qed.

(** Closing a chain whose ends meet. *)
Lemma closed_steps : forall b, (2 <= length b)%nat -> first_pt b = last_pt b -> loop_steps (removelast b) = steps b.
Proof.
  intros b L E. destruct (@exists_last _ b) as (l & x & ->); [destruct b; cbn in L; [lia|discriminate]|].
  rewrite removelast_last. rewrite last_snoc in E. rewrite app_length in L. cbn in L.
  destruct l as [|a l]; [cbn in L; lia|]. cbn in E. subst x. reflexivity.
Qed.

Lemma attach_spec : forall b segs o, b <> [] -> attach b segs = Ok o ->
  match o with
  | None => forall s, In s segs -> fst s <> last_pt b /\ snd s <> last_pt b /\ fst s <> first_pt b /\ snd s <> first_pt b
  | Some (b', r) => exists s, Permutation segs (s :: r) /\ length b' = S (length b) /\ b' <> [] /\
      ((fst s = last_pt b /\ b' = b ++ [snd s]) \/
       (snd s = last_pt b /\ b' = b ++ [fst s]) \/
       (snd s = first_pt b /\ b' = fst s :: b))
  end.
Proof.
  intros b segs o Hb. revert o. induction segs as [|[p0 p1] r IH]; intros o H; cbn [attach] in H.
  - injection H as <-. intros s [].
  - destruct (Z.eqb_spec p0 (last_pt b)); [|destruct (Z.eqb_spec p1 (last_pt b));
      [|destruct (Z.eqb_spec p0 (first_pt b)); [discriminate|destruct (Z.eqb_spec p1 (first_pt b))]]].
    + injection H as <-. exists (p0, p1). repeat split; auto. { rewrite app_length. cbn. lia. } destruct b; discriminate.
    + injection H as <-. exists (p0, p1). repeat split; auto. { rewrite app_length. cbn. lia. } destruct b; discriminate.
    + injection H as <-. exists (p0, p1). repeat split; auto. discriminate.
    + destruct (attach b r) as [o'|]; [|discriminate]. cbn in H. injection H as <-.
      specialize (IH _ eq_refl). destruct o' as [[b' r']|]; cbn.
      * destruct IH as (s & P & L & N & C). exists s. repeat split; auto. rewrite P. apply perm_swap.
      * intros s [<-|I]; auto.
Qed.

Lemma und_swap : forall a b, undirected (a, b) = undirected (b, a).
Proof. intros. unfold undirected. cbn. destruct (Z.leb_spec a b), (Z.leb_spec b a); auto; f_equal; lia. Qed.

Lemma attach_und : forall b segs b' r, b <> [] -> attach b segs = Ok (Some (b', r)) ->
  Permutation (map undirected (steps b ++ segs)) (map undirected (steps b' ++ r)) /\
  b' <> [] /\ length b' = S (length b) /\ length segs = S (length r).
Proof.
  intros b segs b' r Hb H. apply attach_spec in H; auto. destruct H as ([p0 p1] & P & L & N & C).
  repeat split; auto.
  2:{ apply Permutation_length in P. exact P. }
  rewrite P, !map_app. cbn [map]. cbn [fst snd] in C.
  destruct C as [[-> ->]|[[-> ->]|[-> ->]]].
  - rewrite steps_snoc, map_app, <- app_assoc by auto. reflexivity.
  - rewrite steps_snoc, map_app, <- app_assoc by auto. cbn [map app]. rewrite und_swap. reflexivity.
  - rewrite steps_cons by auto. cbn [map app]. symmetry. apply Permutation_middle.
Qed.

Lemma grow_spec : forall fuel b segs g, (2 <= length b)%nat -> grow fuel b segs = Ok g ->
  let '(closed, b', r) := g in
  (length r <= length segs)%nat /\
  Permutation (map undirected (steps b ++ segs))
    (map undirected ((if closed : bool then loop_steps b' else steps b') ++ r)) /\
  (closed = false -> forall s, In s r -> fst s <> last_pt b' /\ snd s <> last_pt b' /\ fst s <> first_pt b' /\ snd s <> first_pt b').
Proof.
  induction fuel as [|f IH]; intros b segs g L H; [discriminate|]. cbn [grow] in H.
  destruct (attach b segs) as [o|] eqn:A; [|discriminate]. cbn [bind] in H.
  assert (Hb : b <> []) by (destruct b; cbn in L; [lia|discriminate]).
  destruct o as [[b' r]|].
  - destruct (attach_und _ _ _ _ Hb A) as (P & N & L1 & L2).
    destruct (Z.eqb_spec (first_pt b') (last_pt b')).
    + injection H as <-. split; [lia|]. split; [|discriminate]. rewrite closed_steps by (auto; lia). exact P.
    + apply IH in H; [|lia]. destruct g as [[c b''] r']. destruct H as (H1 & H2 & H3).
      split; [lia|]. split; auto. now rewrite P.
  - injection H as <-. split; auto. split; auto. intros _. now apply attach_spec in A.
Qed.

Lemma chains_spec : forall fuel segs cl op, chains fuel segs = Ok (cl, op) ->
  Permutation (map undirected segs)
    (map undirected (concat (map loop_steps cl) ++ concat (map steps op))).
Proof.
  induction fuel as [|f IH]; intros segs cl op H; cbn [chains] in H.
  - destruct segs; [injection H as <- <-|discriminate]. reflexivity.
  - destruct segs as [|[p0 p1] r]; [injection H as <- <-; reflexivity|].
    destruct (grow (S (length r)) [p0; p1] r) as [[[c b] rem]|] eqn:G; [|discriminate]. cbn [bind] in H.
    destruct (chains f rem) as [[cl' op']|] eqn:C; [|discriminate]. cbn [bind fst snd] in H.
    apply IH in C. apply grow_spec in G; [|cbn; lia]. destruct G as (_ & G & _).
    change (steps [p0; p1] ++ r) with ((p0, p1) :: r) in G. rewrite G, !map_app, C, map_app.
    destruct c; injection H as <- <-; cbn [map concat]; rewrite !map_app.
    + now rewrite <- app_assoc.
    + apply Permutation_app_swap_app.
Qed.

(** No run out of fuel: the only exception is the TypeError. *)
Lemma attach_err : forall b segs e, attach b segs = Err e -> e = TypeError.
Proof.
  induction segs as [|[p0 p1] r IH]; cbn; intros e H; [discriminate|].
  repeat (match type of H with (if ?c then _ else _) = _ => destruct c end; try discriminate; try congruence).
  destruct (attach b r) as [o|]; cbn in H; [discriminate|]. injection H as <-. auto.
Qed.
Lemma grow_err : forall fuel b segs e, (length segs < fuel)%nat -> (2 <= length b)%nat -> grow fuel b segs = Err e -> e = TypeError.
Proof.
  induction fuel as [|f IH]; intros b segs e L L2 H; [lia|]. cbn [grow] in H.
  destruct (attach b segs) as [o|] eqn:A; [|injection H as <-; now apply attach_err in A]. cbn [bind] in H.
  destruct o as [[b' r]|]; [|discriminate]. destruct (first_pt b' =? last_pt b'); [discriminate|].
  assert (Hb : b <> []) by (destruct b; cbn in L2; [lia|discriminate]).
  destruct (attach_und _ _ _ _ Hb A) as (P & N & L1 & L3). eapply IH; [| |exact H]; lia.
Qed.
Lemma chains_err : forall fuel segs e, (length segs <= fuel)%nat -> chains fuel segs = Err e -> e = TypeError.
Proof.
  induction fuel as [|f IH]; intros segs e L H; cbn [chains] in H.
  - destruct segs; [discriminate|cbn in L; lia].
  - destruct segs as [|[p0 p1] r]; [discriminate|].
    destruct (grow (S (length r)) [p0; p1] r) as [[[c b] rem]|e'] eqn:G; cbn [bind] in H.
    + apply grow_spec in G; [|cbn; lia]. destruct G as (G & _).
      destruct (chains f rem) eqn:C; cbn [bind] in H; [destruct c; discriminate|]. injection H as <-.
      eapply IH; [|exact C]. cbn in L. lia.
    + injection H as <-. eapply grow_err; [| |exact G]; cbn; lia.
Qed.

(** ** Segments that all run one way. *)
Lemma NoDup_app_remove_r : forall (l m : list Z), NoDup (l ++ m) -> NoDup l.
Proof. induction l; cbn; intros m H; constructor; inversion H; subst; [rewrite in_app_iff in H2; tauto|eauto]. Qed.
Lemma NoDup_app_remove_l : forall (l m : list Z), NoDup (l ++ m) -> NoDup m.
Proof. induction l; cbn; intros m H; auto. inversion H; auto. Qed.
Lemma oneway_perm : forall a b, Permutation a b -> OneWay a -> OneWay b.
Proof. intros a b P [H1 H2]. split; [apply (Permutation_NoDup (l := map fst a))|apply (Permutation_NoDup (l := map snd a))]; auto; now apply Permutation_map. Qed.
Lemma oneway_app_r : forall a b, OneWay (a ++ b) -> OneWay b.
Proof.
  intros a b [H1 H2]. rewrite map_app in H1, H2.
  split; [exact (NoDup_app_remove_l _ _ H1)|exact (NoDup_app_remove_l _ _ H2)].
Qed.
Lemma nodup_app_disj : forall (l m : list Z) x, NoDup (l ++ m) -> In x l -> In x m -> False.
Proof.
  induction l; cbn; intros m x H Hl Hm; [tauto|]. inversion H; subst.
  destruct Hl as [->|Hl]; [apply H2, in_or_app; auto|eauto].
Qed.

(** The first point of a chain of at least one segment starts a segment, the last
    one ends a segment. *)
Lemma first_in : forall b, (2 <= length b)%nat -> In (first_pt b) (map fst (steps b)).
Proof. destruct b as [|a [|c b]]; cbn; lia || auto. Qed.
Lemma last_in : forall b, (2 <= length b)%nat -> In (last_pt b) (map snd (steps b)).
Proof.
  destruct b as [|a b]; cbn [length]; [lia|]. intros L. rewrite map_snd_steps.
  destruct b as [|c b]; [cbn in L; lia|]. rewrite last_cons by discriminate.
  destruct (@exists_last _ (c :: b)) as (l & x & E); [discriminate|]. rewrite E, last_snoc.
  apply in_or_app. cbn. auto.
Qed.

Lemma attach_oneway : forall b segs, (2 <= length b)%nat -> OneWay (steps b ++ segs) ->
  exists o, attach b segs = Ok o /\
    match o with
    | None => True
    | Some (b', r) => Permutation (steps b ++ segs) (steps b' ++ r) /\ length b' = S (length b)
    end.
Proof.
  intros b segs L OW.
  assert (Hb : b <> []) by (destruct b; cbn in L; [lia|discriminate]).
  assert (NF : forall s, In s segs -> fst s <> first_pt b).
  { intros s I E. destruct OW as [H1 _]. rewrite map_app in H1.
    refine (nodup_app_disj _ _ (first_pt b) H1 (first_in b L) _). rewrite <- E. now apply in_map. }
  assert (NL : forall s, In s segs -> snd s <> last_pt b).
  { intros s I E. destruct OW as [_ H2]. rewrite map_app in H2.
    refine (nodup_app_disj _ _ (last_pt b) H2 (last_in b L) _). rewrite <- E. now apply in_map. }
  assert (T : exists o, attach b segs = Ok o).
  { clear OW. induction segs as [|[p0 p1] r IH]; cbn [attach]; [eauto|].
    destruct (p0 =? last_pt b); [eauto|]. destruct (p1 =? last_pt b); [eauto|].
    destruct (Z.eqb_spec p0 (first_pt b)); [exfalso; eapply (NF (p0, p1)); cbn; auto|].
    destruct (p1 =? first_pt b); [eauto|].
    destruct IH as [o ->]; [intros s I; apply NF; now right|intros s I; apply NL; now right|]. cbn. eauto. }
  destruct T as [o A]. exists o. split; auto. destruct o as [[b' r]|]; auto.
  apply attach_spec in A; auto. destruct A as ([p0 p1] & P & L1 & N & C). cbn [fst snd] in C.
  assert (I : In (p0, p1) segs) by (eapply Permutation_in; [symmetry; exact P|now left]).
  split; auto. rewrite P. destruct C as [[-> ->]|[[E _]|[-> ->]]].
  - rewrite steps_snoc, <- app_assoc by auto. reflexivity.
  - exfalso. exact (NL _ I E).
  - rewrite steps_cons by auto. symmetry. apply Permutation_middle.
Qed.

Lemma attach_none : forall b segs, attach b segs = Ok None -> forall s, In s segs -> fst s <> last_pt b.
Proof.
  induction segs as [|[p0 p1] r IH]; intros H s I; [destruct I|]. cbn [attach] in H.
  destruct (Z.eqb_spec p0 (last_pt b)); [discriminate|].
  destruct (p1 =? last_pt b); [discriminate|]. destruct (p0 =? first_pt b); [discriminate|].
  destruct (p1 =? first_pt b); [discriminate|].
  destruct (attach b r) as [[x|]|]; try discriminate. destruct I as [<-|I]; auto.
Qed.

Definition Balanced (l : list seg) : Prop := Permutation (map fst l) (map snd l).

(** A chain of distinct points with its last point starting no segment left over:
    impossible while the segments balance. *)
Lemma stuck : forall b segs, (2 <= length b)%nat -> OneWay (steps b ++ segs) -> Balanced (steps b ++ segs) ->
  (forall s, In s segs -> fst s <> last_pt b) -> first_pt b = last_pt b.
Proof.
  intros b segs L [H1 H2] B N. destruct b as [|a b]; [cbn in L; lia|].
  assert (I : In (last_pt (a :: b)) (map fst (steps (a :: b) ++ segs))).
  { eapply Permutation_in; [symmetry; exact B|]. rewrite map_app. apply in_or_app. left. now apply last_in. }
  rewrite map_app in I. apply in_app_or in I. destruct I as [I|I].
  2:{ exfalso. apply in_map_iff in I. destruct I as (s & E & I). exact (N s I E). }
  destruct b as [|c b]; [cbn in L; lia|].
  destruct (@exists_last _ (c :: b)) as (l & x & E); [discriminate|]. rewrite E in *.
  change (a :: l ++ [x]) with ((a :: l) ++ [x]) in I. rewrite map_fst_steps in I.
  change (last_pt (a :: l ++ [x])) with (last_pt ((a :: l) ++ [x])) in *. rewrite last_snoc in *.
  destruct I as [->|I]; [reflexivity|]. exfalso.
  rewrite map_app, map_snd_steps in H2. apply NoDup_app_remove_r in H2.
  eapply nodup_app_disj; [exact H2|exact I|cbn; auto].
Qed.

Lemma grow_oneway : forall fuel b segs, (2 <= length b)%nat -> (length segs < fuel)%nat ->
  OneWay (steps b ++ segs) ->
  exists c b' r, grow fuel b segs = Ok (c, b', r) /\
    Permutation (steps b ++ segs) ((if c : bool then loop_steps b' else steps b') ++ r) /\
    (c = true -> (2 <= length b')%nat \/ first_pt b = last_pt b) /\
    (first_pt b <> last_pt b -> Balanced (steps b ++ segs) -> c = true).
Proof.
  induction fuel as [|f IH]; intros b segs L F OW; [lia|]. cbn [grow].
  destruct (attach_oneway b segs L OW) as (o & A & Ho). rewrite A. cbn [bind].
  destruct o as [[b' r]|].
  - destruct Ho as [P L1]. destruct (Z.eqb_spec (first_pt b') (last_pt b')).
    + exists true, (removelast b'), r. split; [reflexivity|]. rewrite closed_steps by (auto; lia).
      split; [exact P|]. split; [|auto]. left.
      destruct (@exists_last _ b') as (l & x & ->); [destruct b'; cbn in *; [lia|discriminate]|].
      rewrite removelast_last. rewrite app_length in L1. cbn in L1. lia.
    + assert (LR : (length r < f)%nat).
      { apply Permutation_length in P. rewrite !app_length, !steps_length in P. lia. }
      destruct (IH b' r) as (c & b'' & r' & G & P2 & C1 & C2); [lia|exact LR|eapply oneway_perm; eauto|].
      exists c, b'', r'. split; [exact G|]. split; [now rewrite P|]. split.
      * intros Hc. destruct (C1 Hc); auto. congruence.
      * intros _ B. apply C2; auto. unfold Balanced in *. rewrite <- P. exact B.
  - exists false, b, segs. split; [reflexivity|]. split; [reflexivity|]. split; [discriminate|].
    intros D B. exfalso. apply D. eapply stuck; eauto. now apply attach_none.
Qed.

Lemma loop_balanced : forall l, Permutation (map fst (loop_steps l)) (map snd (loop_steps l)).
Proof.
  destruct l as [|a l]; [constructor|]. rewrite fst_loop. unfold loop_steps.
  change ((a :: l) ++ [a]) with (a :: (l ++ [a])). rewrite map_snd_steps. apply Permutation_cons_append.
Qed.

Lemma chains_oneway : forall fuel segs, (length segs <= fuel)%nat -> OneWay segs ->
  exists cl op, chains fuel segs = Ok (cl, op) /\
    Permutation segs (concat (map loop_steps cl) ++ concat (map steps op)) /\
    (Balanced segs -> (forall a b, In (a, b) segs -> a <> b) -> op = [] /\ Forall (fun l => (2 <= length l)%nat) cl).
Proof.
  induction fuel as [|f IH]; intros segs F OW; cbn [chains].
  - destruct segs; [|cbn in F; lia]. exists [], []. repeat split; auto.
  - destruct segs as [|[p0 p1] r]; [exists [], []; repeat split; auto|].
    destruct (grow_oneway (S (length r)) [p0; p1] r) as (c & b & rem & G & P & C1 & C2); [cbn; lia|lia|exact OW|].
    rewrite G. cbn [bind]. change (steps [p0; p1] ++ r) with ((p0, p1) :: r) in *.
    assert (LL : (length rem <= f)%nat).
    { apply grow_spec in G; [|cbn; lia]. destruct G as (G & _). cbn in F. lia. }
    assert (OL : OneWay rem) by (eapply oneway_app_r; eapply oneway_perm; eauto).
    destruct (IH rem LL OL) as (cl & op & C & PC & HC). rewrite C. cbn [bind fst snd].
    destruct c.
    + exists (b :: cl), op. split; [reflexivity|]. split.
      * rewrite P, PC. cbn [map concat]. now rewrite <- app_assoc.
      * intros B NS. destruct HC as [H1 H2].
        { unfold Balanced in *. rewrite P in B. rewrite !map_app in B.
          rewrite loop_balanced in B. eapply Permutation_app_inv_l. exact B. }
        { intros x y I. apply NS. eapply Permutation_in; [symmetry; exact P|]. apply in_or_app. auto. }
        split; auto. constructor; auto.
        destruct (C1 eq_refl) as [|E]; auto. exfalso. cbn in E. apply (NS p0 p1); cbn; auto.
    + exists cl, (b :: op). split; [reflexivity|]. split.
      * rewrite P, PC. cbn [map concat]. apply Permutation_app_swap_app.
      * intros B NS. exfalso. assert (false = true); [|discriminate]. apply C2; auto. cbn. apply NS. now left.
Qed.

(** ** Any direction: parity. *)
Lemma ends_app : forall x a b, ends_at x (a ++ b) = (ends_at x a + ends_at x b)%nat.
Proof. induction a as [|[p q] a IH]; intros; cbn; auto. rewrite IH. lia. Qed.
Lemma ends_und : forall x l, ends_at x (map undirected l) = ends_at x l.
Proof.
  induction l as [|[p q] l IH]; cbn; auto. unfold undirected at 1. cbn. destruct (p <=? q); rewrite IH; lia.
Qed.
Lemma ends_perm : forall x a b, Permutation a b -> ends_at x a = ends_at x b.
Proof.
  intros x a b P. induction P as [|[p q] l l' P IH|[p q] [p' q'] l|l l' l'' P1 IH1 P2 IH2]; cbn; auto; lia.
Qed.
Lemma ends_und_perm : forall x a b, Permutation (map undirected a) (map undirected b) -> ends_at x a = ends_at x b.
Proof. intros x a b P. rewrite <- (ends_und x a), <- (ends_und x b). now apply ends_perm. Qed.
Lemma ends_steps : forall x b, b <> [] ->
  (ends_at x (steps b) + (if (first_pt b =? x)%Z then 1 else 0) + (if (last_pt b =? x)%Z then 1 else 0) = 2 * count_occ Z.eq_dec b x)%nat.
Proof.
  induction b as [|a b IH]; intros H; [congruence|]. destruct b as [|c b].
  - cbn. destruct (Z.eqb_spec a x), (Z.eq_dec a x); try congruence; lia.
  - specialize (IH ltac:(discriminate)).
    change (steps (a :: c :: b)) with ((a, c) :: steps (c :: b)).
    rewrite last_cons by discriminate. cbn [ends_at]. cbn [first_pt hd] in *.
    change (count_occ Z.eq_dec (a :: c :: b) x) with
      (if Z.eq_dec a x then S (count_occ Z.eq_dec (c :: b) x) else count_occ Z.eq_dec (c :: b) x).
    destruct (Z.eqb_spec a x), (Z.eq_dec a x); try congruence; lia.
Qed.
Lemma ends_none : forall x l, (forall s, In s l -> fst s <> x /\ snd s <> x) -> ends_at x l = 0%nat.
Proof.
  induction l as [|[p q] l IH]; intros H; cbn; auto. destruct (H (p, q)) as [H1 H2]; [now left|]. cbn in *.
  destruct (Z.eqb_spec p x), (Z.eqb_spec q x); try congruence. cbn. apply IH. intros s I. apply H. now right.
Qed.
Lemma even_loop : forall x l, Nat.even (ends_at x (loop_steps l)) = true.
Proof.
  destruct l as [|a l]; [reflexivity|]. unfold loop_steps.
  pose proof (ends_steps x ((a :: l) ++ [a]) ltac:(discriminate)) as E.
  rewrite last_snoc, first_snoc in E by discriminate. cbn [first_pt hd] in E.
  apply Nat.even_spec. destruct (a =? x).
  - exists (count_occ Z.eq_dec ((a :: l) ++ [a]) x - 1)%nat. lia.
  - exists (count_occ Z.eq_dec ((a :: l) ++ [a]) x). lia.
Qed.

Lemma grow_ends_differ : forall fuel b segs b' r, (2 <= length b)%nat -> first_pt b <> last_pt b ->
  grow fuel b segs = Ok (false, b', r) -> first_pt b' <> last_pt b' /\ b' <> [].
Proof.
  induction fuel as [|f IH]; intros b segs b' r L D H; [discriminate|]. cbn [grow] in H.
  assert (Hb : b <> []) by (destruct b; cbn in L; [lia|discriminate]).
  destruct (attach b segs) as [[[b1 r1]|]|] eqn:A; cbn [bind] in H; try discriminate.
  - destruct (attach_und _ _ _ _ Hb A) as (_ & _ & L1 & _).
    destruct (Z.eqb_spec (first_pt b1) (last_pt b1)); [discriminate|]. eapply IH; [| |exact H]; auto. lia.
  - injection H as <- <-. auto.
Qed.

Lemma undirected_in : forall s l, In s (map undirected l) -> exists a b, In (a, b) l /\ (s = (a, b) \/ s = (b, a)).
Proof.
  intros s l I. apply in_map_iff in I. destruct I as ([a b] & E & I). exists a, b. split; auto.
  unfold undirected in E. cbn in E. destruct (a <=? b); auto.
Qed.
Lemma no_self_und : forall a b, Permutation (map undirected a) (map undirected b) ->
  (forall x y, In (x, y) a -> x <> y) -> forall x y, In (x, y) b -> x <> y.
Proof.
  intros a b P H x y I E. subst y.
  assert (I' : In (x, x) (map undirected b)) by (apply in_map_iff; exists (x, x); split; auto; unfold undirected; cbn; destruct (x <=? x); auto).
  eapply Permutation_in in I'; [|symmetry; exact P]. apply undirected_in in I'.
  destruct I' as (p & q & I' & [[= <- <-]|[= <- <-]]); eapply H; eauto.
Qed.

Lemma chains_closed : forall fuel segs cl op, chains fuel segs = Ok (cl, op) -> Closed segs ->
  (forall a b, In (a, b) segs -> a <> b) -> op = [].
Proof.
  induction fuel as [|f IH]; intros segs cl op H CL NS; cbn [chains] in H.
  - destruct segs; [injection H as <- <-|discriminate]. reflexivity.
  - destruct segs as [|[p0 p1] r]; [injection H as <- <-; reflexivity|].
    destruct (grow (S (length r)) [p0; p1] r) as [[[c b] rem]|] eqn:G; [|discriminate]. cbn [bind] in H.
    destruct (chains f rem) as [[cl' op']|] eqn:C; [|discriminate]. cbn [bind fst snd] in H.
    assert (D : p0 <> p1) by (apply NS; now left).
    pose proof G as G0. apply grow_spec in G; [|cbn; lia]. destruct G as (_ & P & St).
    change (steps [p0; p1] ++ r) with ((p0, p1) :: r) in P.
    destruct c.
    + injection H as <- <-. eapply IH; [exact C| |].
      * intros x. pose proof (ends_und_perm x _ _ P) as EP. specialize (CL x). change (Nat.even (ends_at x (@cons (Z * Z) (p0, p1) r)) = true) in CL. setoid_rewrite EP in CL. rewrite ends_app, Nat.even_add, even_loop in CL.
        destruct (Nat.even (ends_at x rem)); auto.
      * intros x y I. eapply (no_self_und _ _ P NS). apply in_or_app. auto.
    + exfalso. apply grow_ends_differ in G0; [|cbn; lia|cbn; exact D]. destruct G0 as [DB NB].
      pose proof (ends_und_perm (last_pt b) _ _ P) as EP. specialize (CL (last_pt b)). change (Nat.even (ends_at (last_pt b) (@cons (Z * Z) (p0, p1) r)) = true) in CL. setoid_rewrite EP in CL. rewrite ends_app in CL.
      rewrite (ends_none _ rem) in CL by (intros s I; destruct (St eq_refl s I) as (? & ? & _); auto).
      pose proof (ends_steps (last_pt b) b NB) as E. rewrite Z.eqb_refl in E.
      destruct (Z.eqb_spec (first_pt b) (last_pt b)); [congruence|].
      apply Nat.even_spec in CL. destruct CL as [k CL]. lia.
Qed.
