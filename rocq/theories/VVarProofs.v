(** Proofs about VectorVariable. *)
From Coq Require Import Ascii String.
From Verif Require Import Common CommonProofs TimeModel TimeHeapProofs VariableModel VariableSpec VariableProofs
  VVarModel VVarSpec.
Open Scope nat_scope.

Section VectorFacts.
  Context {D V : Type} (compute : D -> request -> result V).
  Notation state := (at_state (D := D) (V := V)).

  Lemma comps_at_columns (cs : list state) r :
    fst (comps_at compute false cs r) = cs /\
    Columns compute r (map as_data cs) (snd (comps_at compute false cs r)).
  Proof.
    induction cs as [|c cs [IH1 IH2]]; cbn [comps_at comp_at map].
    - split; auto. constructor. constructor.
    - destruct (compute (as_data c) r) as [v|e] eqn:E; cbn [fst snd].
      2: { split; auto. apply (ColumnsErr compute r [] (as_data c) (map as_data cs) []); auto. }
      destruct (comps_at compute false cs r) as [cs1 [vs|e]]; cbn [fst snd] in *; subst; (split; [reflexivity|]).
      + inversion IH2; subst. constructor. constructor; auto.
      + inversion IH2; subst. change (as_data c :: ds1 ++ d :: ds2) with ((as_data c :: ds1) ++ d :: ds2).
        econstructor; eauto.
  Qed.

  (** Components with sound caches. *)
  Definition comp_ok c o (s : state) := memo_sound compute c o s /\ NoDup (map fst (as_memo s)).
  Lemma comp_at_ok c o mem (s : state) r : 0 < c -> comp_ok c o s -> uniform c o r ->
    exists s', comp_at compute mem s r = (s', compute (as_data s) r) /\ comp_ok c o s' /\ as_data s' = as_data s.
  Proof.
    intros Hc [H1 H2] Hu. destruct mem; cbn [comp_at].
    - destruct (at_step_sound compute c o s r Hc H1 H2 Hu) as (s' & E & A & B & C).
      rewrite E. exists s'. repeat split; auto.
    - exists s. repeat split; auto.
  Qed.
  Lemma comps_at_ok c o mem cs r : 0 < c -> Forall (comp_ok c o) cs -> uniform c o r ->
    exists cs', fst (comps_at compute mem cs r) = cs' /\ Forall (comp_ok c o) cs' /\ map as_data cs' = map as_data cs /\
      Columns compute r (map as_data cs) (snd (comps_at compute mem cs r)).
  Proof.
    intros Hc Hf Hu. induction cs as [|s cs IH]; cbn [comps_at].
    - exists []. repeat split; auto. constructor. constructor.
    - inversion Hf as [|? ? Hs Hf']; subst.
      destruct (comp_at_ok c o mem s r Hc Hs Hu) as (s' & E & A & B). rewrite E.
      destruct (IH Hf') as (cs' & I1 & I2 & I3 & I4).
      destruct (compute (as_data s) r) as [v|e] eqn:Ev.
      + destruct (comps_at compute mem cs r) as [cs1 [vs|e]]; cbn [fst snd] in *; subst cs1;
          exists (s' :: cs'); (split; [reflexivity|split; [constructor; auto|split; [cbn; congruence|]]]).
        * inversion I4; subst. constructor. constructor; auto.
        * cbn [map]. inversion I4; subst.
          change (as_data s :: ds1 ++ d :: ds2) with ((as_data s :: ds1) ++ d :: ds2). econstructor; eauto.
      + cbn [fst snd]. exists (s' :: cs). split; [reflexivity|]. split; [constructor; auto|].
        split; [cbn; congruence|]. apply (ColumnsErr compute r [] (as_data s) (map as_data cs) []); auto.
  Qed.

  Lemma Columns_det r ds a b : Columns compute r ds a -> Columns compute r ds b -> a = b.
  Proof.
    assert (K : forall ds vs ws, Forall2 (fun d v => compute d r = Ok v) ds vs ->
                 Forall2 (fun d v => compute d r = Ok v) ds ws -> vs = ws).
    { intros es vs ws H. revert ws. induction H; intros ws H'; inversion H'; subst; auto.
      f_equal; [congruence|auto]. }
    assert (L : forall ds1 d ds2 vs e, compute d r = Err e ->
                 ~ Forall2 (fun d v => compute d r = Ok v) (ds1 ++ d :: ds2) vs).
    { intros ds1. induction ds1 as [|x ds1 IH]; intros d ds2 vs e E H; inversion H; subst.
      - congruence. - eapply IH; eauto. }
    assert (M : forall ds1 ds1' d d' ds2 ds2' vs vs' e e',
               ds1 ++ d :: ds2 = ds1' ++ d' :: ds2' ->
               Forall2 (fun d v => compute d r = Ok v) ds1 vs -> compute d r = Err e ->
               Forall2 (fun d v => compute d r = Ok v) ds1' vs' -> compute d' r = Err e' -> e = e').
    { intros ds1. induction ds1 as [|x ds1 IH]; intros [|y ds1'] d d' ds2 ds2' vs vs' e e' E H1 E1 H2 E2;
        injection E as E0 E'; subst.
      - congruence.
      - inversion H2; congruence.
      - inversion H1; congruence.
      - inversion H1; inversion H2; subst. eapply IH; eauto. }
    intros H1 H2. inversion H1; subst; inversion H2; subst.
    - f_equal. eauto.
    - exfalso. eapply L; eauto.
    - exfalso. eapply L; eauto.
    - f_equal. eapply M; [symmetry| | | |]; eauto.
  Qed.

  Definition vmemo_sound c o ds (m : memo (K := list Q * Z) (V := list V)) :=
    forall k vs, memo_get key_eqb m k = Some vs ->
      exists r, uniform c o r /\ rq_key r = k /\ Columns compute r ds (Ok vs).
  Definition vec_ok c o (s : vec_state D V) :=
    Forall (comp_ok c o) (vc_comps s) /\ vmemo_sound c o (map as_data (vc_comps s)) (vc_memo s) /\
    NoDup (map fst (vc_memo s)).

  Lemma vec_at_ok c o mem s r : 0 < c -> vec_ok c o s -> uniform c o r ->
    exists s' v, vec_at compute mem s r = (s', v) /\ vec_ok c o s' /\
      map as_data (vc_comps s') = map as_data (vc_comps s) /\ Columns compute r (map as_data (vc_comps s)) v.
  Proof.
    intros Hc (H1 & H2 & H3) Hu. unfold vec_at.
    destruct (comps_at_ok c o mem (vc_comps s) r Hc H1 Hu) as (cs & E1 & E2 & E3 & E4).
    destruct (if mem then memo_get key_eqb (vc_memo s) (rq_key r) else None) as [vs|] eqn:Em.
    - destruct mem; [|discriminate]. destruct (H2 _ _ Em) as (r' & Hu' & Hk & Hv).
      apply (uniform_key c o) in Hk; auto. subst r'. exists s, (Ok vs). repeat split; auto.
    - destruct (comps_at compute mem (vc_comps s) r) as [cs1 [vs|e]]; cbn [fst snd] in *; subst cs1.
      + eexists _, _. split; [reflexivity|]. unfold vec_ok. cbn [vc_comps vc_memo]. rewrite E3.
        split; [|split; auto]. split; auto. destruct mem; [|auto]. split; [|apply store_nodup; auto using key_eqb_iff].
        intros k ws Hk. destruct (K_dec key_eqb key_eqb_iff (rq_key r) k) as [<-|Hne].
        * rewrite store_hit in Hk by apply key_eqb_iff. injection Hk as <-. eauto.
        * rewrite store_other in Hk by (auto; apply key_eqb_iff).
          apply evicted_get in Hk; auto using key_eqb_iff.
      + eexists _, _. split; [reflexivity|]. unfold vec_ok. cbn [vc_comps vc_memo]. rewrite E3. auto.
  Qed.

  Lemma list_set_data (cs : list state) k x c : nth_error cs k = Some c -> as_data x = as_data c ->
    map as_data (list_set cs k x) = map as_data cs.
  Proof.
    revert k. induction cs as [|a cs IH]; intros [|k] H E; cbn in *; try discriminate.
    - injection H as ->. f_equal. auto.
    - f_equal. eauto.
  Qed.
  Lemma list_set_forall {A} (P : A -> Prop) cs k x : Forall P cs -> P x -> Forall P (list_set cs k x).
  Proof.
    intros H. revert k. induction H; intros [|k] Hx; cbn; auto.
  Qed.

  Lemma vec_run_transparent c o ops : 0 < c -> forall s, vec_ok c o s ->
    Forall (fun op => match op with
                      | VAt _ r | VComp _ (Call r) => uniform c o r
                      | VComp _ (SetData _) => False
                      end) ops ->
    Forall2 (AnswersFrom compute (map as_data (vc_comps s))) ops (snd (vec_run compute s ops)).
  Proof.
    intros Hc. induction ops as [|op ops IH]; intros s Hs Hf; cbn [vec_run]; [constructor|].
    inversion Hf as [|? ? Ho Hf']; subst.
    assert (K : exists s' v, vec_step compute s op = (s', v) /\ vec_ok c o s' /\
               map as_data (vc_comps s') = map as_data (vc_comps s) /\
               AnswersFrom compute (map as_data (vc_comps s)) op v).
    { destruct op as [mem r|k [r|d]]; cbn [vec_step AnswersFrom]; [| |tauto].
      - destruct (vec_at_ok c o mem s r Hc Hs Ho) as (s' & v & E & A & B & C). rewrite E.
        exists s', (Some v). repeat split; eauto; apply A.
      - destruct (nth_error (vc_comps s) k) as [x|] eqn:Ek.
        2: { exists s, None. repeat split; auto; apply Hs. }
        destruct Hs as (H1 & H2 & H3).
        assert (Hx : comp_ok c o x) by (eapply (proj1 (Forall_forall _ _)); eauto using nth_error_In).
        destruct (at_step_sound compute c o x r Hc (proj1 Hx) (proj2 Hx) Ho) as (x' & E & A & B & C).
        rewrite E. cbn [fst]. eexists _, _. split; [reflexivity|]. unfold vec_ok. cbn [vc_comps vc_memo].
        rewrite (list_set_data _ _ _ _ Ek C). repeat split; auto.
        apply list_set_forall; auto. split; auto. }
    destruct K as (s' & v & E & A & B & C). rewrite E.
    specialize (IH s' A Hf'). destruct (vec_run compute s' ops) as [s2 vs]. cbn [snd] in *.
    constructor; auto. rewrite <- B. exact IH.
  Qed.

  (** Bounds in any history. *)
  Definition small (s : state) := length (as_memo s) <= 5 /\ NoDup (map fst (as_memo s)).
  Lemma at_step_small s op : small s -> small (fst (at_step compute s op)).
  Proof.
    intros [H1 H2]. generalize (at_run_bounded compute [op] s H1 H2). cbn [at_run].
    destruct (at_step compute s op). auto.
  Qed.
  Lemma comp_at_small mem s r : small s -> small (fst (comp_at compute mem s r)).
  Proof.
    intros H. destruct mem; cbn [comp_at]; auto. generalize (at_step_small s (Call r) H).
    destruct (at_step compute s (Call r)) as [s' [v|]]; auto.
  Qed.
  Lemma comps_at_small mem cs r : Forall small cs -> Forall small (fst (comps_at compute mem cs r)).
  Proof.
    induction cs as [|s cs IH]; intros H; cbn [comps_at]; auto. inversion H; subst.
    specialize (IH H3). generalize (comp_at_small mem s r H2).
    destruct (comp_at compute mem s r) as [s' [v|e]]; cbn [fst]; intros K; auto.
    destruct (comps_at compute mem cs r) as [cs1 [vs|e]]; cbn [fst] in *; auto.
  Qed.
  Lemma comps_at_len mem cs r : length (fst (comps_at compute mem cs r)) = length cs.
  Proof.
    induction cs as [|s cs IH]; cbn [comps_at]; auto.
    destruct (comp_at compute mem s r) as [s' [v|e]]; cbn [fst length]; auto.
    destruct (comps_at compute mem cs r) as [cs1 [vs|e]]; cbn [fst length] in *; auto.
  Qed.
  Lemma vec_run_bounded ops : forall s : vec_state D V,
    Forall small (vc_comps s) -> length (vc_memo s) <= 9 -> NoDup (map fst (vc_memo s)) ->
    let s' := fst (vec_run compute s ops) in
    Forall small (vc_comps s') /\ length (vc_memo s') <= 9 /\ NoDup (map fst (vc_memo s')) /\
    length (vc_comps s') = length (vc_comps s).
  Proof.
    induction ops as [|op ops IH]; intros s H1 H2 H3; cbn [vec_run]; [repeat split; auto|].
    assert (K : let s1 := fst (vec_step compute s op) in
      Forall small (vc_comps s1) /\ length (vc_memo s1) <= 9 /\ NoDup (map fst (vc_memo s1)) /\
      length (vc_comps s1) = length (vc_comps s)).
    { destruct op as [mem r|k op]; cbn [vec_step].
      - unfold vec_at. destruct (if mem then _ else _) as [v|]; [cbn; auto|].
        generalize (comps_at_small mem (vc_comps s) r H1) (comps_at_len mem (vc_comps s) r).
        destruct (comps_at compute mem (vc_comps s) r) as [cs [vs|e]]; cbn [fst vc_comps vc_memo]; intros A B; auto.
        destruct mem; auto. split; [auto|]. split; [|split; [apply store_nodup; auto using key_eqb_iff|auto]].
        apply (store_length key_eqb vector_memo_cap). exact H2.
      - destruct (nth_error (vc_comps s) k) as [x|] eqn:Ek; [|cbn; auto].
        cbn [fst vc_comps vc_memo]. rewrite list_set_len. repeat split; auto.
        apply list_set_forall; auto. apply at_step_small.
        eapply (proj1 (Forall_forall _ _)); eauto using nth_error_In. }
    destruct (vec_step compute s op) as [s1 v]. cbn [fst] in K. destruct K as (A & B & C & E).
    specialize (IH s1 A B C). destruct (vec_run compute s1 ops) as [s2 vs]. cbn [fst] in *.
    cbv zeta in *. rewrite <- E. exact IH.
  Qed.

  (** In any history at all an answer is fresh or was given before. *)
  Definition memo_seen (ops : list (vec_op D)) (answers : list (option (result (list V)))) (m : memo (K := list Q * Z) (V := list V)) :=
    forall k v, memo_get key_eqb m k = Some v ->
      exists i r', nth_error ops i = Some (VAt true r') /\ rq_key r' = k /\ nth_error answers i = Some (Some (Ok v)).
  Lemma vec_run_snoc s ops o :
    vec_run compute s (ops ++ [o]) =
    let (s1, vs) := vec_run compute s ops in
    let (s2, v) := vec_step compute s1 o in (s2, vs ++ [v]).
  Proof.
    revert s. induction ops as [|a ops IH]; intros s; cbn [app vec_run].
    - destruct (vec_step compute s o); reflexivity.
    - destruct (vec_step compute s a) as [s1 v]. rewrite IH.
      destruct (vec_run compute s1 ops) as [s2 vs]. destruct (vec_step compute s2 o); reflexivity.
  Qed.
  Lemma vec_run_length s ops : length (snd (vec_run compute s ops)) = length ops.
  Proof.
    revert s. induction ops as [|a ops IH]; intros s; cbn [vec_run]; auto.
    destruct (vec_step compute s a) as [s1 v]. specialize (IH s1).
    destruct (vec_run compute s1 ops). cbn [snd length] in *. auto.
  Qed.
  Lemma vec_step_nodup (s : vec_state D V) o : NoDup (map fst (vc_memo s)) ->
    NoDup (map fst (vc_memo (fst (vec_step compute s o)))).
  Proof.
    intros H. destruct o as [mem r|k op]; cbn [vec_step].
    - unfold vec_at. destruct (if mem then _ else _) as [x|]; [auto|].
      destruct (comps_at compute mem (vc_comps s) r) as [cs [ws|e]]; cbn [fst vc_memo]; auto.
      destruct mem; auto. apply store_nodup; auto using key_eqb_iff.
    - destruct (nth_error (vc_comps s) k); auto.
  Qed.
  Lemma vec_run_seen ops : forall s : vec_state D V, vc_memo s = [] ->
    memo_seen ops (snd (vec_run compute s ops)) (vc_memo (fst (vec_run compute s ops))) /\
    NoDup (map fst (vc_memo (fst (vec_run compute s ops)))).
  Proof.
    induction ops as [|o ops IH] using rev_ind; intros s H0.
    - cbn. rewrite H0. split; [intros k v H; discriminate|constructor].
    - rewrite vec_run_snoc. specialize (IH s H0). destruct IH as [IH IHn]. generalize (vec_run_length s ops).
      destruct (vec_run compute s ops) as [s1 vs]. cbn [fst snd] in *. intros Hl.
      assert (K : memo_seen (ops ++ [o]) (vs ++ [snd (vec_step compute s1 o)]) (vc_memo s1)).
      { intros k v H. destruct (IH k v H) as (i & r' & A & B & C). exists i, r'.
        rewrite !nth_error_app1; auto; apply nth_error_Some; congruence. }
      generalize (vec_step_nodup s1 o IHn). intros Hn2.
      destruct (vec_step compute s1 o) as [s2 v] eqn:E. cbn [fst snd] in *.
      split; [|exact Hn2]. destruct o as [mem r|k op]; cbn [vec_step] in E.
      + destruct (vec_at compute mem s1 r) as [s' w] eqn:Ev. injection E as <- <-.
        unfold vec_at in Ev. destruct (if mem then _ else _) as [x|]; [injection Ev as <- <-; auto|].
        destruct (comps_at compute mem (vc_comps s1) r) as [cs [ws|e]]; injection Ev as <- <-; cbn [vc_memo]; auto.
        destruct mem; auto. intros k v Hk.
        destruct (K_dec key_eqb key_eqb_iff (rq_key r) k) as [<-|Hne].
        * rewrite store_hit in Hk by apply key_eqb_iff. injection Hk as <-.
          exists (length ops), r. split; [rewrite nth_error_app2, Nat.sub_diag by lia; reflexivity|]. split; auto.
          rewrite nth_error_app2 by lia. rewrite Hl, Nat.sub_diag. reflexivity.
        * rewrite store_other in Hk by (auto; apply key_eqb_iff).
          apply evicted_get in Hk; auto using key_eqb_iff.
      + destruct (nth_error (vc_comps s1) k) as [c|]; injection E as <- <-; auto.
  Qed.
  Lemma vec_at_cases ops s mem r v : vc_memo s = [] ->
    let s1 := fst (vec_run compute s ops) in
    snd (vec_at compute mem s1 r) = Ok v ->
    snd (comps_at compute mem (vc_comps s1) r) = Ok v \/
    (mem = true /\ SeenBefore ops (snd (vec_run compute s ops)) r v).
  Proof.
    intros H0 s1 H. unfold vec_at in H. generalize (proj1 (vec_run_seen ops s H0)). fold s1. intros K.
    destruct mem; cbn [snd] in H.
    - destruct (memo_get key_eqb (vc_memo s1) (rq_key r)) as [x|] eqn:E.
      + right. split; auto. injection H as <-. destruct (K _ _ E) as (i & r' & A & B & C). exists i, r'. auto.
      + left. destruct (comps_at compute true (vc_comps s1) r) as [cs [ws|e]]; auto.
    - left. destruct (comps_at compute false (vc_comps s1) r) as [cs [ws|e]]; auto.
  Qed.
  Lemma comps_at_each mem cs r vs : snd (comps_at compute mem cs r) = Ok vs <->
    Forall2 (fun c v => snd (comp_at compute mem c r) = Ok v) cs vs.
  Proof.
    revert vs. induction cs as [|c cs IH]; intros vs; cbn [comps_at].
    - split; [intros H; injection H as <-; constructor|intros H; inversion H; reflexivity].
    - destruct (comp_at compute mem c r) as [c' [v|e]] eqn:E.
      + destruct (comps_at compute mem cs r) as [cs1 [ws|e]]; cbn [snd] in *; split; intros H.
        * injection H as <-. constructor; [rewrite E; reflexivity|apply IH; reflexivity].
        * inversion H as [|? y ? ys H1 H2]; subst. rewrite E in H1. cbn in H1. injection H1 as ->.
          apply IH in H2. injection H2 as ->. reflexivity.
        * discriminate.
        * inversion H as [|? y ? ys H1 H2]; subst. apply IH in H2. discriminate.
      + cbn [snd]. split; [discriminate|]. intros H. inversion H as [|? y ? ys H1 H2]; subst.
        rewrite E in H1. discriminate.
  Qed.
End VectorFacts.

(** ** Arrays handed out *)
Section HandedFacts.
  Context (comp : nat -> result (list (Q * bool) * bool)) (keyf : nat -> nat).
  Context (key_inj : forall a b, keyf a = keyf b -> a = b).

  Lemma nat_keq a b : Nat.eqb a b = true <-> a = b. Proof. apply Nat.eqb_eq. Qed.

  (** The cached arrays hold what was computed; with copies none of them is in
      the hands of the caller, without copies all of them are read-only. *)
  Definition h_ok (copying : bool) (s : hstate) : Prop :=
    (forall k p, memo_get Nat.eqb (h_memo s) k = Some p ->
       exists r a b, keyf r = k /\ nth_error (h_heap s) p = Some a /\ comp r = Ok (ar_vals a, b) /\
         (copying = true -> ~ In p (h_out s))) /\
    NoDup (map fst (h_memo s)) /\
    (forall p, In p (h_out s) -> p < length (h_heap s)) /\
    (copying = false -> Forall (fun a => ar_write a = false) (h_heap s)).

  Lemma h_call_ok copying cap s r : h_ok copying s ->
    exists s' x, h_call comp keyf copying cap s r = (s', x) /\ h_ok copying s' /\
      match x with
      | Ok p => exists b, comp r = Ok (h_see s' p, b)
      | Err e => comp r = Err e
      end.
  Proof.
    intros (H1 & H2 & H3 & H4). unfold h_call.
    destruct (memo_get Nat.eqb (h_memo s) (keyf r)) as [p|] eqn:Em.
    - destruct (H1 _ _ Em) as (r' & a & b & Hk & Ha & Hc & Hp). apply key_inj in Hk. subst r'.
      assert (Lp : p < length (h_heap s)) by (apply nth_error_Some; congruence).
      destruct copying.
      + rewrite Ha. eexists _, _. split; [reflexivity|]. split.
        * unfold h_ok. cbn [h_heap h_memo h_out]. split; [|split; [auto|split; [|discriminate]]].
          -- intros k q Hq. destruct (H1 _ _ Hq) as (r' & a' & b' & A & B & C & E).
             assert (Lq : q < length (h_heap s)) by (apply nth_error_Some; congruence).
             exists r', a', b'. rewrite nth_error_app1 by auto. repeat split; auto.
             intros _ Hin. apply in_app_iff in Hin. destruct Hin as [Hin|[<-|[]]]; [apply E; auto|lia].
          -- intros q Hq. rewrite app_length. cbn. apply in_app_iff in Hq.
             destruct Hq as [Hq|[<-|[]]]; [apply H3 in Hq|]; lia.
        * exists b. unfold h_see. cbn [h_heap]. rewrite nth_error_app2, Nat.sub_diag by lia. exact Hc.
      + eexists _, _. split; [reflexivity|]. split.
        * unfold h_ok. cbn [h_heap h_memo h_out]. split; [|split; [auto|split; [|auto]]].
          -- intros k q Hq. destruct (H1 _ _ Hq) as (r' & a' & b' & A & B & C & E).
             exists r', a', b'. repeat split; auto; discriminate.
          -- intros q Hq. apply in_app_iff in Hq. destruct Hq as [Hq|[<-|[]]]; auto.
        * exists b. unfold h_see. cbn [h_heap]. rewrite Ha. exact Hc.
    - destruct (comp r) as [[vs ma]|e] eqn:Ec.
      2: { eexists _, _. split; [reflexivity|]. split; auto. repeat split; auto. }
      destruct copying.
      + eexists _, _. split; [reflexivity|]. split.
        * unfold h_ok. cbn [h_heap h_memo h_out]. split; [|split; [apply store_nodup; auto using nat_keq|split; [|discriminate]]].
          -- intros k q Hq. destruct (Nat.eq_dec (keyf r) k) as [<-|Hne].
             ++ rewrite store_hit in Hq by apply nat_keq. injection Hq as <-.
                exists r, (read_only (arr_copy (mkArr vs ma true))), ma. split; auto.
                split; [rewrite nth_error_app2 by lia; replace (S _ - _) with 1 by lia; reflexivity|].
                split; auto. intros _ Hin. apply in_app_iff in Hin.
                destruct Hin as [Hin|[E|[]]]; [apply H3 in Hin; lia|lia].
             ++ rewrite store_other in Hq by (auto; apply nat_keq).
                apply evicted_get in Hq; auto using nat_keq.
                destruct (H1 _ _ Hq) as (r' & a' & b' & A & B & C & E).
                assert (Lq : q < length (h_heap s)) by (apply nth_error_Some; congruence).
                exists r', a', b'. rewrite nth_error_app1 by auto. repeat split; auto.
                intros _ Hin. apply in_app_iff in Hin. destruct Hin as [Hin|[<-|[]]]; [apply E; auto|lia].
          -- intros q Hq. rewrite app_length. cbn. apply in_app_iff in Hq.
             destruct Hq as [Hq|[<-|[]]]; [apply H3 in Hq|]; lia.
        * exists ma. unfold h_see. cbn [h_heap]. rewrite nth_error_app2, Nat.sub_diag by lia. reflexivity.
      + eexists _, _. split; [reflexivity|]. split.
        * unfold h_ok. cbn [h_heap h_memo h_out]. split; [|split; [apply store_nodup; auto using nat_keq|split]].
          -- intros k q Hq. destruct (Nat.eq_dec (keyf r) k) as [<-|Hne].
             ++ rewrite store_hit in Hq by apply nat_keq. injection Hq as <-.
                exists r, (read_only (mkArr vs ma true)), ma. split; auto.
                split; [rewrite nth_error_app2, Nat.sub_diag by lia; reflexivity|]. split; auto. discriminate.
             ++ rewrite store_other in Hq by (auto; apply nat_keq).
                apply evicted_get in Hq; auto using nat_keq.
                destruct (H1 _ _ Hq) as (r' & a' & b' & A & B & C & E).
                assert (Lq : q < length (h_heap s)) by (apply nth_error_Some; congruence).
                exists r', a', b'. rewrite nth_error_app1 by auto. repeat split; auto. discriminate.
          -- intros q Hq. rewrite app_length. cbn. apply in_app_iff in Hq.
             destruct Hq as [Hq|[<-|[]]]; [apply H3 in Hq|]; lia.
          -- intros _. apply Forall_app. split; auto.
        * exists ma. unfold h_see. cbn [h_heap]. rewrite nth_error_app2, Nat.sub_diag by lia. reflexivity.
  Qed.

  Lemma h_edit_ok copying s k f : h_ok copying s ->
    (forall a a', f a = Ok a' -> copying = false -> ar_write a = true) ->
    h_ok copying (fst (h_edit s k f)).
  Proof.
    intros (H1 & H2 & H3 & H4) Hf. unfold h_edit.
    destruct (nth_error (h_out s) k) as [p|] eqn:Ek; [|repeat split; auto].
    destruct (nth_error (h_heap s) p) as [a|] eqn:Ea; [|repeat split; auto].
    destruct (f a) as [a'|e] eqn:Ef; [|repeat split; auto]. cbn [fst].
    destruct copying.
    - unfold h_ok. cbn [h_heap h_memo h_out]. split; [|split; [auto|split; [|discriminate]]].
      + intros k' q Hq. destruct (H1 _ _ Hq) as (r' & a0 & b' & A & B & C & E).
        exists r', a0, b'. repeat split; auto. rewrite nth_list_set_neq; auto.
        intros ->. apply E; auto. eapply nth_error_In; eauto.
      + intros q Hq. rewrite list_set_len. auto.
    - exfalso. specialize (Hf _ _ Ef eq_refl). specialize (H4 eq_refl).
      rewrite Forall_forall in H4. apply nth_error_In in Ea. apply H4 in Ea. congruence.
  Qed.

  Lemma h_run_sees copying cap ops : forall s, h_ok copying s ->
    (copying = false -> Forall NumberWrites ops) ->
    Forall2 (SeesComputed comp) ops (h_run comp keyf copying cap s ops).
  Proof.
    induction ops as [|o ops IH]; intros s Hs Hn; cbn [h_run]; [constructor|].
    assert (Hn' : copying = false -> Forall NumberWrites ops) by (intros E; specialize (Hn E); inversion Hn; auto).
    destruct o as [r|k i x|k i]; cbn [h_step].
    - destruct (h_call_ok copying cap s r Hs) as (s' & x & E & A & B). rewrite E. destruct x as [p|e].
      + constructor; auto. cbn. destruct B as [b ->]. reflexivity.
      + constructor; auto. cbn. rewrite B. reflexivity.
    - assert (K : h_ok copying (fst (h_edit s k (fun a => arr_set a i x)))).
      { apply h_edit_ok; auto. intros a a' H _. unfold arr_set in H. destruct (ar_write a); auto. discriminate. }
      destruct (h_edit s k _) as [s' [e|]]; constructor; cbn; auto.
    - assert (K : h_ok copying (fst (h_edit s k (fun a => arr_mask a i)))).
      { apply h_edit_ok; auto. intros a a' H E. specialize (Hn E). inversion Hn as [|? ? N]. destruct N. }
      destruct (h_edit s k _) as [s' [e|]]; constructor; cbn; auto.
  Qed.
  Lemma h_empty_ok copying : h_ok copying h_empty.
  Proof.
    split; [|split; [|split]]; cbn; try constructor; try tauto; intros; discriminate.
  Qed.
End HandedFacts.

(** ** Constructor, time and units *)
Lemma several_false {A} (eqb : A -> A -> bool) (eqb_iff : forall a b, eqb a b = true <-> a = b) l :
  several eqb l = true <-> TwoDifferent l.
Proof.
  destruct l as [|a l]; cbn [several].
  - split; [discriminate|]. intros (x & y & [] & _).
  - rewrite negb_true_iff. split.
    + intros H. assert (K : exists y, In y l /\ eqb a y = false).
      { clear - H. induction l as [|b l IH]; cbn in *; [discriminate|].
        destruct (eqb a b) eqn:E; eauto. destruct (IH H) as (y & A1 & A2). eauto. }
      destruct K as (y & Hy & E). exists a, y. repeat split; cbn; auto.
      intros ->. assert (eqb y y = true) by (apply eqb_iff; auto). congruence.
    + intros (x & y & Hx & Hy & Hne). apply not_true_is_false. intros K.
      rewrite forallb_forall in K. apply Hne.
      assert (E : forall z, In z (a :: l) -> z = a).
      { intros z [->|Hz]; auto. apply K in Hz. apply eqb_iff in Hz. auto. }
      rewrite (E x Hx), (E y Hy). reflexivity.
Qed.
Lemma opt_str_eqb_iff a b : opt_str_eqb a b = true <-> a = b.
Proof.
  destruct a as [a|], b as [b|]; cbn.
  - rewrite String.eqb_eq. split; congruence.
  - split; discriminate.
  - split; discriminate.
  - tauto.
Qed.

Lemma comps_set_time_ok cs o : Forall (Fits o) cs ->
  exists cs', comps_set_time cs (TObj o) = (cs', None) /\
    Forall2 (fun c c' => vs_time (cp_state c') = Some o /\ vs_shape (cp_state c') = vs_shape (cp_state c) /\
                         cp_units c' = cp_units c) cs cs'.
Proof.
  induction 1 as [|c cs (d & r & E & H) _ (cs' & IH1 & IH2)]; cbn [comps_set_time].
  - exists []. split; auto.
  - unfold set_time. rewrite E.
    assert (K : negb (Nat.eqb (length (t_data o)) d) && Nat.ltb 1 (length (t_data o)) = false).
    { destruct H as [->|H]; [rewrite Nat.eqb_refl; auto|]. apply andb_false_intro2. apply Nat.ltb_ge. lia. }
    rewrite K. cbn [bind]. rewrite IH1. eexists. split; [reflexivity|].
    constructor; auto.
Qed.
Lemma comps_set_time_app cs c cs2 o d r : Forall (Fits o) cs ->
  vs_shape (cp_state c) = d :: r -> length (t_data o) <> d -> 1 < length (t_data o) ->
  exists cs', comps_set_time (cs ++ c :: cs2) (TObj o) = (cs' ++ c :: cs2, Some ValueError) /\
    Forall2 (fun c c' => vs_time (cp_state c') = Some o /\ vs_shape (cp_state c') = vs_shape (cp_state c)) cs cs'.
Proof.
  intros Hf E Hn H1. induction Hf as [|x cs (d' & r' & E' & H) _ (cs' & IH1 & IH2)]; cbn [app comps_set_time].
  - exists []. split; auto. unfold set_time. rewrite E.
    apply Nat.eqb_neq in Hn. rewrite Hn. apply Nat.ltb_lt in H1. rewrite H1. reflexivity.
  - unfold set_time at 1. rewrite E'.
    assert (K : negb (Nat.eqb (length (t_data o)) d') && Nat.ltb 1 (length (t_data o)) = false).
    { destruct H as [->|H]; [rewrite Nat.eqb_refl; auto|]. apply andb_false_intro2. apply Nat.ltb_ge. lia. }
    rewrite K. cbn [bind]. rewrite IH1. eexists (_ :: _). split; [reflexivity|].
    constructor; auto.
Qed.
