From Coq Require Import String Ascii.
From Verif Require Import Common CommonProofs VariableModel VariableProofs GridTypeModel GridTypeSpec GridTypeProofs MaskModel MaskSpec.
Open Scope string_scope.
Open Scope list_scope.

Lemma blank_iff c : is_blank c = true <-> Blank c.
Proof.
  unfold is_blank, Blank. cbn [In].
  rewrite orb_true_iff, andb_true_iff, Nat.eqb_eq, !Nat.leb_le. lia.
Qed.

Lemma str_assoc (a b c : string) : ((a ++ b) ++ c = a ++ (b ++ c))%string.
Proof. induction a; cbn; congruence. Qed.
Lemma str_nil_r (a : string) : (a ++ "" = a)%string.
Proof. induction a; cbn; congruence. Qed.
Lemma all_app P a b : all_chars P (a ++ b)%string <-> all_chars P a /\ all_chars P b.
Proof. induction a; cbn; tauto. Qed.
Lemma str_app_nonempty a c : (a ++ String c "")%string <> "".
Proof. destruct a; discriminate. Qed.
Lemma eqb_empty a : a <> "" -> String.eqb a "" = false.
Proof. intro H. destruct (String.eqb_spec a ""); congruence. Qed.

(** leading gap *)
Lemma Words_gap g s l : Gap g -> Words s l -> Words (g ++ s)%string l.
Proof.
  intros Hg H. inversion H; subst.
  - apply words_nil. apply all_app; auto.
  - rewrite <- str_assoc. apply words_one; auto. apply all_app; auto.
  - rewrite <- str_assoc. apply words_cons; auto. apply all_app; auto.
Qed.

Lemma split_aux_spec s : forall cur, all_chars (fun c => ~ Blank c) cur -> Words (cur ++ s)%string (split_aux s cur).
Proof.
  induction s as [|c r IH]; intros cur Hc; cbn [split_aux].
  - rewrite str_nil_r. destruct (String.eqb_spec cur "") as [->|Hn]; [apply words_nil; exact I|].
    rewrite <- (str_nil_r cur) at 1. apply (words_one "" cur ""); cbn; auto. split; auto.
  - destruct (is_blank c) eqn:E.
    + apply blank_iff in E.
      destruct (String.eqb_spec cur "") as [->|Hn].
      * cbn [append]. apply (Words_gap (String c "") r); [cbn; auto|]. apply (IH ""). exact I.
      * apply (words_cons "" cur (String c "") r); cbn; auto; try (split; auto); try discriminate.
        apply (IH ""). exact I.
    + replace (cur ++ String c r)%string with ((cur ++ String c "") ++ r)%string
        by (rewrite str_assoc; reflexivity).
      apply IH. apply all_app. split; auto. cbn [all_chars]. split; auto. intro Hb. apply blank_iff in Hb. congruence.
Qed.
Lemma split_words s : Words s (split s).
Proof. apply (split_aux_spec s ""). exact I. Qed.

(** and it is the only reading *)
Lemma split_aux_gap g s : Gap g -> split_aux (g ++ s)%string "" = split_aux s "".
Proof.
  induction g as [|c r IH]; intros Hg; [reflexivity|]. cbn in Hg. destruct Hg as [Hc Hr].
  apply blank_iff in Hc. cbn. rewrite Hc. auto.
Qed.
Lemma split_aux_word w s : forall cur, all_chars (fun c => ~ Blank c) w ->
  split_aux (w ++ s)%string cur = split_aux s (cur ++ w)%string.
Proof.
  induction w as [|c r IH]; intros cur H; cbn [append split_aux].
  - rewrite str_nil_r. reflexivity.
  - cbn in H. destruct H as [Hc Hr]. destruct (is_blank c) eqn:E; [apply blank_iff in E; contradiction|].
    rewrite IH by assumption. rewrite str_assoc. reflexivity.
Qed.
Lemma split_aux_end g cur : Gap g -> cur <> "" -> split_aux g cur = [cur].
Proof.
  destruct g as [|c r]; intros Hg Hc; cbn.
  - rewrite eqb_empty by assumption. reflexivity.
  - destruct Hg as [Hb Hr]. apply blank_iff in Hb. rewrite Hb, eqb_empty by assumption.
    rewrite <- (str_nil_r r). rewrite split_aux_gap by assumption. reflexivity.
Qed.
Lemma split_unique s l : Words s l -> split s = l.
Proof.
  unfold split. induction 1 as [g Hg|g w g' Hg [Hw Hw'] Hg'|g w g' s l Hg [Hw Hw'] Hg' Hn H IH].
  - rewrite <- (str_nil_r g), split_aux_gap by assumption. reflexivity.
  - rewrite split_aux_gap, split_aux_word by assumption. cbn. apply split_aux_end; assumption.
  - rewrite split_aux_gap, split_aux_word by assumption. cbn [append].
    destruct g' as [|c r]; [congruence|]. destruct Hg' as [Hb Hr]. apply blank_iff in Hb.
    cbn. rewrite Hb, eqb_empty by assumption. rewrite split_aux_gap by assumption. f_equal. exact IH.
Qed.

(** ** The flag table *)
Lemma water_iff s : is_land s = false <-> WaterWord s.
Proof.
  unfold is_land. rewrite negb_false_iff, orb_true_iff, !contains_spec.
  assert (Hl : forall a b, lower (a ++ b) = (lower a ++ lower b)%string)
    by (induction a; intros; cbn; congruence).
  assert (Hlen : forall n s x, lower s = (n ++ x)%string -> exists a b, s = (a ++ b)%string /\ lower a = n /\ lower b = x).
  { induction n as [|c n IH]; intros s' x E.
    - exists "", s'. auto.
    - destruct s' as [|d s']; [discriminate|]. cbn in E. injection E as E1 E2.
      destruct (IH _ _ E2) as (a & b & -> & Ha & Hb). exists (String d a), b. cbn. rewrite Ha, E1. auto. }
  assert (K : forall w, lower w = w -> (Mentions w (lower s) <-> exists a v b, s = (a ++ v ++ b)%string /\ CaseEq v w)).
  { intros w Hw. split.
    - intros (a & b & E). apply Hlen in E. destruct E as (a' & r & -> & Ha & Hr).
      apply Hlen in Hr. destruct Hr as (v & b' & -> & Hv & Hb).
      exists a', v, b'. split; auto. apply lower_eq. congruence.
    - intros (a & v & b & -> & Hc). apply lower_eq in Hc. exists (lower a), (lower b).
      rewrite !Hl. congruence. }
  rewrite (K "water") by reflexivity. rewrite (K "lake") by reflexivity. unfold WaterWord.
  split; [intros [(a & v & b & E & H)|(a & v & b & E & H)]|intros (a & v & b & E & [H|H])]; eauto 8.
Qed.

Definition hit (e : mentry) (k : Z) : bool := negb (m_masked e) && (m_val e =? k)%Z.
Lemma apply_aux e tf : forall r,
  fold_left (fun r kv => if hit e (fst kv) then snd kv else r) tf r =
  if existsb (fun kv => hit e (fst kv)) tf then apply_map tf e else r.
Proof.
  induction tf as [|[k v] tf IH] using rev_ind; intros r; [reflexivity|].
  unfold apply_map. rewrite !fold_left_app. cbn [fold_left fst snd].
  rewrite existsb_app. cbn [existsb fst]. fold (hit e k).
  destruct (hit e k) eqn:E; [rewrite !orb_true_r; reflexivity|].
  rewrite !orb_false_r. rewrite IH.
  destruct (existsb _ tf); reflexivity.
Qed.
Lemma apply_app a b e : apply_map (a ++ b) e =
  if existsb (fun kv => hit e (fst kv)) b then apply_map b e else apply_map a e.
Proof. unfold apply_map at 1. rewrite fold_left_app. apply (apply_aux e b). Qed.
Lemma apply_none tf e : existsb (fun kv => hit e (fst kv)) tf = false -> apply_map tf e = true.
Proof. intro H. pose proof (apply_aux e tf true) as A. rewrite H in A. exact A. Qed.

Lemma put_apply d k b e : NoDup (map fst d) ->
  apply_map (memo_put Z.eqb d k b) e = if hit e k then b else apply_map d e.
Proof.
  induction d as [|[k' v'] d IH]; cbn [memo_put map fst]; intros Hn.
  - unfold apply_map. cbn. fold (hit e k). destruct (hit e k); reflexivity.
  - inversion Hn as [|? ? Hni Hnd]; subst.
    destruct (Z.eqb_spec k' k) as [->|Hne].
    + change ((k, b) :: d) with ([(k, b)] ++ d). rewrite apply_app.
      change ((k, v') :: d) with ([(k, v')] ++ d). rewrite apply_app.
      destruct (existsb (fun kv => hit e (fst kv)) d) eqn:E.
      * apply existsb_exists in E. destruct E as ([k2 v2] & Hin & Hh). cbn in Hh.
        destruct (hit e k) eqn:Ek; [|reflexivity]. exfalso.
        unfold hit in *. apply andb_true_iff in Hh, Ek. destruct Hh as [_ H1], Ek as [_ H2].
        apply Z.eqb_eq in H1, H2. apply Hni. apply in_map_iff. exists (k2, v2). cbn. split; auto. congruence.
      * unfold apply_map. cbn. fold (hit e k). destruct (hit e k); reflexivity.
    + change ((k', v') :: memo_put Z.eqb d k b) with ([(k', v')] ++ memo_put Z.eqb d k b).
      change ((k', v') :: d) with ([(k', v')] ++ d). rewrite !apply_app, IH by assumption.
      assert (Hx : existsb (fun kv => hit e (fst kv)) (memo_put Z.eqb d k b) =
                   hit e k || existsb (fun kv => hit e (fst kv)) d).
      { clear. induction d as [|[k2 v2] d IH]; cbn; [rewrite orb_false_r; reflexivity|].
        destruct (Z.eqb_spec k2 k) as [->|]; cbn [existsb fst].
        - destruct (hit e k); reflexivity.
        - rewrite IH. destruct (hit e k), (hit e k2); reflexivity. }
      rewrite Hx. destruct (hit e k); [reflexivity|]. cbn [orb].
      reflexivity.
Qed.
Lemma dict_nodup l : NoDup (map fst (dict_of l)).
Proof.
  induction l as [|[k v] l IH] using rev_ind; [constructor|].
  unfold dict_of. rewrite fold_left_app. cbn. apply put_nodup; auto. exact Z.eqb_eq.
Qed.
Lemma dict_snoc l k v : dict_of (l ++ [(k, v)]) = memo_put Z.eqb (dict_of l) k v.
Proof. unfold dict_of. rewrite fold_left_app. reflexivity. Qed.

Lemma dict_apply l e : apply_map (dict_of l) e = apply_map l e.
Proof.
  induction l as [|[k v] l IH] using rev_ind; [reflexivity|].
  rewrite dict_snoc, put_apply by apply dict_nodup. rewrite apply_app, IH. cbn [existsb fst].
  rewrite orb_false_r. unfold apply_map at 2. cbn. fold (hit e k).
  destruct (hit e k); reflexivity.
Qed.

Lemma zip_nth {A B} (a : list A) : forall (b : list B) i,
  nth_error (zip a b) i = match nth_error a i, nth_error b i with Some x, Some y => Some (x, y) | _, _ => None end.
Proof.
  induction a as [|x a IH]; intros [|y b] [|i]; cbn; try reflexivity.
  - destruct (nth_error a i); reflexivity.
  - apply IH.
Qed.

(** the fold takes the last hit *)
Lemma apply_last tf e :
  (exists i k v, nth_error tf i = Some (k, v) /\ hit e k = true /\
     (forall j k' v', (i < j)%nat -> nth_error tf j = Some (k', v') -> hit e k' = false) /\ apply_map tf e = v) \/
  ((forall j k' v', nth_error tf j = Some (k', v') -> hit e k' = false) /\ apply_map tf e = true).
Proof.
  induction tf as [|[k v] tf IH] using rev_ind.
  - right. split; [|reflexivity]. intros [|j]; discriminate.
  - rewrite apply_app. cbn [existsb fst]. rewrite orb_false_r. destruct (hit e k) eqn:E.
    + left. exists (length tf), k, v. rewrite nth_error_app2, Nat.sub_diag by lia.
      repeat split; auto.
      * intros j k' v' Hj H. apply nth_error_Some_lt in H. rewrite app_length in H. cbn in H. lia.
      * unfold apply_map. cbn. fold (hit e k). rewrite E. reflexivity.
    + destruct IH as [(i & k1 & v1 & Hi & Hh & Hl & Ha)|[Hl Ha]].
      * left. exists i, k1, v1. pose proof (nth_error_Some_lt _ _ _ Hi).
        rewrite nth_error_app1 by assumption. repeat split; auto.
        intros j k' v' Hj H'. destruct (Nat.lt_ge_cases j (length tf)).
        -- rewrite nth_error_app1 in H' by assumption. eauto.
        -- rewrite nth_error_app2 in H' by assumption. destruct (j - length tf)%nat as [|n]; cbn in H'.
           ++ congruence.
           ++ destruct n; discriminate.
      * right. split; auto. intros j k' v' H'. destruct (Nat.lt_ge_cases j (length tf)).
        -- rewrite nth_error_app1 in H' by assumption. eauto.
        -- rewrite nth_error_app2 in H' by assumption. destruct (j - length tf)%nat as [|n]; cbn in H'.
           ++ congruence.
           ++ destruct n; discriminate.
Qed.

Lemma flags_entry keys words v :
  let r := apply_map (dict_of (zip keys (map is_land words))) (mkM v false) in
  (exists w, LastWord v keys words w /\ (r = false <-> WaterWord w)) \/ (NoWord v keys words /\ r = true).
Proof.
  cbn zeta. rewrite dict_apply.
  destruct (apply_last (zip keys (map is_land words)) (mkM v false)) as [(i & k & b & Hi & Hh & Hl & Ha)|[Hl Ha]].
  - left. rewrite zip_nth, nth_error_map in Hi.
    destruct (nth_error keys i) as [k1|] eqn:Ek; [|discriminate].
    destruct (nth_error words i) as [w|] eqn:Ew; [|discriminate]. cbn in Hi. injection Hi as <- <-.
    unfold hit in Hh. cbn in Hh. apply Z.eqb_eq in Hh. subst k1.
    exists w. split.
    + exists i; auto. intros j Hj Hjw Hk.
      destruct (nth_error_lt_Some _ _ Hjw) as [w' Hw'].
      specialize (Hl j v (is_land w') Hj). rewrite zip_nth, nth_error_map, Hk, Hw' in Hl. specialize (Hl eq_refl).
      unfold hit in Hl. cbn in Hl. rewrite Z.eqb_refl in Hl. discriminate.
    + rewrite Ha. apply water_iff.
  - right. split; [|assumption]. intros j Hjw Hk. destruct (nth_error_lt_Some _ _ Hjw) as [w' Hw'].
    specialize (Hl j v (is_land w')). rewrite zip_nth, nth_error_map, Hk, Hw' in Hl. specialize (Hl eq_refl).
    unfold hit in Hl. cbn in Hl. rewrite Z.eqb_refl in Hl. discriminate.
Qed.
Lemma masked_entry tf v : apply_map tf (mkM v true) = true.
Proof. apply apply_none. induction tf; cbn; auto. Qed.

(** ** Number tokens *)
From Coq Require Import DecimalString DecimalFacts DecimalZ.
Lemma int_of_print z : int_of (NilEmpty.string_of_int (Z.to_int z)) = Some z.
Proof.
  unfold int_of. rewrite NilEmpty.isi.
  destruct (String.eqb_spec (NilEmpty.string_of_int (Z.to_int z)) "") as [E|_].
  - exfalso. assert (H : NilEmpty.int_of_string (NilEmpty.string_of_int (Z.to_int z)) = Some (Z.to_int z)) by apply NilEmpty.isi.
    rewrite E in H. cbn in H. injection H as H.
    pose proof (DecimalZ.of_to z) as K. rewrite <- H in K. cbn in K. subst z. discriminate.
  - rewrite DecimalZ.of_to. reflexivity.
Qed.
Lemma ints_of_print zs : ints_of (map (fun z => NilEmpty.string_of_int (Z.to_int z)) zs) = Some zs.
Proof. induction zs as [|z zs IH]; [reflexivity|]. cbn [map ints_of]. rewrite int_of_print, IH. reflexivity. Qed.
Lemma ints_of_none toks : Exists (fun t => int_of t = None) toks -> ints_of toks = None.
Proof.
  induction 1 as [t l H|t l H IH]; cbn.
  - rewrite H. reflexivity.
  - rewrite IH. destruct (int_of t); reflexivity.
Qed.
