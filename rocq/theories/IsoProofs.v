From Verif Require Import Common CommonProofs IsoModel IsoSpec.
From Coq Require Import String Ascii DecimalString DecimalFacts DecimalN Qround Qabs Lqa.
Open Scope string_scope.

Lemma app_assoc_s a b c : (a ++ b) ++ c = a ++ b ++ c.
Proof. induction a; simpl; auto. rewrite IHa. auto. Qed.

Lemma split_colon_uint d t :
  split_colon (NilEmpty.string_of_uint d ++ String ":" t) = Some (NilEmpty.string_of_uint d, t).
Proof. induction d; simpl; auto; rewrite IHd; auto. Qed.

Lemma pad2_uint n : exists d, pad2 (dec n) = NilEmpty.string_of_uint d /\ N.of_uint d = n /\ pad2 (dec n) <> "".
Proof.
  unfold pad2, dec.
  assert (Hof : N.of_uint (N.to_uint n) = n) by apply DecimalN.Unsigned.of_to.
  destruct (String.length (NilEmpty.string_of_uint (N.to_uint n))) as [|[|k]] eqn:E.
  - exists (Decimal.D0 (Decimal.D0 (N.to_uint n))). simpl. repeat split; auto. discriminate.
  - exists (Decimal.D0 (N.to_uint n)). simpl. repeat split; auto. discriminate.
  - exists (N.to_uint n). repeat split; auto. intros H. rewrite H in E. discriminate.
Qed.

Lemma read_number_pad2 n : read_number (pad2 (dec n)) = Some n.
Proof.
  destruct (pad2_uint n) as (d & Hd & Hn & Hne).
  unfold read_number. destruct (pad2 (dec n)) as [|c r] eqn:E; [congruence|].
  rewrite Hd, NilEmpty.usu, Hn. reflexivity.
Qed.

Lemma read_render neg hh mm : (mm < 60)%N ->
  read_offset (iso_render neg hh mm) =
  Some (if neg then - (Z.of_N hh * 60 + Z.of_N mm) else Z.of_N hh * 60 + Z.of_N mm)%Z.
Proof.
  intros Hm. unfold iso_render, read_offset.
  assert (Hs : split_colon (pad2 (dec hh) ++ String ":" (pad2 (dec mm))) = Some (pad2 (dec hh), pad2 (dec mm))).
  { destruct (pad2_uint hh) as (d & Hd & _). rewrite Hd. exact (split_colon_uint d _). }
  apply N.ltb_lt in Hm.
  destruct neg; cbn [String.append]; rewrite Hs, !read_number_pad2, Hm; reflexivity.
Qed.

Lemma floor_unique q z : (inject_Z z <= q)%Q -> (q < inject_Z (z + 1))%Q -> Qfloor q = z.
Proof.
  intros H1 H2. pose proof (Qfloor_le q) as A. pose proof (Qlt_floor q) as B.
  assert (inject_Z z < inject_Z (Qfloor q + 1))%Q by lra.
  assert (inject_Z (Qfloor q) < inject_Z (z + 1))%Q by lra.
  rewrite <- Zlt_Qlt in *. lia.
Qed.

Lemma iso_hm_minutes (m : Z) q : (q == inject_Z m / 60)%Q ->
  iso_hm q = (Z.to_N (Z.abs m / 60), Z.to_N (Z.abs m mod 60)).
Proof.
  intros Hq. unfold iso_hm.
  set (a := Z.abs m).
  assert (Ha : (Qabs q == inject_Z a / 60)%Q).
  { rewrite Hq. unfold a. destruct (Z.abs_spec m) as [[Hm ->]|[Hm ->]].
    - apply Qabs_pos. apply Qle_shift_div_l; [lra|]. rewrite Qmult_0_l.
      change 0%Q with (inject_Z 0). rewrite <- Zle_Qle. lia.
    - rewrite Qabs_neg.
      + rewrite inject_Z_opp. field.
      + apply Qle_shift_div_r; [lra|]. rewrite Qmult_0_l.
        change 0%Q with (inject_Z 0). rewrite <- Zle_Qle. lia. }
  assert (Hd : a = (60 * (a / 60) + a mod 60)%Z) by (apply Z.div_mod; lia).
  assert (Hm : (0 <= a mod 60 < 60)%Z) by (apply Z.mod_pos_bound; lia).
  assert (HaQ : (inject_Z a == 60 * inject_Z (a / 60) + inject_Z (a mod 60))%Q).
  { rewrite Hd at 1. rewrite inject_Z_plus, inject_Z_mult. reflexivity. }
  assert (Hm1 : (0 <= inject_Z (a mod 60))%Q) by (change 0%Q with (inject_Z 0); rewrite <- Zle_Qle; lia).
  assert (Hm2 : (inject_Z (a mod 60) < 60)%Q) by (change 60%Q with (inject_Z 60); rewrite <- Zlt_Qlt; lia).
  assert (Hq60 : (inject_Z a / 60 == inject_Z (a / 60) + inject_Z (a mod 60) / 60)%Q).
  { rewrite HaQ. field. }
  assert (Hf : Qfloor (Qabs q) = (a / 60)%Z).
  { apply floor_unique; rewrite Ha, Hq60.
    - assert (0 <= inject_Z (a mod 60) / 60)%Q by (apply Qle_shift_div_l; lra). lra.
    - rewrite inject_Z_plus. change (inject_Z 1) with 1%Q.
      assert (inject_Z (a mod 60) / 60 < 1)%Q by (apply Qlt_shift_div_r; lra). lra. }
  rewrite Hf. f_equal. f_equal.
  apply floor_unique.
  - rewrite Ha, Hq60. 
    assert ((inject_Z (a / 60) + inject_Z (a mod 60) / 60 - inject_Z (a / 60)) * 60 == inject_Z (a mod 60))%Q by field.
    lra.
  - rewrite Ha, Hq60, inject_Z_plus. change (inject_Z 1) with 1%Q.
    assert ((inject_Z (a / 60) + inject_Z (a mod 60) / 60 - inject_Z (a / 60)) * 60 == inject_Z (a mod 60))%Q by field.
    lra.
Qed.

Lemma iso_round_trip (m : Z) q : (q == inject_Z m / 60)%Q ->
  read_offset (offset_as_iso_string (Some q)) = Some m.
Proof.
  intros Hq. unfold offset_as_iso_string. rewrite (iso_hm_minutes m q Hq).
  assert (Hm : (0 <= Z.abs m mod 60 < 60)%Z) by (apply Z.mod_pos_bound; lia).
  rewrite read_render by lia.
  rewrite !Z2N.id; [|lia|apply Z.div_pos; lia].
  assert (E : (Z.abs m / 60 * 60 + Z.abs m mod 60 = Z.abs m)%Z).
  { rewrite (Z.div_mod (Z.abs m) 60) at 3 by lia. lia. }
  rewrite E. f_equal.
  destruct (Qlt_bool q 0) eqn:E0.
  - apply Qlt_bool_iff in E0.
    assert (inject_Z m < inject_Z 0)%Q.
    { change (inject_Z 0) with 0%Q. assert (inject_Z m == q * 60)%Q by (rewrite Hq; field). lra. }
    rewrite <- Zlt_Qlt in H. lia.
  - apply Qlt_bool_false in E0.
    assert (inject_Z 0 <= inject_Z m)%Q.
    { change (inject_Z 0) with 0%Q. assert (inject_Z m == q * 60)%Q by (rewrite Hq; field). lra. }
    rewrite <- Zle_Qle in H. lia.
Qed.

(** Finite domain: every quarter-hour offset between -24h and +24h. *)
Definition quarter_ok (k : Z) : bool :=
  match f_offset_as_iso_string (f_hours_of_minutes (15 * k)) with
  | Some s => match read_offset s with Some m => Z.eqb m (15 * k) | None => false end
  | None => false
  end.
Definition quarter_range : list Z := map (fun n => Z.of_nat n - 96)%Z (seq 0 193).
Lemma quarter_sweep : forallb quarter_ok quarter_range = true.
Proof. vm_compute. reflexivity. Qed.
Lemma quarter_all k : (-96 <= k <= 96)%Z ->
  exists s, f_offset_as_iso_string (f_hours_of_minutes (15 * k)) = Some s /\ read_offset s = Some (15 * k)%Z.
Proof.
  intros Hk. pose proof quarter_sweep as H. rewrite forallb_forall in H.
  assert (Hin : In k quarter_range).
  { unfold quarter_range. apply in_map_iff. exists (Z.to_nat (k + 96)). split; [lia|]. apply in_seq. lia. }
  specialize (H k Hin). unfold quarter_ok in H.
  destruct (f_offset_as_iso_string (f_hours_of_minutes (15 * k))) as [s|]; [|discriminate].
  destruct (read_offset s) as [m|] eqn:E; [|discriminate].
  apply Z.eqb_eq in H. subst m. eauto.
Qed.

Definition whole_minute_bad (m : Z) : Prop :=
  exists s, f_offset_as_iso_string (f_hours_of_minutes m) = Some s /\ read_offset s <> Some m.
Lemma sixty_one_bad : whole_minute_bad 61.
Proof. eexists. split; [vm_compute; reflexivity|]. vm_compute. discriminate. Qed.
