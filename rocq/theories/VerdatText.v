(** Numbers written and read back. *)
From Coq Require Import String Ascii NArith Nnat Qabs Qround Lqa.
From Verif Require Import Common MaskModel GridTypeModel ChainModel VerdatModel.
Open Scope string_scope.
Open Scope list_scope.
Open Scope Z_scope.

Fixpoint all_chars (P : ascii -> bool) (s : string) : bool :=
  match s with "" => true | String c r => P c && all_chars P r end.
Definition is_digit (c : ascii) : bool := match digit_of c with Some _ => true | None => false end.

Lemma all_app : forall P a b, all_chars P (a ++ b)%string = all_chars P a && all_chars P b.
Proof. induction a; cbn; intros; auto. rewrite IHa. now rewrite andb_assoc. Qed.
Lemma app_s : forall a b c, ((a ++ b) ++ c = a ++ (b ++ c))%string.
Proof. induction a; cbn; intros; congruence. Qed.
Lemma all_impl : forall (P Q : ascii -> bool) s, (forall c, P c = true -> Q c = true) -> all_chars P s = true -> all_chars Q s = true.
Proof. induction s; cbn; intros H A; auto. apply andb_true_iff in A. destruct A. rewrite H, IHs; auto. Qed.

Ltac small n := let H := fresh in
  assert (H : (n = 0 \/ n = 1 \/ n = 2 \/ n = 3 \/ n = 4 \/ n = 5 \/ n = 6 \/ n = 7 \/ n = 8 \/ n = 9)%N) by lia;
  destruct H as [H|[H|[H|[H|[H|[H|[H|[H|[H|H]]]]]]]]]; subst n.

Lemma digit_read : forall n, (n < 10)%N -> digit_of (ascii_of_N (48 + n)) = Some n.
Proof. intros n H. small n; reflexivity. Qed.
Lemma digit_char : forall n, (n < 10)%N -> all_chars is_digit (digit n) = true.
Proof. intros n H. small n; reflexivity. Qed.

(** What a digit is not. *)
Definition plain (c : ascii) : bool :=
  negb (is_blank c) && negb (Ascii.eqb c "-") && negb (Ascii.eqb c "+") && negb (Ascii.eqb c ",").
Lemma digit_plain : forall c, is_digit c = true -> plain c = true /\ Ascii.eqb c "." = false.
Proof.
  intros c H. unfold is_digit, digit_of in H.
  destruct ((48 <=? N_of_ascii c) && (N_of_ascii c <=? 57))%N eqn:E; [|discriminate].
  apply andb_true_iff in E. rewrite !N.leb_le in E.
  remember (N_of_ascii c - 48)%N as n. assert (Hn : (n < 10)%N) by lia.
  assert (C : c = ascii_of_N (48 + n)) by (rewrite <- (ascii_N_embedding c); f_equal; lia).
  rewrite C. clear - Hn. small n; split; reflexivity.
Qed.

Lemma read_app : forall a b acc, read_digits (a ++ b)%string acc =
  match read_digits a acc with Some x => read_digits b x | None => None end.
Proof. induction a; cbn; intros; auto. destruct (digit_of a); auto. Qed.
Lemma read_digit : forall n acc, (n < 10)%N -> read_digits (digit n) acc = Some (10 * acc + n)%N.
Proof. intros n acc H. unfold digit. cbn [read_digits]. now rewrite digit_read. Qed.

Lemma digits_read : forall k n acc, read_digits (digits k n) acc = Some (acc * 10 ^ N.of_nat k + n mod 10 ^ N.of_nat k)%N.
Proof.
  induction k as [|k IH]; intros n acc.
  - cbn. f_equal. rewrite N.mod_1_r. lia.
  - cbn [digits]. rewrite read_app, IH, read_digit by (apply N.mod_lt; lia). f_equal.
    rewrite Nat2N.inj_succ, N.pow_succ_r'.
    rewrite N.mod_mul_r by (try apply N.pow_nonzero; lia). lia.
Qed.
Lemma digits_chars : forall k n, all_chars is_digit (digits k n) = true.
Proof. induction k; intros n; cbn [digits]; auto. rewrite all_app, IHk, digit_char by (apply N.mod_lt; lia). auto. Qed.
Lemma digits_length : forall k n, String.length (digits k n) = k.
Proof.
  induction k; intros; cbn [digits]; auto.
  assert (L : forall a b, String.length (a ++ b)%string = (String.length a + String.length b)%nat) by (induction a; cbn; intros; auto).
  rewrite L, IHk. cbn. lia.
Qed.

Lemma dec_fuel_ok : forall k n, (n < 2 ^ N.of_nat k)%N ->
  read_digits (dec_fuel (S k) n) 0 = Some n /\ all_chars is_digit (dec_fuel (S k) n) = true /\ dec_fuel (S k) n <> "".
Proof.
  induction k as [|k IH]; intros n H.
  - cbn in H. assert (n = 0)%N by lia. subst. repeat split; try reflexivity. discriminate.
  - change (dec_fuel (S (S k)) n) with (if (n <? 10)%N then digit n else (dec_fuel (S k) (n / 10) ++ digit (n mod 10))%string).
    destruct (N.ltb_spec n 10).
    + rewrite read_digit, digit_char by auto. repeat split; auto. discriminate.
    + assert (H1 : (n / 10 < 2 ^ N.of_nat k)%N).
      { apply N.div_lt_upper_bound; [lia|]. rewrite Nat2N.inj_succ, N.pow_succ_r' in H. lia. }
      destruct (IH _ H1) as (E1 & E2 & E3). rewrite read_app, E1, read_digit by (apply N.mod_lt; lia).
      rewrite all_app, E2, digit_char by (apply N.mod_lt; lia). repeat split; auto.
      * f_equal. rewrite (N.div_mod n 10) at 3 by lia. lia.
      * destruct (dec_fuel (S k) (n / 10)); [congruence|discriminate].
Qed.
Lemma size_bound : forall n, (n < 2 ^ N.of_nat (N.size_nat n))%N.
Proof.
  destruct n as [|p]; [cbn; lia|]. cbn [N.size_nat].
  induction p as [p IH|p IH|]; cbn [Pos.size_nat]; rewrite Nat2N.inj_succ, N.pow_succ_r'.
  - change (N.pos p~1) with (2 * N.pos p + 1)%N. lia.
  - change (N.pos p~0) with (2 * N.pos p)%N. lia.
  - cbn. lia.
Qed.
Lemma dec_ok : forall n, read_digits (dec n) 0 = Some n /\ all_chars is_digit (dec n) = true /\ dec n <> "".
Proof. intros n. apply dec_fuel_ok, size_bound. Qed.

(** Padding and stripping. *)
Lemma ltrim_spaces : forall k s, ltrim (spaces k ++ s)%string = ltrim s.
Proof. induction k; cbn; auto. Qed.
Definition nonblank (c : ascii) : bool := negb (is_blank c).
Lemma rtrim_id : forall s, all_chars nonblank s = true -> rtrim s = s.
Proof.
  induction s; cbn; intros H; auto. apply andb_true_iff in H. destruct H as [H1 H2]. rewrite IHs by auto.
  destruct (String.eqb_spec s ""); auto. unfold nonblank in H1. destruct (is_blank a); [discriminate|congruence].
Qed.
Lemma ltrim_id : forall s, all_chars nonblank s = true -> ltrim s = s.
Proof. destruct s; cbn; intros H; auto. apply andb_true_iff in H. destruct H as [H _]. unfold nonblank in H. destruct (is_blank a); [discriminate|auto]. Qed.
Lemma strip_pad : forall k s, all_chars nonblank s = true -> strip (spaces k ++ s)%string = s.
Proof. intros. unfold strip. rewrite ltrim_spaces, ltrim_id, rtrim_id; auto. Qed.

Lemma digit_nonblank : forall s, all_chars is_digit s = true -> all_chars nonblank s = true.
Proof.
  intros s. apply all_impl. intros c H. apply digit_plain in H. destruct H as [H _]. unfold plain in H. unfold nonblank.
  destruct (is_blank c); auto.
Qed.
Lemma digit_nocomma : forall s, all_chars is_digit s = true -> all_chars (fun c => negb (Ascii.eqb c ",")) s = true.
Proof.
  intros s. apply all_impl. intros c H. apply digit_plain in H. destruct H as [H _]. unfold plain in H.
  destruct (Ascii.eqb c ","); auto. rewrite !andb_false_r in H. discriminate.
Qed.
Lemma digit_nodot : forall s, all_chars is_digit s = true -> all_chars (fun c => negb (Ascii.eqb c ".")) s = true.
Proof. intros s. apply all_impl. intros c H. apply digit_plain in H. destruct H as [_ ->]. reflexivity. Qed.

Lemma sign_digits : forall s t, all_chars is_digit s = true -> s <> "" -> sign_of (s ++ t)%string = (false, (s ++ t)%string).
Proof.
  destruct s as [|c s]; intros t H N; [congruence|]. cbn in H |- *. apply andb_true_iff in H. destruct H as [H _].
  apply digit_plain in H. destruct H as [H _]. unfold plain in H.
  destruct (Ascii.eqb c "-"); [rewrite !andb_false_r in H; cbn in H; rewrite ?andb_false_r in H; discriminate|].
  destruct (Ascii.eqb c "+"); [rewrite !andb_false_r in H; cbn in H; rewrite ?andb_false_r in H; discriminate|]. reflexivity.
Qed.
Lemma cut_dot_app : forall a f, all_chars (fun c => negb (Ascii.eqb c ".")) a = true ->
  cut_dot (a ++ "." ++ f)%string = (a, Some f).
Proof.
  induction a; intros f H; [reflexivity|]. cbn in H. apply andb_true_iff in H. destruct H as [H1 H2].
  change ((String a a0 ++ "." ++ f)%string) with (String a (a0 ++ "." ++ f)%string). cbn [cut_dot].
  destruct (Ascii.eqb a "."); [discriminate|]. now rewrite IHa.
Qed.
Lemma app_nil_s : forall s, (s ++ "")%string = s.
Proof. induction s; cbn; congruence. Qed.

(** Integers. *)
Lemma dec_int : forall n, int_str (dec n) = Some (Z.of_N n).
Proof.
  intros n. destruct (dec_ok n) as (E1 & E2 & E3). unfold int_str.
  change (dec n) with (spaces 0 ++ dec n)%string. rewrite strip_pad by (now apply digit_nonblank).
  rewrite <- (app_nil_s (dec n)), sign_digits, app_nil_s by auto.
  unfold unsigned. destruct (String.eqb_spec (dec n) ""); [congruence|]. now rewrite E1.
Qed.
Lemma dec_not_blank : forall n, all_chars nonblank (dec n) = true /\ dec n <> "".
Proof. intros n. destruct (dec_ok n) as (E1 & E2 & E3). split; auto. now apply digit_nonblank. Qed.
Lemma dec_float : forall n k, float_str (spaces k ++ dec n)%string = Some (inject_Z (Z.of_N n) / inject_Z 1)%Q.
Proof.
  intros n k. destruct (dec_ok n) as (E1 & E2 & E3). unfold float_str.
  rewrite strip_pad by (now apply digit_nonblank).
  rewrite <- (app_nil_s (dec n)), sign_digits, app_nil_s by auto.
  assert (C : cut_dot (dec n) = (dec n, None)).
  { apply digit_nodot in E2. clear - E2. induction (dec n); auto. cbn in E2. apply andb_true_iff in E2. destruct E2 as [H1 H2].
    cbn [cut_dot]. destruct (Ascii.eqb a "."); [discriminate|]. now rewrite IHs. }
  rewrite C, app_nil_s. unfold unsigned. destruct (String.eqb_spec (dec n) ""); [congruence|]. rewrite E1. reflexivity.
Qed.

(** Rounding. *)
Lemma rne_close : forall q, (Qabs (q - inject_Z (rne q)) <= 1 # 2)%Q.
Proof.
  intros q. unfold rne.
  pose proof (Qfloor_le q) as H1. pose proof (Qlt_floor q) as H2. rewrite inject_Z_plus in H2. change (inject_Z 1) with 1%Q in H2.
  apply Qabs_Qle_condition.
  destruct (Qlt_le_dec (q - inject_Z (Qfloor q)) (1 # 2)); [split; lra|].
  destruct (Qlt_le_dec (1 # 2) (q - inject_Z (Qfloor q))); [rewrite inject_Z_plus; change (inject_Z 1) with 1%Q; split; lra|].
  destruct (Z.even (Qfloor q)); [split; lra|rewrite inject_Z_plus; change (inject_Z 1) with 1%Q; split; lra].
Qed.
Lemma rne_compat : forall a b, (a == b)%Q -> rne a = rne b.
Proof.
  intros a b E. unfold rne. assert (F : Qfloor a = Qfloor b) by (now rewrite E). rewrite F.
  destruct (Qlt_le_dec (a - inject_Z (Qfloor b)) (1 # 2)), (Qlt_le_dec (b - inject_Z (Qfloor b)) (1 # 2)); try lra; auto.
  destruct (Qlt_le_dec (1 # 2) (a - inject_Z (Qfloor b))), (Qlt_le_dec (1 # 2) (b - inject_Z (Qfloor b))); try lra; auto.
Qed.
Lemma rne_Z : forall z, rne (inject_Z z) = z.
Proof.
  intros z. unfold rne. rewrite Qfloor_Z. destruct (Qlt_le_dec (inject_Z z - inject_Z z) (1 # 2)); auto. lra.
Qed.
Lemma rne_neg : forall q, (q < 0)%Q -> rne q <= 0.
Proof.
  intros q H. unfold rne. assert (F : Qfloor q <= -1).
  { pose proof (Qfloor_le q). assert (inject_Z (Qfloor q) < inject_Z 0)%Q by (change (inject_Z 0) with 0%Q; lra).
    apply Zlt_Qlt in H1 || rewrite <- Zlt_Qlt in H1. lia. }
  destruct (Qlt_le_dec _ _); [lia|]. destruct (Qlt_le_dec _ _); [lia|]. destruct (Z.even _); lia.
Qed.
Lemma rne_pos : forall q, (0 <= q)%Q -> 0 <= rne q.
Proof.
  intros q H. unfold rne. assert (F : 0 <= Qfloor q).
  { change 0 with (Qfloor 0). now apply Qfloor_resp_le. }
  destruct (Qlt_le_dec _ _); [lia|]. destruct (Qlt_le_dec _ _); [lia|]. destruct (Z.even _); lia.
Qed.

(** The text of a number, without padding, and what it reads back as. *)
Definition fixed_text (d : nat) (q : Q) : string :=
  let a := Z.abs_N (rne (q * inject_Z (10 ^ Z.of_nat d))) in
  let p := (10 ^ N.of_nat d)%N in
  ((if Qlt_le_dec q 0%Q then "-" else "") ++ dec (a / p) ++ "." ++ digits d (a mod p))%string.
Lemma fmt_fixed_pad : forall w d q, exists k, fmt_fixed w d q = (spaces k ++ fixed_text d q)%string.
Proof. intros. eexists. reflexivity. Qed.
Definition read_back (d : nat) (q : Q) : Q := inject_Z (rne (q * inject_Z (10 ^ Z.of_nat d))) / inject_Z (10 ^ Z.of_nat d).

Lemma fixed_nonblank : forall d q, all_chars nonblank (fixed_text d q) = true /\ all_chars (fun c => negb (Ascii.eqb c ",")) (fixed_text d q) = true.
Proof.
  intros. unfold fixed_text. rewrite !all_app.
  destruct (dec_ok (Z.abs_N (rne (q * inject_Z (10 ^ Z.of_nat d))) / 10 ^ N.of_nat d)) as (_ & E2 & _).
  rewrite (digit_nonblank _ E2), (digit_nocomma _ E2), (digit_nonblank _ (digits_chars d _)), (digit_nocomma _ (digits_chars d _)).
  destruct (Qlt_le_dec q 0); split; reflexivity.
Qed.

Lemma pow_Z_N : forall d, Z.of_N (10 ^ N.of_nat d) = 10 ^ Z.of_nat d.
Proof. intros. rewrite N2Z.inj_pow, nat_N_Z. reflexivity. Qed.

Lemma fixed_read : forall k d q, exists v, float_str (spaces k ++ fixed_text d q)%string = Some v /\ (v == read_back d q)%Q.
Proof.
  intros k d q. unfold float_str. rewrite strip_pad by apply fixed_nonblank. unfold fixed_text.
  set (z := rne (q * inject_Z (10 ^ Z.of_nat d))) in *. set (p := (10 ^ N.of_nat d)%N).
  destruct (dec_ok (Z.abs_N z / p)) as (E1 & E2 & E3).
  assert (S : sign_of ((if Qlt_le_dec q 0 then "-" else "") ++ dec (Z.abs_N z / p) ++ "." ++ digits d (Z.abs_N z mod p))%string =
              ((if Qlt_le_dec q 0 then true else false), (dec (Z.abs_N z / p) ++ "." ++ digits d (Z.abs_N z mod p))%string)).
  { destruct (Qlt_le_dec q 0); [reflexivity|]. cbn [append]. apply sign_digits; auto. }
  rewrite S, cut_dot_app by (now apply digit_nodot). clear S.
  unfold unsigned.
  destruct (String.eqb_spec (dec (Z.abs_N z / p) ++ digits d (Z.abs_N z mod p))%string "") as [E|_].
  { destruct (dec (Z.abs_N z / p)); [congruence|discriminate]. }
  rewrite read_app, E1, digits_read. fold p. cbn [option_map]. rewrite digits_length.
  assert (P0 : p <> 0%N) by (apply N.pow_nonzero; lia).
  rewrite (N.mod_small (Z.abs_N z mod p) p) by (now apply N.mod_lt).
  replace (Z.abs_N z / p * p + Z.abs_N z mod p)%N with (Z.abs_N z) by (rewrite (N.div_mod (Z.abs_N z) p) at 1 by auto; lia).
  rewrite N2Z.inj_abs_N. eexists. split; [reflexivity|]. unfold read_back. fold z.
  assert (D : ~ (inject_Z (10 ^ Z.of_nat d) == 0)%Q).
  { intros C. change 0%Q with (inject_Z 0) in C. rewrite inject_Z_injective in C.
    assert (0 < 10 ^ Z.of_nat d) by (apply Z.pow_pos_nonneg; lia). lia. }
  assert (P : (0 < inject_Z (10 ^ Z.of_nat d))%Q).
  { change 0%Q with (inject_Z 0). rewrite <- Zlt_Qlt. apply Z.pow_pos_nonneg; lia. }
  destruct (Qlt_le_dec q 0) as [N|N].
  - assert (z <= 0). { apply rne_neg. setoid_replace 0%Q with (0 * inject_Z (10 ^ Z.of_nat d))%Q by ring. apply Qmult_lt_compat_r; auto. }
    rewrite Z.abs_neq by auto. rewrite inject_Z_opp. field. auto.
  - assert (0 <= z). { apply rne_pos. setoid_replace 0%Q with (0 * inject_Z (10 ^ Z.of_nat d))%Q by ring. apply Qmult_le_compat_r; lra. }
    rewrite Z.abs_eq by auto. reflexivity.
Qed.

Lemma split_comma_field : forall a s, all_chars (fun c => negb (Ascii.eqb c ",")) a = true ->
  split_comma (a ++ String "," s)%string = a :: split_comma s.
Proof.
  induction a; intros s H; [reflexivity|]. cbn in H. apply andb_true_iff in H. destruct H as [H1 H2].
  change ((String a a0 ++ String "," s)%string) with (String a (a0 ++ String "," s)%string). cbn [split_comma].
  destruct (Ascii.eqb a ","); [discriminate|]. now rewrite IHa.
Qed.
Lemma split_comma_last : forall a, all_chars (fun c => negb (Ascii.eqb c ",")) a = true -> split_comma a = [a].
Proof.
  induction a; intros H; [reflexivity|]. cbn in H. apply andb_true_iff in H. destruct H as [H1 H2]. cbn [split_comma].
  destruct (Ascii.eqb a ","); [discriminate|]. now rewrite IHa.
Qed.
Lemma spaces_nocomma : forall k, all_chars (fun c => negb (Ascii.eqb c ",")) (spaces k) = true.
Proof. induction k; auto. Qed.
Lemma space_spaces : forall k s, String " " (spaces k ++ s)%string = (spaces (S k) ++ s)%string.
Proof. reflexivity. Qed.

(** One point line read back. *)
Lemma point_line_read : forall i p d, exists vi vx vy vz,
  map float_str (split_comma (point_line i p d)) = [Some vi; Some vx; Some vy; Some vz] /\
  (vi == inject_Z (Z.of_nat i))%Q /\ (vx == read_back 6 (fst p))%Q /\ (vy == read_back 6 (snd p))%Q /\ (vz == read_back 3 d)%Q.
Proof.
  intros i p d. unfold point_line, fmt_int.
  assert (N0 : Z.of_nat i <? 0 = false) by (apply Z.ltb_ge; lia). rewrite N0. cbn [append].
  unfold lpad at 1. set (ki := (4 - _)%nat).
  destruct (fmt_fixed_pad 10 6 (fst p)) as [kx ->]. destruct (fmt_fixed_pad 10 6 (snd p)) as [ky ->].
  destruct (fmt_fixed_pad 8 3 d) as [kd ->].
  change ", " with ("," ++ " ")%string. rewrite !app_s.
  rewrite <- (app_s (spaces ki)).
  destruct (dec_ok (Z.abs_N (Z.of_nat i))) as (_ & DI & _).
  rewrite split_comma_field by (rewrite all_app, spaces_nocomma, digit_nocomma; auto).
  rewrite space_spaces. rewrite <- (app_s (spaces (S kx))).
  rewrite split_comma_field by (rewrite all_app, spaces_nocomma, (proj2 (fixed_nonblank 6 (fst p))); auto).
  rewrite space_spaces. rewrite <- (app_s (spaces (S ky))).
  rewrite split_comma_field by (rewrite all_app, spaces_nocomma, (proj2 (fixed_nonblank 6 (snd p))); auto).
  rewrite space_spaces.
  rewrite split_comma_last by (rewrite all_app, spaces_nocomma, (proj2 (fixed_nonblank 3 d)); auto).
  cbn [map]. rewrite dec_float.
  destruct (fixed_read (S kx) 6 (fst p)) as (vx & -> & Ex). destruct (fixed_read (S ky) 6 (snd p)) as (vy & -> & Ey).
  destruct (fixed_read (S kd) 3 d) as (vd & -> & Ed).
  eexists _, vx, vy, vd. split; [reflexivity|]. repeat split; auto.
  rewrite N2Z.inj_abs_N, Z.abs_eq by lia. field.
Qed.
