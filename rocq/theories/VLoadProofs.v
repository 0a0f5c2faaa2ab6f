(** Lemmas about loading vector variables. *)
From Coq Require Import String.
From Verif Require Import Common CommonProofs TimeModel GridTypeModel TFileModel LoadModel LoadSpec LoadProofs VLoadModel VLoadSpec.
Open Scope string_scope.
Open Scope list_scope.
Open Scope nat_scope.

Lemma present_ex names : exists l, Present names l.
Proof. induction names as [|[n|] r [l H]]; eauto using Present. Qed.
Lemma present_length names l : Present names l -> length l <= length names.
Proof. induction 1; cbn; lia. Qed.
Lemma present_all names l : Present names l -> length names <= length l -> names = map Some l.
Proof.
  induction 1; intros L; cbn in *; auto.
  - apply present_length in H. lia.
  - rewrite IHPresent; auto. lia.
Qed.
Lemma names_asked f comps a names : names_of f comps a = Ok names -> Asked f comps a names.
Proof.
  unfold names_of, Asked. destruct (vg_names a) as [l|]; [intros H; injection H as <-; auto|].
  cbv zeta. destruct (forallb is_none (gen_varnames f comps)) eqn:E; [discriminate|]. intros H. injection H as <-. right. repeat split; auto.
  induction (gen_varnames f comps) as [|[n|] l IH]; [discriminate| |].
  - exists n. now left.
  - destruct (IH E) as (n & Hn). exists n. now right.
Qed.
Lemma opt_eqb_iff a b : opt_eqb a b = true <-> a = b.
Proof.
  destruct a as [a|], b as [b|]; cbn; try (split; congruence). destruct (String.eqb_spec a b); split; congruence.
Qed.

Section Loading.
  Context (dateutil : string -> dparse) (cftime : string -> option (Z * Z * Z)) (read_depth : result unit) (now : time_obj).
  Lemma comps_ok g f t d a names l : Present names l -> forall c xs,
    load_comps dateutil cftime read_depth g f t d a c names = Ok xs ->
    length xs = length l /\
    forall i n, nth_error l i = Some n -> exists x, nth_error xs i = Some x /\
      load_variable dateutil cftime read_depth g f (c + i) (comp_args n t d a) = Ok x.
  Proof.
    induction 1 as [|r l H IH|n r l H IH]; intros c xs E; cbn [load_comps] in E.
    - injection E as <-. split; auto. intros [|i] n; discriminate.
    - now apply IH.
    - apply bind_ok in E as (x & Ex & E). apply bind_ok in E as (ys & Ey & E). injection E as <-.
      destruct (IH _ _ Ey) as [L N]. split; [cbn; lia|]. intros [|i] m Hm; cbn [nth_error] in *.
      + injection Hm as <-. exists x. rewrite Nat.add_0_r. auto.
      + destruct (N i m Hm) as (y & Hy & Z). exists y. split; auto. now rewrite <- Nat.add_succ_comm.
  Qed.
  Lemma vector_parts g f cls comps count c a r : load_vector dateutil cftime read_depth now g f cls comps count c a = Ok r ->
    exists names n v t b d vars u x rest, Asked f comps a names /\ hd_error names = Some (Some n) /\ dget (lf_vars f) n = Some v /\
      load_time dateutil cftime f v (first_args a) = Ok (t, b) /\ load_depth read_depth g v b (first_args a) = Ok d /\
      match vg_vars a with
      | Some l => vars = l
      | None => load_comps dateutil cftime read_depth g f (time_value now t) (negb (no_depth d)) a c names = Ok vars
      end /\ units_of (vg_units a) vars = Ok u /\ vars = x :: rest /\ 2 <= length vars /\ length comps <= length vars /\
      r = mkVec (match vg_name a with Some n => n | None => vector_name cls count end) u t (if no_depth d then va_depth x else d) vars.
  Proof.
    unfold load_vector. intros H. apply bind_ok in H as (names & En & H). cbv zeta in H. apply bind_ok in H as (v & Ev & H).
    apply bind_ok in H as ([t b] & Et & H). apply bind_ok in H as (d & Ed & H). apply bind_ok in H as (vars & Evs & H).
    apply bind_ok in H as (u & Eu & H). cbn [fst snd] in *. apply names_asked in En.
    destruct vars as [|x rest]; [discriminate|].
    destruct (Nat.ltb_spec (length (x :: rest)) 2); [discriminate|]. destruct (Nat.ltb_spec (length (x :: rest)) (length comps)); [discriminate|].
    injection H as <-. destruct names as [|[n|] names]; try discriminate. cbn [first_var] in Ev.
    destruct (dget (lf_vars f) n) as [v'|] eqn:Dv; [|discriminate]. injection Ev as ->.
    exists (Some n :: names), n, v, t, b, d, (x :: rest), u, x, rest. repeat split; auto.
    destruct (vg_vars a); [now injection Evs|auto].
  Qed.
End Loading.
