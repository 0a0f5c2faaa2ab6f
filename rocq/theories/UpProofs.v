(** Lemmas about levels listed upwards. *)
From Coq Require Import String Lqa.
From Verif Require Import Common CommonProofs TimeModel TimeSpec TimeHeapProofs VariableModel VariableSpec VariableProofs VariableInterpProofs VariableAtProofs
  DepthModel DepthSpec DepthProofs DepthAtProofs WholeModel WholeSpec WholeProofs WMaskSpec WMaskProofs UpSpec.
Open Scope list_scope.
Open Scope nat_scope.

Lemma put_all_keeps {A} ks : forall (l vs : list A) k, ~ In k ks -> nth_error (put_all l ks vs) k = nth_error l k.
Proof.
  induction ks as [|a ks IH]; intros l [|v vs] k H; cbn [put_all]; auto. rewrite IH by (intros X; apply H; right; exact X).
  apply nth_list_set_neq. intros ->. apply H. left. reflexivity.
Qed.
Section Level.
  Context {P : Type} (nd : nat) (val : list P -> list Z -> result (list cell)) (slices : list Z) (pts : list P) (idxs : list (option Z)) (alphas : list Q).
  Lemma level_loop_keeps k us : forall lay values vs, level_loop nd val slices pts idxs alphas us lay values = Ok vs ->
    (forall l, lay = Some l -> ~ In k l) -> (forall u, In u us -> u <> (Z.of_nat nd - 1)%Z -> ~ In k (where_eq 0 idxs u)) -> nth_error vs k = nth_error values k.
  Proof.
    induction us as [|u us IH]; intros lay values vs H L W; cbn [level_loop] in H. { now injection H as <-. }
    destruct (Z.eqb_spec u (Z.of_nat nd - 1)) as [_|Nu].
    - destruct lay as [l|]; [|discriminate H]. apply bind_ok in H. destruct H as (v & _ & H).
      rewrite (IH _ _ _ H L (fun u' X => W u' (or_intror X))). apply put_all_keeps. now apply L.
    - apply bind_ok in H. destruct H as (v1 & _ & H). apply bind_ok in H. destruct H as (v0 & _ & H).
      assert (K : ~ In k (where_eq 0 idxs u)) by (apply W; auto; left; reflexivity).
      rewrite (IH _ _ _ H); [now apply put_all_keeps|intros l X; now injection X as <-|intros u' X; apply W; right; exact X].
  Qed.
  Lemma depth_keeps k layers vs : nd <> layers -> nth_error idxs k = Some (Some (Z.of_nat nd - 1)%Z) ->
    depth_interp nd val slices pts idxs alphas layers = Ok vs -> nth_error vs k = Some CNaN.
  Proof.
    intros Nl Hk H. unfold depth_interp in H. destruct (forallb _ idxs) eqn:Em.
    { rewrite forallb_forall in Em. apply nth_error_In, Em in Hk. discriminate. }
    rewrite (proj2 (Nat.eqb_neq _ _) Nl) in H. rewrite (level_loop_keeps k _ _ _ _ H).
    - now rewrite (map_nth_error _ _ _ Hk).
    - discriminate.
    - intros u _ Nu X. apply where_eq_in in X. destruct X as (m & -> & Hm). cbn [Nat.add] in Hk. rewrite Hk in Hm. injection Hm as <-. contradiction.
  Qed.
End Level.
Lemma lerp_keeps a k : forall v0 v1, nth_error v0 k = Some CNaN -> nth_error v1 k = Some CNaN -> nth_error (cells_lerp v0 v1 a) k = Some CNaN.
Proof. induction k as [|k IH]; intros [|x v0] [|y v1]; cbn [nth_error cells_lerp]; try discriminate; [intros H H'; injection H as ->; injection H' as ->; reflexivity|auto]. Qed.
Lemma time_keeps t q ex (val : list Z -> result (list cell)) sl k vs : (forall s vs, val s = Ok vs -> nth_error vs k = Some CNaN) ->
  time_interp t q ex val sl = Ok vs -> nth_error vs k = Some CNaN.
Proof.
  intros V H. unfold time_interp in H. apply bind_ok in H. destruct H as (lo & _ & H). destruct (_ || _)%bool; [eapply V; eauto|].
  apply bind_ok in H. destruct H as (hi & _ & H). destruct (_ || _)%bool; [eapply V; eauto|].
  apply bind_ok in H. destruct H as (i & _ & H). apply bind_ok in H. destruct H as (v0 & H0 & H). apply bind_ok in H. destruct H as (v1 & H1 & H).
  apply bind_ok in H. destruct H as (a & _ & H). injection H as <-. apply lerp_keeps; eapply V; eauto.
Qed.

Section Top.
  Context {P : Type} (dep : P -> Q) (ls : list Q) (sbc bbc : bcond) (b : Q) (D : Descending ls) (N : 2 <= length ls) (B : Last ls b) (Ns : bmask sbc = false).
  Lemma top_rows pts : exists rows, l_alphas ls (Some (length ls)) sbc bbc (map dep pts) = Ok rows /\ length rows = length pts /\
    forall k p, nth_error pts k = Some p -> (dep p <= b)%Q -> nth_error rows k = Some (Some (Z.of_nat (length ls) - 1)%Z, Some 0%Q).
  Proof.
    destruct (ends_exist ls N) as (a & b' & Ha & _).
    destruct (l_alphas_desc ls (Some (length ls)) sbc bbc (map dep pts) D N) as (rows & Er & L & K). { intros X. injection X as X. lia. }
    rewrite map_length in L. exists rows. split; [exact Er|]. split; [exact L|]. intros k p Hp Lp. destruct (K k (dep p)) as (r & Hr & R). { now apply map_nth_error. }
    destruct (R a b Ha B) as (_ & R2 & _). rewrite Hr, (R2 Lp), Ns. reflexivity.
  Qed.
  Context (order : list dim) (shape : list nat) (val : list P -> list Z -> result (list cell)) (DL : dim_len order shape DDepth = Ok (length ls)).
  Lemma v_depth_top slices pts k p vs : nth_error pts k = Some p -> (dep p <= b)%Q ->
    v_depth order shape (Some (l_view dep ls (Some (length ls)) sbc bbc)) val pts slices = Ok vs -> nth_error vs k = Some CNaN.
  Proof.
    intros Hp Lp H. destruct (top_rows pts) as (rows & Er & _ & K). unfold v_depth in H. cbn [l_view dv_alphas dv_layers] in H. rewrite Er in H. unfold view_rows in H. cbn [bind] in H.
    rewrite DL in H. cbn [bind fst snd] in H. eapply depth_keeps; [|exact (map_nth_error fst _ _ (K k p Hp Lp))|exact H]. lia.
  Qed.
  Lemma v_depth_raises slices pts : pts <> [] -> (forall p, In p pts -> (dep p <= b)%Q) ->
    v_depth order shape (Some (l_view dep ls (Some (length ls)) sbc bbc)) val pts slices = Err UnboundLocalError.
  Proof.
    intros Np Lp. destruct (top_rows pts) as (rows & Er & L & K). unfold v_depth. cbn [l_view dv_alphas dv_layers]. rewrite Er. unfold view_rows. cbn [bind]. rewrite DL. cbn [bind fst snd].
    assert (A : forall k r, nth_error rows k = Some r -> r = (Some (Z.of_nat (length ls) - 1)%Z, Some 0%Q)).
    { intros k r Hr. destruct (nth_error_lt_Some pts k) as [p Hp]. { rewrite <- L. now apply nth_error_Some_lt in Hr. }
      rewrite (K k p Hp (Lp p (nth_error_In _ _ Hp))) in Hr. now injection Hr as <-. }
    apply depth_last_only; [lia| |].
    - destruct pts as [|p pts']; [congruence|]. exists (Z.of_nat (length ls) - 1)%Z. eapply nth_error_In. apply (map_nth_error fst 0 rows (K 0 p eq_refl (Lp p (or_introl eq_refl)))).
    - intros i Hi. apply in_map_iff in Hi. destruct Hi as (r & Ei & Hr). destruct (In_nth_error _ _ Hr) as (k & Hk). rewrite (A k r Hk) in Ei. now injection Ei as <-.
  Qed.
End Top.

Section Composed.
  Context (g : grid_kind) (interp : list nat -> list spot -> result (list cell)) (time : option time_obj) (levels : option (list Q)) (sbc bbc : bcond) (rest : list nat) (ex : bool).
  Context (LO : LevelsOk levels) (Up : Upwards levels) (Ns : bmask sbc = false).
  Let ask := at_grid interp (order_of (some time) (some levels) g) (shape_of time levels rest) time (option_map (fun ls => l_view deep ls (Some (length ls)) sbc bbc) levels).
  Lemma upwards_top q pts k s vs : nth_error pts k = Some s -> AtTop levels (deep s) -> ask q ex pts = Ok vs -> nth_error vs k = Some CNaN.
  Proof.
    intros Hk (ls & b & El & B & L) H. unfold ask in H. destruct Up as (ls' & El' & D). subst levels. injection El' as <-. destruct (LO ls eq_refl) as (N & _). destruct time as [t|].
    - assert (H' : time_interp t q ex (v_depth (order_of true true g) (shape_of (Some t) (Some ls) rest) (Some (l_view deep ls (Some (length ls)) sbc bbc)) (grid_xy interp [length (t_data t); length ls]) pts) [] = Ok vs)
        by (revert H; destruct g; exact (fun H => H)).
      revert H'. apply time_keeps. intros sl vs'. apply (v_depth_top deep ls sbc bbc b) with (p := s); auto; destruct g; reflexivity.
    - assert (H' : v_depth (order_of false true g) (shape_of None (Some ls) rest) (Some (l_view deep ls (Some (length ls)) sbc bbc)) (grid_xy interp [length ls]) pts [] = Ok vs) by (revert H; destruct g; exact (fun H => H)).
      revert H'. apply (v_depth_top deep ls sbc bbc b) with (p := s); auto; destruct g; reflexivity.
  Qed.
  Lemma upwards_raises q q' pts : TimeOk (option_map t_data time) ex q q' -> pts <> [] -> (forall s, In s pts -> AtTop levels (deep s)) -> ask q ex pts = Err UnboundLocalError.
  Proof.
    intros TO Np Tp. unfold ask. destruct Up as (ls & El & D). subst levels. destruct (LO ls eq_refl) as (N & _). destruct (ends_exist ls N) as (_ & b & _ & B).
    assert (Tp' : forall s, In s pts -> (deep s <= b)%Q). { intros s Hs. destruct (Tp s Hs) as (ls' & b' & E & B' & L). injection E as <-. unfold Last in *. rewrite B in B'. now injection B' as <-. }
    destruct time as [t|].
    - transitivity (time_interp t q ex (v_depth (order_of true true g) (shape_of (Some t) (Some ls) rest) (Some (l_view deep ls (Some (length ls)) sbc bbc)) (grid_xy interp [length (t_data t); length ls]) pts) []).
      { destruct g; reflexivity. }
      rewrite (time_interp_ext t q ex _ (fun _ => Err UnboundLocalError)).
      2:{ intros s. apply (v_depth_raises deep ls sbc bbc b); auto; destruct g; reflexivity. }
      destruct (TO _ eq_refl) as (SI & Ne & TA).
      destruct (time_sees t q q' ex (fun _ => Ok (A := list cell) []) (fun _ (_ : unit) => False) (fun _ _ => 0%Q) [] SI Ne TA) as (vs & Ev & _).
      { intros k tk _. exists []. split; [reflexivity|constructor]. } { reflexivity. } { intros p []. }
      revert Ev. unfold time_interp. destruct (min_time t); cbn [bind]; [|discriminate]. destruct (_ || _)%bool; [reflexivity|]. destruct (max_time t); cbn [bind]; [|discriminate].
      destruct (_ || _)%bool; [reflexivity|]. destruct (index_of t q false); cbn [bind]; [reflexivity|discriminate].
    - transitivity (v_depth (order_of false true g) (shape_of None (Some ls) rest) (Some (l_view deep ls (Some (length ls)) sbc bbc)) (grid_xy interp [length ls]) pts []).
      { destruct g; reflexivity. }
      apply (v_depth_raises deep ls sbc bbc b); auto; destruct g; reflexivity.
  Qed.
End Composed.
