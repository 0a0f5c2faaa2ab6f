(** Lemmas about levels listed upwards on staggered grids. *)
From Coq Require Import Reals String Lqa Qreals.
From Verif Require Import Common CommonProofs TimeModel TimeSpec TimeHeapProofs VariableModel VariableSpec VariableProofs VariableInterpProofs VariableAtProofs
  DepthModel DepthSpec DepthProofs DepthAtProofs WholeModel WholeSpec WholeProofs WMaskSpec WMaskProofs GridTypeModel MaskModel SGridModel SGridInterpModel SWholeModel SWholeSpec SWholeProofs UpSpec UpProofs.
Open Scope list_scope.
Open Scope nat_scope.

Section Level.
  Context {V P B : Type} (blend : V -> V -> B -> V) (masked nan : V).
  Context (nd : nat) (val : list P -> list Z -> result (answer V)) (slices : list Z) (pts : list P) (idxs : list (option Z)) (alphas : list B).
  Lemma a_levels_keeps k us : forall lay values vs, a_levels blend nd val slices pts idxs alphas us lay values = Ok vs ->
    (forall l, lay = Some l -> ~ In k l) -> (forall u, In u us -> u <> (Z.of_nat nd - 1)%Z -> ~ In k (where_eq 0 idxs u)) -> nth_error vs k = nth_error values k.
  Proof.
    induction us as [|u us IH]; intros lay values vs H L W; cbn [a_levels] in H. { now injection H as <-. }
    destruct (Z.eqb_spec u (Z.of_nat nd - 1)) as [_|Nu].
    - destruct lay as [l|]; [|discriminate H]. apply bind_ok in H. destruct H as (v & _ & H).
      rewrite (IH _ _ _ H L (fun u' X => W u' (or_intror X))). apply put_all_keeps. now apply L.
    - apply bind_ok in H. destruct H as (v1 & _ & H). apply bind_ok in H. destruct H as (v0 & _ & H). apply bind_ok in H. destruct H as (sub & _ & H).
      assert (K : ~ In k (where_eq 0 idxs u)) by (apply W; auto; left; reflexivity).
      rewrite (IH _ _ _ H); [now apply put_all_keeps|intros l X; now injection X as <-|intros u' X; apply W; right; exact X].
  Qed.
  Lemma a_depth_keeps k layers a : nd <> layers -> nth_error idxs k = Some (Some (Z.of_nat nd - 1)%Z) ->
    a_depth blend masked nan nd val slices pts idxs alphas layers = Ok a -> exists vs, a = Vec vs /\ nth_error vs k = Some nan.
  Proof.
    intros Nl Hk H. unfold a_depth in H. destruct (forallb _ idxs) eqn:Em.
    { rewrite forallb_forall in Em. apply nth_error_In, Em in Hk. discriminate. }
    rewrite (proj2 (Nat.eqb_neq _ _) Nl) in H. apply bind_ok in H. destruct H as (vs & H & E). injection E as <-. exists vs. split; [reflexivity|]. rewrite (a_levels_keeps k _ _ _ _ H).
    - now rewrite (map_nth_error _ _ _ Hk).
    - discriminate.
    - intros u _ Nu X. apply where_eq_in in X. destruct X as (m & -> & Hm). cbn [Nat.add] in Hk. rewrite Hk in Hm. injection Hm as <-. contradiction.
  Qed.
  Lemma a_depth_last_only layers : nd <> layers -> (exists i, In (Some i) idxs) -> (forall i, In (Some i) idxs -> i = (Z.of_nat nd - 1)%Z) ->
    a_depth blend masked nan nd val slices pts idxs alphas layers = Err UnboundLocalError.
  Proof.
    intros Hl [i0 H0] Hall. unfold a_depth. destruct (forallb _ idxs) eqn:Em.
    - rewrite forallb_forall in Em. apply Em in H0. discriminate.
    - rewrite (proj2 (Nat.eqb_neq _ _) Hl). destruct (unique_unmasked idxs) as [|u us] eqn:Eu.
      + apply unique_unmasked_in in H0. rewrite Eu in H0. destruct H0.
      + cbn [a_levels]. assert (Hu : u = (Z.of_nat nd - 1)%Z). { apply Hall. apply unique_unmasked_in. rewrite Eu. left; auto. }
        rewrite (proj2 (Z.eqb_eq _ _) Hu). reflexivity.
  Qed.
  Context (lerp : V -> V -> Q -> V) (NN : forall a, lerp nan nan a = nan).
  Lemma lerp_list_keeps a k : forall v0 v1, nth_error v0 k = Some nan -> nth_error v1 k = Some nan -> nth_error (lerp_list lerp v0 v1 a) k = Some nan.
  Proof. induction k as [|k IH]; intros [|x v0] [|y v1]; cbn [nth_error lerp_list]; try discriminate; [intros H H'; injection H as ->; injection H' as ->; now rewrite NN|auto]. Qed.
  Lemma a_time_keeps t q ex (val' : list Z -> result (answer V)) sl k r : (forall s a, val' s = Ok a -> exists vs, a = Vec vs /\ nth_error vs k = Some nan) ->
    a_time lerp t q ex val' sl = Ok r -> nth_error (flat r) k = Some nan.
  Proof.
    assert (K : forall a, (exists vs, a = Vec vs /\ nth_error vs k = Some nan) -> nth_error (flat a) k = Some nan) by (intros a (vs & -> & H); exact H).
    intros Hv H. unfold a_time in H. apply bind_ok in H. destruct H as (lo & _ & H). destruct (_ || _)%bool; [apply K; eauto|].
    apply bind_ok in H. destruct H as (hi & _ & H). destruct (_ || _)%bool; [apply K; eauto|].
    apply bind_ok in H. destruct H as (i & _ & H). apply bind_ok in H. destruct H as (v0 & H0 & H). apply bind_ok in H. destruct H as (v1 & H1 & H).
    apply bind_ok in H. destruct H as (a & _ & H). destruct (Hv _ _ H0) as (x & -> & Hx). destruct (Hv _ _ H1) as (y & -> & Hy). cbn [lerp_one_alpha] in H. injection H as <-. cbn [flat].
    now apply lerp_list_keeps.
  Qed.
End Level.

Section Top.
  Context (ls : list Q) (sbc bbc : bcond) (b : Q) (D : Descending ls) (N : 2 <= length ls) (B : Last ls b) (Ns : bmask sbc = false).
  Context (order : list dim) (shape : list nat) (val : list rspot -> list Z -> result (answer rcell)) (DL : dim_len order shape DDepth = Ok (length ls)).
  Let dv := from_view Q2R (l_view (@snd (R * R) Q) ls (Some (length ls)) sbc bbc).
  Lemma av_depth_top slices pts k p a : nth_error pts k = Some p -> (snd p <= b)%Q ->
    av_depth rmix RMask RNaN order shape (Some dv) val pts slices = Ok a -> exists vs, a = Vec vs /\ nth_error vs k = Some RNaN.
  Proof.
    intros Hp Lp H. destruct (top_rows (@snd (R * R) Q) ls sbc bbc b D N B Ns pts) as (rows & Er & _ & K). unfold av_depth, dv in H. cbn [from_view l_view av_alphas av_layers dv_alphas dv_layers] in H.
    rewrite Er in H. unfold view_rows in H. cbn [bind fst snd] in H. rewrite DL in H. cbn [bind] in H.
    eapply a_depth_keeps; [|exact (map_nth_error fst _ _ (K k p Hp Lp))|exact H]. lia.
  Qed.
  Lemma av_depth_raises slices pts : pts <> [] -> (forall p, In p pts -> (snd p <= b)%Q) -> av_depth rmix RMask RNaN order shape (Some dv) val pts slices = Err UnboundLocalError.
  Proof.
    intros Np Lp. destruct (top_rows (@snd (R * R) Q) ls sbc bbc b D N B Ns pts) as (rows & Er & L & K). unfold av_depth, dv. cbn [from_view l_view av_alphas av_layers dv_alphas dv_layers].
    rewrite Er. unfold view_rows. cbn [bind fst snd]. rewrite DL. cbn [bind].
    assert (A : forall k r, nth_error rows k = Some r -> r = (Some (Z.of_nat (length ls) - 1)%Z, Some 0%Q)).
    { intros k r Hr. destruct (nth_error_lt_Some pts k) as [p Hp]. { rewrite <- L. now apply nth_error_Some_lt in Hr. }
      rewrite (K k p Hp (Lp p (nth_error_In _ _ Hp))) in Hr. now injection Hr as <-. }
    apply a_depth_last_only; [lia| |].
    - destruct pts as [|p pts']; [congruence|]. exists (Z.of_nat (length ls) - 1)%Z. eapply nth_error_In. apply (map_nth_error fst 0 rows (K 0 p eq_refl (Lp p (or_introl eq_refl)))).
    - intros i Hi. apply in_map_iff in Hi. destruct Hi as (r & Ei & Hr). destruct (In_nth_error _ _ Hr) as (k & Hk). rewrite (A k r Hk) in Ei. now injection Ei as <-.
  Qed.
End Top.

Section Composed.
  Context (g : sg) (find : R * R -> option (Z * Z)) (loc : string) (v : nvar) (nr nc : nat) (time : option time_obj) (ls : list Q) (sbc bbc : bcond) (ex : bool).
  Context (N : 2 <= length ls) (D : Descending ls) (Ns : bmask sbc = false).
  Let ask := stag_at g find loc (order_of (some time) true GStructured) v (deep_shape nr nc time (length ls)) time (Some (from_view Q2R (l_view (@snd (R * R) Q) ls (Some (length ls)) sbc bbc))).
  Lemma s_upwards_top q pts k s vs : nth_error pts k = Some s -> AtTop (Some ls) (snd s) -> ask q ex pts = Ok vs -> nth_error vs k = Some RNaN.
  Proof.
    intros Hk (ls' & b & El & B & L) H. injection El as <-. unfold ask, stag_at, a_value in H. apply bind_ok in H. destruct H as (a & H & E). injection E as <-. destruct time as [t|].
    - assert (H' : a_time rlerp t q ex (av_depth rmix RMask RNaN (order_of true true GStructured) (deep_shape nr nc (Some t) (length ls))
        (Some (from_view Q2R (l_view (@snd (R * R) Q) ls (Some (length ls)) sbc bbc))) (stag_xy g find loc v) pts) [] = Ok a) by exact H.
      revert H'. apply a_time_keeps; [reflexivity|]. intros sl vs'. apply (av_depth_top ls sbc bbc b) with (p := s); auto; reflexivity.
    - assert (H' : av_depth rmix RMask RNaN (order_of false true GStructured) (deep_shape nr nc None (length ls))
        (Some (from_view Q2R (l_view (@snd (R * R) Q) ls (Some (length ls)) sbc bbc))) (stag_xy g find loc v) pts [] = Ok a) by exact H.
      destruct (av_depth_top ls sbc bbc b D N B Ns (order_of false true GStructured) (deep_shape nr nc None (length ls)) (stag_xy g find loc v) eq_refl [] pts k s a Hk L H') as (x & -> & Hx). exact Hx.
  Qed.
  Lemma s_upwards_raises q q' pts : TimeOk (option_map t_data time) ex q q' -> pts <> [] -> (forall s, In s pts -> AtTop (Some ls) (snd s)) -> ask q ex pts = Err UnboundLocalError.
  Proof.
    intros TO Np Tp. unfold ask, stag_at, a_value. destruct (ends_exist ls N) as (_ & b & _ & B).
    assert (Tp' : forall s, In s pts -> (snd s <= b)%Q). { intros s Hs. destruct (Tp s Hs) as (ls' & b' & E & B' & L). injection E as <-. unfold Last in *. rewrite B in B'. now injection B' as <-. }
    assert (X : forall r : result (answer rcell), r = Err UnboundLocalError -> (do a <- r; Ok (flat a)) = Err UnboundLocalError) by (intros r ->; reflexivity). apply X. clear X.
    destruct time as [t|].
    - transitivity (a_time rlerp t q ex (av_depth rmix RMask RNaN (order_of true true GStructured) (deep_shape nr nc (Some t) (length ls))
        (Some (from_view Q2R (l_view (@snd (R * R) Q) ls (Some (length ls)) sbc bbc))) (stag_xy g find loc v) pts) []). { reflexivity. }
      assert (R : forall s, av_depth rmix RMask RNaN (order_of true true GStructured) (deep_shape nr nc (Some t) (length ls))
        (Some (from_view Q2R (l_view (@snd (R * R) Q) ls (Some (length ls)) sbc bbc))) (stag_xy g find loc v) pts s = Err UnboundLocalError).
      { intros s. apply (av_depth_raises ls sbc bbc b); auto. }
      destruct (TO _ eq_refl) as (SI & Ne & TA).
      destruct (time_sees t q q' ex (fun _ => Ok (A := list cell) []) (fun _ (_ : unit) => False) (fun _ _ => 0%Q) [] SI Ne TA) as (vs & Ev & _).
      { intros k tk _. exists []. split; [reflexivity|constructor]. } { reflexivity. } { intros p []. }
      revert Ev. unfold time_interp, a_time. destruct (min_time t); cbn [bind]; [|discriminate]. destruct (_ || _)%bool; [intros _; apply R|]. destruct (max_time t); cbn [bind]; [|discriminate].
      destruct (_ || _)%bool; [intros _; apply R|]. destruct (index_of t q false); cbn [bind]; [|discriminate]. intros _. now rewrite R.
    - transitivity (av_depth rmix RMask RNaN (order_of false true GStructured) (deep_shape nr nc None (length ls))
        (Some (from_view Q2R (l_view (@snd (R * R) Q) ls (Some (length ls)) sbc bbc))) (stag_xy g find loc v) pts []). { reflexivity. }
      apply (av_depth_raises ls sbc bbc b); auto.
  Qed.
End Composed.
