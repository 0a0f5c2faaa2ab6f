(** C99: a variable on the terrain-following levels of ROMS over a staggered grid. *)
From Coq Require Import Reals String Lqa Lra Qreals.
From Verif Require Import Common CommonProofs TimeModel TimeSpec TimeProofs VariableModel VariableSpec VariableProofs VariableInterpProofs VariableAtProofs
  DepthModel DepthSpec DepthProofs WholeModel WholeSpec WholeProofs
  MaskModel GridTypeModel SGridModel SGridSpec SGridInterpModel SGridInterpSpec SGridInterpRun SGridInterpProps SWholeModel SWholeSpec SWholeProofs SWholeProps
  RTerrModel RTerrSpec RTerrProofs.
Open Scope list_scope.
Open Scope nat_scope.

Section Parts.
  Context (g : sg) (find : R * R -> option (Z * Z)) (place_of : R * R -> option (nat * nat * (R * R))) (te : rterr) (loc : string) (nr nc : nat)
          (col : bool) (expct : arr rd -> located -> rcell) (v : nvar) (time : option time_obj) (n : nat) (q q' : Z) (ex : bool) (sbc bbc : bcond)
          (pts : list rspot) (sit : rspot -> seat).
  Context (HS : SameShape g) (St : Sits g loc nr nc col expct) (HF : Finds g find place_of (map fst pts))
          (HT : TimeOk (option_map t_data time) ex q q') (HC : Columns g te place_of q ex n sbc bbc pts sit).
  Let idxs := map (fun s => fst (seat_row (sit s))) pts.
  Let alphas := map (fun s => match snd (seat_row (sit s)) with Some a => a | None => 0%R end) pts.
  Lemma view_ok : av_alphas (r_view g find te q ex sbc bbc) pts = Ok (idxs, alphas).
  Proof. unfold r_view. cbn [av_alphas]. rewrite (rows_ok g find place_of te q ex pts HS HF n sbc bbc sit HC). cbn [bind]. unfold idxs, alphas. now rewrite !map_map. Qed.
  Lemma seat_bound s j w : In s pts -> sit s = Between j w -> S j < n.
  Proof.
    clear HS St HF HT. intros Hs E. destruct HC as (L1 & L2 & _ & N & _ & _ & h & z & _ & _ & HP). destruct (HP s Hs) as (prof & W & _ & Se). rewrite E in Se.
    inversion Se as [|l j' x y w' Hx Hy|?|?|?]; subst. apply nth_error_Some_lt in Hy. inversion W as [| |a b _ _ _ Ew]; subst.
    unfold level_depths in Hy. rewrite map_length, combine_length, !map_length in Hy. lia.
  Qed.
  Lemma idx_range i : In (Some i) idxs -> (-1 <= i < Z.of_nat n - 1)%Z.
  Proof.
    intros Hi. unfold idxs in Hi. apply in_map_iff in Hi as (s & E & Hs). pose proof (seat_bound s) as B. destruct HC as (_ & _ & _ & N & _).
    destruct (sit s) as [| |j w]; cbn in E; try discriminate; injection E as <-; [lia|]. specialize (B j w Hs eq_refl). lia.
  Qed.
  Lemma shape_eq n' : roms_at g find te q ex loc v n' nr nc time sbc bbc pts =
    stag_at g find loc (order_of (some time) true GStructured) v (deep_shape nr nc time n') time (Some (r_view g find te q ex sbc bbc)) q ex pts.
  Proof. clear. destruct time; reflexivity. Qed.

  Section Levels.
    Context (f : Z -> nat -> nat -> nat -> R) (m : nat -> nat -> bool)
            (HV : Holds v (option_map t_data time) (Some n) nr nc f (fun _ => m)).
    Definition seat_value (s0 : rspot) (s : rspot) : rcell :=
      match sit s with
      | Out => RMask
      | Bed => expct (snap nr nc (f q' 0) m) (fst s0, place_of (fst s0))
      | Between j w => expct (snap nr nc (blended (f q') j w) m) (fst s0, place_of (fst s0))
      end.
    Lemma seat_level s0 s i w : In s pts -> seat_row (sit s) = (Some i, Some w) ->
      rmix (val_at place_of nr nc expct f (fun _ => m) q' (py_level n i) s0) (val_at place_of nr nc expct f (fun _ => m) q' (py_level n (i + 1)) s0) w = seat_value s0 s.
    Proof.
      clear HS HF HT HV. intros Hs E. pose proof (seat_bound s) as B. unfold val_at, spot_in, seat_value. symmetry. destruct (sit s) as [| |j w']; cbn [seat_row] in E; try discriminate; injection E as <- <-.
      - apply (sits_mix g loc nr nc col expct); [exact St|]. apply snap_mix. intros r c _. cbn [Z.add Z.pos_sub]. change (py_level n 0) with 0. ring.
      - apply (sits_mix g loc nr nc col expct); [exact St|]. apply snap_mix. intros r c _. unfold blended, py_level.
        destruct (Z.eqb_spec (Z.of_nat j) (-1)); [lia|]. destruct (Z.eqb_spec (Z.of_nat j + 1) (-1)); [lia|].
        replace (Z.of_nat j + 1)%Z with (Z.of_nat (S j)) by lia. rewrite !Nat2Z.id. ring.
    Qed.
    Lemma levels_rows : roms_at g find te q ex loc v n nr nc time sbc bbc pts =
      Ok (rows_at idxs (level_row place_of nr nc expct f (fun _ => m) pts n idxs alphas col q')).
    Proof.
      rewrite shape_eq. apply (levels_composed g find place_of loc nr nc col expct v time (Some n) f (fun _ => m) q q' ex pts HS St HF HV HT n eq_refl (r_view g find te q ex sbc bbc) idxs alphas).
      - apply view_ok.
      - unfold idxs. now rewrite map_length.
      - unfold alphas. now rewrite map_length.
      - cbn [r_view av_layers]. destruct HC as (_ & _ & L3 & N & _). lia.
      - apply idx_range.
    Qed.
    Lemma row_value k s s0 : nth_error pts k = Some s -> (forall i, source pts idxs col i k = Some s0 \/ fst (seat_row (sit s)) <> Some i) ->
      nth_error (rows_at idxs (level_row place_of nr nc expct f (fun _ => m) pts n idxs alphas col q')) k = Some (seat_value s0 s).
    Proof.
      intros Hk Hs. rewrite (rows_at_nth idxs _ k (fst (seat_row (sit s)))) by (unfold idxs; now rewrite nth_error_map, Hk). f_equal.
      destruct (fst (seat_row (sit s))) as [i|] eqn:Ei.
      - unfold level_row. destruct (Hs i) as [->|N]; [|congruence]. unfold alphas. rewrite nth_error_map, Hk. cbn [option_map].
        destruct (snd (seat_row (sit s))) as [w|] eqn:Ew; [|destruct (sit s); discriminate].
        apply seat_level; [eapply nth_error_In; eauto|]. rewrite <- Ei, <- Ew. apply surjective_pairing.
      - unfold seat_value. destruct (sit s); try discriminate. reflexivity.
    Qed.
  End Levels.
End Parts.

(** Data on the levels, at nodes and edges: the grid's answer for the data of the
    time asked, blended between the two levels around the point in the water column
    over the point. *)
Theorem c99_levels_partial :
  forall g find place_of te loc nr nc expct v time n f m q q' ex sbc bbc (pts : list rspot) sit,
  SameShape g -> Sits g loc nr nc false expct -> Finds g find place_of (map fst pts) ->
  Holds v (option_map t_data time) (Some n) nr nc f (fun _ => m) -> TimeOk (option_map t_data time) ex q q' ->
  Columns g te place_of q ex n sbc bbc pts sit ->
  roms_at g find te q ex loc v n nr nc time sbc bbc pts =
  Ok (map (fun s => match sit s with
                    | Out => RMask
                    | Bed => expct (snap nr nc (f q' 0) m) (fst s, place_of (fst s))
                    | Between j w => expct (snap nr nc (blended (f q') j w) m) (fst s, place_of (fst s))
                    end) pts).
Proof.
  intros g find place_of te loc nr nc expct v time n f m q q' ex sbc bbc pts sit HS St HF HV HT HC.
  rewrite (levels_rows g find place_of te loc nr nc false expct v time n q q' ex sbc bbc pts sit HS St HF HT HC f m HV). f_equal. apply nth_ext'. intros k.
  rewrite nth_error_map. destruct (nth_error pts k) as [s|] eqn:Ek.
  - erewrite (row_value g place_of te loc nr nc false expct n q q' ex sbc bbc pts sit St HC f m k s s); [reflexivity|exact Ek|]. intros i. left. exact Ek.
  - cbn [option_map]. apply nth_error_None. rewrite (rows_at_len pts) by (now rewrite map_length). now apply nth_error_None.
Qed.
Print Assumptions c99_levels_partial.

(** Centers too when one point is asked at a time. *)
Theorem c99_one_point_partial :
  forall g find place_of te loc nr nc col expct v time n f m q q' ex sbc bbc (s : rspot) sit,
  SameShape g -> Sits g loc nr nc col expct -> Finds g find place_of [fst s] ->
  Holds v (option_map t_data time) (Some n) nr nc f (fun _ => m) -> TimeOk (option_map t_data time) ex q q' ->
  Columns g te place_of q ex n sbc bbc [s] sit ->
  roms_at g find te q ex loc v n nr nc time sbc bbc [s] =
  Ok [match sit s with
      | Out => RMask
      | Bed => expct (snap nr nc (f q' 0) m) (fst s, place_of (fst s))
      | Between j w => expct (snap nr nc (blended (f q') j w) m) (fst s, place_of (fst s))
      end].
Proof.
  intros g find place_of te loc nr nc col expct v time n f m q q' ex sbc bbc s sit HS St HF HV HT HC.
  rewrite (levels_rows g find place_of te loc nr nc col expct v time n q q' ex sbc bbc [s] sit HS St HF HT HC f m HV). f_equal. apply nth_ext'. intros [|k].
  - erewrite (row_value g place_of te loc nr nc col expct n q q' ex sbc bbc [s] sit St HC f m 0 s s); [reflexivity|reflexivity|].
    intros i. destruct (fst (seat_row (sit s))) as [i'|] eqn:Ei; [|right; congruence]. destruct (Z.eq_dec i' i) as [->|]; [left|right; congruence].
    unfold source. destruct col; [|reflexivity]. unfold first. cbn [map where_eq]. rewrite Ei, Z.eqb_refl. reflexivity.
  - transitivity (@None rcell); [|symmetry; apply nth_error_None; cbn; lia]. apply nth_error_None. rewrite (rows_at_len [s]) by reflexivity. cbn. lia.
Qed.
Print Assumptions c99_one_point_partial.

(** Data on the layers between the levels, for every location: the grid's answer
    for the layer that holds the point. *)
Theorem c99_layers_partial :
  forall g find place_of te loc nr nc col expct v time n f m q q' ex sbc bbc (pts : list rspot) sit,
  SameShape g -> Sits g loc nr nc col expct -> Finds g find place_of (map fst pts) ->
  Holds v (option_map t_data time) (Some (n - 1)) nr nc f m -> TimeOk (option_map t_data time) ex q q' ->
  Columns g te place_of q ex n sbc bbc pts sit -> (forall s, In s pts -> sit s <> Bed) ->
  roms_at g find te q ex loc v (n - 1) nr nc time sbc bbc pts =
  Ok (map (fun s => match sit s with
                    | Between j _ => expct (snap nr nc (f q' j) (m j)) (fst s, place_of (fst s))
                    | _ => RMask
                    end) pts).
Proof.
  intros g find place_of te loc nr nc col expct v time n f m q q' ex sbc bbc pts sit HS St HF HV HT HC HB.
  rewrite (shape_eq g find te loc nr nc v time q ex sbc bbc pts (n - 1)).
  set (idxs := map (fun s => fst (seat_row (sit s))) pts).
  etransitivity; [apply (layers_composed g find place_of loc nr nc col expct v time (Some (n - 1)) f m q q' ex pts HS St HF HV HT (n - 1) eq_refl (r_view g find te q ex sbc bbc) idxs
    (map (fun s => match snd (seat_row (sit s)) with Some a => a | None => 0%R end) pts))|].
  - apply (view_ok g find place_of te n q ex sbc bbc pts sit HS HF HC).
  - unfold idxs. now rewrite map_length.
  - now rewrite map_length.
  - cbn [r_view av_layers]. apply HC.
  - intros i Hi. unfold idxs in Hi. apply in_map_iff in Hi as (s & E & Hs). pose proof (seat_bound g place_of te n q ex sbc bbc pts sit HC s) as B. specialize (HB s Hs).
    destruct (sit s) as [| |j w]; cbn in E; try discriminate; [congruence|]. injection E as <-. specialize (B j w Hs eq_refl). lia.
  - f_equal. apply nth_ext'. intros k. rewrite nth_error_map. destruct (nth_error pts k) as [s|] eqn:Ek.
    + rewrite (rows_at_nth idxs _ k (fst (seat_row (sit s)))) by (unfold idxs; now rewrite nth_error_map, Ek). cbn [option_map]. f_equal.
      pose proof (HB s (nth_error_In _ _ Ek)) as NB. destruct (sit s) as [| |j w]; cbn [seat_row fst]; [reflexivity|congruence|].
      unfold layer_row. rewrite Ek. unfold val_at, py_level, spot_in. destruct (Z.eqb_spec (Z.of_nat j) (-1)); [lia|]. now rewrite Nat2Z.id.
    + cbn [option_map]. apply nth_error_None. rewrite (rows_at_len pts) by (unfold idxs; now rewrite map_length). now apply nth_error_None.
Qed.
Print Assumptions c99_layers_partial.

(** The water column of a stretching curve: from the depth of the water at the
    bottom to 0 at the free surface. *)
Theorem c99_columns :
  forall vt (hc : Q) s C h z,
  length s = length C -> 2 <= length s -> Stretches s -> Stretches C -> (0 <= hc)%Q -> (0 < h)%R -> (0 < z + h)%R ->
  (vt = 2%Z \/ vt = 1%Z /\ (Q2R hc <= h)%R) ->
  let l := level_depths vt (Q2R hc) (combine (map Q2R s) (map Q2R C)) h z in
  length l = length s /\ RDesc l /\ nth_error l 0 = Some (z + h)%R /\ nth_error l (length l - 1) = Some 0%R.
Proof.
  intros vt hc s C h z L N (As & (s0 & Hs0 & Es0) & (s1 & Hs1 & Es1)) (AC & (C0 & HC0 & EC0) & (C1 & HC1 & EC1)) Hh Ph Pz V l.
  assert (Ll : length l = length s) by (unfold l, level_depths; rewrite map_length, combine_length, !map_length; lia).
  assert (Hn : forall i a, nth_error l i = Some a -> exists x y, nth_error s i = Some x /\ nth_error C i = Some y /\ a = (z - level_height vt (Q2R hc) h z (Q2R x) (Q2R y))%R).
  { intros i a Ha. pose proof (nth_error_Some_lt _ _ _ Ha) as Li. rewrite Ll in Li.
    destruct (nth_error s i) as [x|] eqn:Ex; [|apply nth_error_None in Ex; lia]. destruct (nth_error C i) as [y|] eqn:Ey; [|apply nth_error_None in Ey; lia].
    exists x, y. split; auto. split; auto. unfold l, level_depths in Ha. rewrite nth_error_map, (nth_combine _ _ i (Q2R x) (Q2R y)) in Ha by (now rewrite nth_error_map, ?Ex, ?Ey). cbn in Ha. congruence. }
  assert (Hn' : forall i x y, nth_error s i = Some x -> nth_error C i = Some y -> nth_error l i = Some (z - level_height vt (Q2R hc) h z (Q2R x) (Q2R y))%R).
  { intros i x y Ex Ey. unfold l, level_depths. rewrite nth_error_map, (nth_combine _ _ i (Q2R x) (Q2R y)) by (now rewrite nth_error_map, ?Ex, ?Ey). reflexivity. }
  apply Qle_Rle in Hh. rewrite RMicromega.Q2R_0 in Hh. set (c := Q2R hc) in *.
  assert (Mono : forall x y x' y', (x < x')%Q -> (y < y')%Q -> (z - level_height vt c h z (Q2R x') (Q2R y') < z - level_height vt c h z (Q2R x) (Q2R y))%R).
  { intros x y x' y' Lx Ly. apply Qlt_Rlt in Lx, Ly. unfold level_height. destruct V as [-> |(-> & Lc)]; cbn [Z.eqb Pos.eqb].
    - assert (c + h > 0)%R by Lra.lra.
      assert ((c * Q2R x + h * Q2R y) / (c + h) < (c * Q2R x' + h * Q2R y') / (c + h))%R.
      { apply Rmult_lt_compat_r; [now apply Rinv_0_lt_compat|]. nra. }
      nra.
    - assert (c * (Q2R x - Q2R y) + h * Q2R y < c * (Q2R x' - Q2R y') + h * Q2R y')%R as LS.
      { destruct (Rle_lt_or_eq_dec _ _ Hh); nra. }
      set (S1 := (c * (Q2R x - Q2R y) + h * Q2R y)%R) in *. set (S2 := (c * (Q2R x' - Q2R y') + h * Q2R y')%R) in *.
      assert (E : forall w, (w + z * (1 + w / h) = z + w * ((z + h) / h))%R) by (intros; field; Lra.lra). rewrite !E.
      assert (0 < (z + h) / h)%R by (apply Rdiv_lt_0_compat; Lra.lra). nra. }
  split; [exact Ll|]. split; [|split].
  - intros i j a b Lij Ha Hb. apply Hn in Ha as (x & y & Ex & Ey & ->). apply Hn in Hb as (x' & y' & Ex' & Ey' & ->). apply Mono; [eapply As|eapply AC]; eauto.
  - rewrite (Hn' 0 s0 C0 Hs0 HC0). f_equal. apply Qeq_eqR in Es0, EC0. rewrite Es0, EC0. assert (E1 : Q2R (-1) = (-1)%R) by (unfold Q2R; cbn; field). rewrite E1.
    unfold level_height. destruct V as [-> |(-> & Lc)]; cbn [Z.eqb Pos.eqb]; field; Lra.lra.
  - rewrite Ll. rewrite L in HC1 at 1 || idtac. rewrite <- L in HC1. rewrite (Hn' _ s1 C1 Hs1 HC1). f_equal. apply Qeq_eqR in Es1, EC1. rewrite Es1, EC1, RMicromega.Q2R_0.
    unfold level_height. destruct V as [-> |(-> & Lc)]; cbn [Z.eqb Pos.eqb]; field; Lra.lra.
Qed.
Print Assumptions c99_columns.

(** Where a depth is among the levels of any profile: between those before and
    those behind it, a level itself belonging to the deeper side of a falling
    profile and to the shallower side of a rising one; a profile that both rises
    and falls is refused. *)
Lemma r_up_all l : r_up l = true <-> forall i j a b, i <= j -> nth_error l i = Some a -> nth_error l j = Some b -> (a <= b)%R.
Proof.
  induction l as [|x l IH]; [split; [intros _ [|i] j a b _ H; discriminate H|reflexivity]|]. destruct l as [|y l].
  - split; [|reflexivity]. intros _ [|[|i]] [|[|j]] a b L Ha Hb; try discriminate. injection Ha as <-. injection Hb as <-. Lra.lra.
  - change (r_up (x :: y :: l)) with (Rleb x y && r_up (y :: l)). rewrite andb_true_iff, IH, Rleb_true. split.
    + intros [A B] [|i] [|j] a b L Ha Hb; try lia.
      * injection Ha as <-. injection Hb as <-. Lra.lra.
      * injection Ha as <-. specialize (B 0 j y b ltac:(lia) eq_refl Hb). Lra.lra.
      * exact (B i j a b ltac:(lia) Ha Hb).
    + intros H. split; [exact (H 0 1 x y ltac:(lia) eq_refl eq_refl)|]. intros i j a b L Ha Hb. exact (H (S i) (S j) a b ltac:(lia) Ha Hb).
Qed.
Lemma r_down_all l : r_down l = true <-> forall i j a b, i <= j -> nth_error l i = Some a -> nth_error l j = Some b -> (b <= a)%R.
Proof.
  induction l as [|x l IH]; [split; [intros _ [|i] j a b _ H; discriminate H|reflexivity]|]. destruct l as [|y l].
  - split; [|reflexivity]. intros _ [|[|i]] [|[|j]] a b L Ha Hb; try discriminate. injection Ha as <-. injection Hb as <-. Lra.lra.
  - change (r_down (x :: y :: l)) with (Rleb y x && r_down (y :: l)). rewrite andb_true_iff, IH, Rleb_true. split.
    + intros [A B] [|i] [|j] a b L Ha Hb; try lia.
      * injection Ha as <-. injection Hb as <-. Lra.lra.
      * injection Ha as <-. specialize (B 0 j y b ltac:(lia) eq_refl Hb). Lra.lra.
      * exact (B i j a b ltac:(lia) Ha Hb).
    + intros H. split; [exact (H 0 1 x y ltac:(lia) eq_refl eq_refl)|]. intros i j a b L Ha Hb. exact (H (S i) (S j) a b ltac:(lia) Ha Hb).
Qed.
Theorem c99_digitize :
  forall d l, let rising := forall i j a b, i <= j -> nth_error l i = Some a -> nth_error l j = Some b -> (a <= b)%R in
  let falling := forall i j a b, i <= j -> nth_error l i = Some a -> nth_error l j = Some b -> (b <= a)%R in
  (rising -> exists k, r_digitize d l = Ok k /\ k <= length l /\ forall i a, nth_error l i = Some a -> (i < k <-> (a <= d)%R)) /\
  (falling -> ~ rising -> exists k, r_digitize d l = Ok k /\ k <= length l /\ forall i a, nth_error l i = Some a -> (i < k <-> (d < a)%R)) /\
  (~ rising -> ~ falling -> r_digitize d l = Err ValueError).
Proof.
  intros d l rising falling. unfold r_digitize. assert (U : r_up l = true <-> rising) by apply r_up_all. assert (D : r_down l = true <-> falling) by apply r_down_all.
  split; [|split].
  - intros H. rewrite (proj2 U H). eexists. split; [reflexivity|].
    assert (Sp : splits (fun b => Rleb b d) l) by (intros i j x y Lij Hx Hy Py; apply Rleb_true in Py; apply Rleb_true; specialize (H i j x y ltac:(lia) Hx Hy); Lra.lra).
    destruct (searchsorted_spec _ _ Sp) as (Hn & H1 & H2). split; [exact Hn|]. intros i a Ha. split.
    + intros L. apply Rleb_true. exact (H1 i a L Ha).
    + intros L. destruct (Nat.lt_ge_cases i (searchsorted (fun b => Rleb b d) l)) as [X|X]; [exact X|]. specialize (H2 i a X Ha). apply Rleb_false in H2. Lra.lra.
  - intros H N. destruct (r_up l) eqn:E; [exfalso; apply N, U; reflexivity|]. rewrite (proj2 D H). eexists. split; [reflexivity|].
    assert (Sp : splits (fun b => Rleb b d) (rev l)).
    { intros i j x y Lij Hx Hy Py. pose proof (nth_error_Some_lt _ _ _ Hy) as Lj. rewrite rev_length in Lj. rewrite nth_error_rev in Hx, Hy by lia.
      apply Rleb_true in Py. apply Rleb_true. specialize (H (length l - 1 - j) (length l - 1 - i) y x ltac:(lia)).
      replace (length l - S j) with (length l - 1 - j) in Hy by lia. replace (length l - S i) with (length l - 1 - i) in Hx by lia. specialize (H Hy Hx). Lra.lra. }
    destruct (searchsorted_spec _ _ Sp) as (Hn & H1 & H2). rewrite rev_length in Hn. set (k := searchsorted _ _) in *. split; [lia|].
    intros i a Ha. pose proof (nth_error_Some_lt _ _ _ Ha) as Li. assert (Hr : nth_error (rev l) (length l - 1 - i) = Some a) by (rewrite nth_error_rev by lia; rewrite <- Ha; f_equal; lia). split.
    + intros L. apply Rleb_false. apply (H2 (length l - 1 - i)); [lia|exact Hr].
    + intros L. destruct (Nat.lt_ge_cases i (length l - k)) as [X|X]; [exact X|]. specialize (H1 (length l - 1 - i) a ltac:(lia) Hr). apply Rleb_true in H1. Lra.lra.
  - intros N1 N2. destruct (r_up l); [exfalso; apply N1, U; reflexivity|]. destruct (r_down l); [exfalso; apply N2, D; reflexivity|]. reflexivity.
Qed.
Print Assumptions c99_digitize.
(** Rising levels 0, 4, 10, the depth of the second. *)
Example c99_digitize_example : r_digitize 4%R [0; 4; 10]%R = Ok 2.
Proof.
  destruct (c99_digitize 4%R [0; 4; 10]%R) as (H & _). destruct H as (k & E & L & K).
  - intros i j a b Lij Ha Hb. destruct i as [|[|[|i]]], j as [|[|[|j]]]; cbn in Ha, Hb; try lia; try (destruct i; discriminate); try (destruct j; discriminate);
      injection Ha as <-; injection Hb as <-; Lra.lra.
  - rewrite E. f_equal. assert (1 < k) by (apply (K 1 4%R eq_refl); Lra.lra). assert (~ 2 < k) by (intros X; apply (K 2 10%R eq_refl) in X; Lra.lra). lia.
Qed.

Fixpoint seat_of (d : R) (j : nat) (l : list R) : seat :=
  match l with
  | x :: ((y :: _) as r) => if Rle_dec y d then Between j ((d - x) / (y - x))%R else seat_of d (S j) r
  | _ => Out
  end.
Definition seated (bbc : bcond) (d : R) (l : list R) : seat :=
  match l with
  | [] => Out
  | x :: _ => if Rle_dec x d then match bbc with BExtrapolate => Bed | _ => Out end else seat_of d 0 l
  end.
Lemma seat_of_in d l : forall j x y, nth_error l 0 = Some x -> (d < x)%R -> nth_error l (length l - 1) = Some y -> (y <= d)%R -> RDesc l ->
  exists k w a b, seat_of d j l = Between (j + k) w /\ nth_error l k = Some a /\ nth_error l (S k) = Some b /\ (b <= d < a)%R /\ d = (a + w * (b - a))%R.
Proof.
  induction l as [|a [|b r] IH]; intros j x y Hx Lx Hy Ly HD; [discriminate| |].
  - cbn in Hx, Hy. injection Hx as ->. injection Hy as ->. Lra.lra.
  - cbn in Hx. injection Hx as ->. assert (b < x)%R by (apply (HD 0 1 x b); auto). change (seat_of d j (x :: b :: r)) with (if Rle_dec b d then Between j ((d - x) / (b - x))%R else seat_of d (S j) (b :: r)). destruct (Rle_dec b d) as [L|NL].
    + exists 0, ((d - x) / (b - x))%R, x, b. rewrite Nat.add_0_r. repeat split; auto. field. Lra.lra.
    + destruct (IH (S j) b y) as (k & w & p & q & E & Hp & Hq & B & Ew); [reflexivity|Lra.lra| |exact Ly| |].
      * rewrite <- Hy. cbn [length]. replace (S (S (length r)) - 1) with (S (length r)) by lia. replace (S (length r) - 1) with (length r) by lia. reflexivity.
      * intros i i' u v Li. apply (HD (S i) (S i') u v). lia.
      * exists (S k), w, p, q. rewrite E. repeat split; auto; try Lra.lra. f_equal. lia.
Qed.
Lemma seat_of_above d l : forall j y, nth_error l (length l - 1) = Some y -> (d < y)%R -> RDesc l -> seat_of d j l = Out.
Proof.
  induction l as [|a [|b r] IH]; intros j y Hy Ly HD; [reflexivity|reflexivity|]. change (seat_of d j (a :: b :: r)) with (if Rle_dec b d then Between j ((d - a) / (b - a))%R else seat_of d (S j) (b :: r)).
  assert (Hy' : nth_error (b :: r) (length (b :: r) - 1) = Some y).
  { rewrite <- Hy. cbn [length]. replace (S (S (length r)) - 1) with (S (length r)) by lia. replace (S (length r) - 1) with (length r) by lia. reflexivity. }
  assert (HD' : RDesc (b :: r)) by (intros i i' u v Li; apply (HD (S i) (S i') u v); lia).
  destruct (Rle_dec b d) as [L|NL]; [exfalso|eapply IH; eauto].
  destruct (length r) as [|m] eqn:Em; [destruct r; [|discriminate]; cbn in Hy'; injection Hy' as ->; Lra.lra|].
  assert (y < b)%R. { apply (HD' 0 (length (b :: r) - 1) b y); [cbn; lia|reflexivity|exact Hy']. } Lra.lra.
Qed.
Lemma seated_ok :
  forall sbc bbc d l y, RDesc l -> nth_error l (length l - 1) = Some y -> ((y <= d)%R \/ sbc <> BExtrapolate) ->
  Seats sbc bbc d (Some l) (seated bbc d l).
Proof.
  intros sbc bbc d l y HD Hy C. destruct l as [|x r]; [discriminate|]. unfold seated. destruct (Rle_dec x d) as [L|NL].
  - destruct bbc; try (apply (BelowBottom _ _ _ _ x); auto; discriminate). apply (AtBottom _ _ _ _ x); auto.
  - destruct (Rlt_dec d y) as [Ly|NLy].
    + rewrite (seat_of_above d (x :: r) 0 y); auto. destruct C as [C|C]; [Lra.lra|]. apply (AboveSurface _ _ _ _ y); auto.
    + destruct (seat_of_in d (x :: r) 0 x y) as (k & w & a & b & E & Ha & Hb & B & Ew); auto; try reflexivity; [Lra.lra|Lra.lra|].
      rewrite E. cbn [Nat.add]. now apply (InWater _ _ _ _ k a b w).
Qed.
(** Every depth has a seat in a column, except above the surface under "extrapolate". *)
Theorem c99_seats_exist :
  forall sbc bbc d l y, RDesc l -> nth_error l (length l - 1) = Some y -> ((y <= d)%R \/ sbc <> BExtrapolate) ->
  exists st, Seats sbc bbc d (Some l) st.
Proof. intros sbc bbc d l y HD Hy C. exists (seated bbc d l). now apply (seated_ok sbc bbc d l y). Qed.
Print Assumptions c99_seats_exist.

(** Fields over the water, linear in depth and bilinear in the cells, sampled at
    the nodes on their own levels: answered without distortion wherever the levels
    follow bathymetry and free surface proportionally. *)
Lemma bilin_add a b c d a' b' c' d' l m : bilin (a + a') (b + b') (c + c') (d + d') l m = (bilin a b c d l m + bilin a' b' c' d' l m)%R.
Proof. unfold bilin. ring. Qed.
Lemma bilin_pos a b c d l m : Unit l m -> (0 < a)%R -> (0 < b)%R -> (0 < c)%R -> (0 < d)%R -> (0 < bilin a b c d l m)%R.
Proof.
  intros ((A1 & A2) & (B1 & B2)) Ha Hb Hc Hd. unfold bilin.
  assert (X : (0 < (1 - l) * a + l * b)%R) by (destruct (Rle_lt_or_eq_dec _ _ A1); nra).
  assert (Y : (0 < (1 - l) * c + l * d)%R) by (destruct (Rle_lt_or_eq_dec _ _ A1); nra).
  destruct (Rle_lt_or_eq_dec _ _ B1); nra.
Qed.
Lemma bilin_ge k a b c d l m : Unit l m -> (k <= a)%R -> (k <= b)%R -> (k <= c)%R -> (k <= d)%R -> (k <= bilin a b c d l m)%R.
Proof.
  intros ((A1 & A2) & (B1 & B2)) Ha Hb Hc Hd. unfold bilin.
  assert (X : (k <= (1 - l) * a + l * b)%R) by nra. assert (Y : (k <= (1 - l) * c + l * d)%R) by nra. nra.
Qed.
Definition ZetaOf (g : sg) (te : rterr) (place_of : R * R -> option (nat * nat * (R * R))) (q q' : Z) (ex : bool) (pts : list rspot) (Z_ : Z -> R * R -> R) : Prop :=
  let nr := a_r (g_lon g) in let nc := a_c (g_lon g) in let at_node i j := (a_at (g_lon g) i j, a_at (g_lat g) i j) in
  (rt_zeta te = None /\ (forall t p, Z_ t p = 0%R) /\ forall s, In s pts -> place_of (fst s) <> None -> OnEarthR (fst s)) \/
  (exists t v loc, rt_zeta te = Some (t, v, (nr, nc), loc) /\ isin loc node_names = true /\
     Holds v (Some (t_data t)) None nr nc (fun u _ i j => Z_ u (at_node i j)) (fun _ _ _ => false) /\ TimeOk (Some (t_data t)) ex q q').
Theorem c99_fields_partial :
  forall g find place_of te loc v time n (A : Z -> R * R -> R) (B : Z -> R) (H : R * R -> R) (Z_ : Z -> R * R -> R) q q' ex sbc bbc (pts : list rspot),
  let nr := a_r (g_lon g) in let nc := a_c (g_lon g) in let at_node i j := (a_at (g_lon g) i j, a_at (g_lat g) i j) in
  let r := rt_roms te in
  let field t d p := (A t p + B t * d)%R in
  let depth_of t k p := (Z_ t p - level_height (r_vt r) (Q2R (r_hc r)) (H p) (Z_ t p) (Q2R (nth k (r_sw r) 0%Q)) (Q2R (nth k (r_Cw r) 0%Q)))%R in
  SameShape g -> isin loc node_names = true -> isin (rt_hloc te) node_names = true -> node_padding (g_pads g) = (PadNone, PadNone) ->
  Finds g find place_of (map fst pts) -> TimeOk (option_map t_data time) ex q q' ->
  Reads (rt_h te) nr nc (fun i j => H (at_node i j)) (fun _ _ => false) -> ZetaOf g te place_of q q' ex pts Z_ ->
  Holds v (option_map t_data time) (Some n) nr nc (fun t k i j => field t (depth_of t k (at_node i j)) (at_node i j)) (fun _ _ _ => false) ->
  BilinearInCells g H -> (forall t, BilinearInCells g (Z_ t)) -> (forall t, BilinearInCells g (A t)) ->
  length (r_sw r) = n -> length (r_Cw r) = n -> length (r_srho r) = n - 1 -> 2 <= n -> Stretches (r_sw r) -> Stretches (r_Cw r) -> (0 <= r_hc r)%Q ->
  (forall i j, i < nr -> j < nc -> (0 < H (at_node i j) /\ 0 < Z_ q' (at_node i j) + H (at_node i j))%R) ->
  ((r_vt r = 2%Z /\ (r_hc r == 0)%Q) \/
   (r_vt r = 1%Z /\ rt_zeta te = None /\ forall i j, i < nr -> j < nc -> (Q2R (r_hc r) <= H (at_node i j))%R)) ->
  (forall s, In s pts -> (0 <= snd s)%Q \/ sbc <> BExtrapolate) -> bbc <> BExtrapolate ->
  roms_at g find te q ex loc v n nr nc time sbc bbc pts =
  Ok (map (fun s => match place_of (fst s) with
                    | Some _ => if Rle_dec 0 (Q2R (snd s)) then if Rlt_dec (Q2R (snd s)) (H (fst s) + Z_ q' (fst s)) then RVal (field q' (Q2R (snd s)) (fst s)) else RMask else RMask
                    | None => RMask
                    end) pts).
Proof.
  intros g find place_of te loc v time n A B H Z_ q q' ex sbc bbc pts nr nc at_node r field depth_of HS Hl Hhl Hn HF HT HR HZ HV BH BZ BA L1 L2 L3 N Ss SC Hhc Pos Case Top Bot.
  set (cols := fun p => level_depths (r_vt r) (Q2R (r_hc r)) (combine (map Q2R (r_sw r)) (map Q2R (r_Cw r))) (H p) (Z_ q' p)).
  set (sit := fun s : rspot => match place_of (fst s) with None => Out | Some _ => seated bbc (Q2R (snd s)) (cols (fst s)) end).
  assert (Cell4 : forall s, In s pts -> match place_of (fst s) with None => True | Some (i, j, (l, m)) => S i < nr /\ S j < nc /\ Unit l m /\
     forall f, BilinearInCells g f -> f (fst s) = bilin (f (at_node i j)) (f (at_node i (S j))) (f (at_node (S i) j)) (f (at_node (S i) (S j))) l m end).
  { intros s Hs. destruct (HF (fst s)) as (_ & W); [now apply in_map|]. unfold WellPlaced in W. cbn [snd fst] in W.
    destruct (place_of (fst s)) as [[[i j] [l m]]|]; [|exact I]. destruct W as (Cell & U & Pl & _).
    split; [apply Cell|]. split; [apply Cell|]. split; [exact U|]. intros f Bf. rewrite <- Pl. apply (Bf i j l m Cell U). }
  assert (Pt : forall s, In s pts -> place_of (fst s) <> None -> (0 < H (fst s) /\ 0 < Z_ q' (fst s) + H (fst s) /\ (r_vt r = 2%Z \/ r_vt r = 1%Z /\ Q2R (r_hc r) <= H (fst s)))%R).
  { intros s Hs NN. specialize (Cell4 s Hs). destruct (place_of (fst s)) as [[[i j] [l m]]|]; [|congruence]. destruct Cell4 as (Li & Lj & U & Bi).
    split; [rewrite (Bi H BH); apply bilin_pos; auto; apply Pos; lia|]. split.
    - rewrite (Bi H BH), (Bi (Z_ q') (BZ q')), <- bilin_add. apply bilin_pos; auto; apply Pos; lia.
    - destruct Case as [(V & _)|(V & _ & G)]; [auto|right]. split; [exact V|]. rewrite (Bi H BH). apply bilin_ge; auto; apply G; lia. }
  assert (Col : forall s, In s pts -> place_of (fst s) <> None -> length (cols (fst s)) = n /\ RDesc (cols (fst s)) /\ nth_error (cols (fst s)) 0 = Some (Z_ q' (fst s) + H (fst s))%R /\ nth_error (cols (fst s)) (length (cols (fst s)) - 1) = Some 0%R).
  { intros s Hs NN. destruct (Pt s Hs NN) as (P1 & P2 & P3). pose proof (c99_columns (r_vt r) (r_hc r) (r_sw r) (r_Cw r) (H (fst s)) (Z_ q' (fst s)) ltac:(lia) ltac:(lia) Ss SC Hhc P1 P2 P3) as T.
    cbn zeta in T. fold (cols (fst s)) in T. rewrite L1 in T. exact T. }
  assert (V12 : (r_vt r = 1 \/ r_vt r = 2)%Z) by (destruct Case as [(V & _)|(V & _)]; auto).
  set (hcell := fun s : rspot => node_expected (snap nr nc (fun i j => H (at_node i j)) (fun _ _ => false)) (fst s, place_of (fst s))).
  assert (Hcell : forall s, In s pts -> hcell s = match place_of (fst s) with None => RMask | Some _ => RVal (H (fst s)) end).
  { intros s Hs. specialize (Cell4 s Hs). unfold hcell, node_expected. cbn [snd]. destruct (place_of (fst s)) as [[[i j] [l m]]|]; [|reflexivity].
    cbn [snap a_at d_mask andb]. unfold or0. cbn [d_mask d_val]. f_equal. symmetry. now apply Cell4. }
  assert (FloorH : Floor g te place_of hcell). { apply (FloorAt g te place_of false node_expected nr nc (fun i j => H (at_node i j)) (fun _ _ => false)); auto. apply OnNodes; auto. }
  assert (SurfZ : exists z, Surface g te place_of q ex z /\ forall s, In s pts -> place_of (fst s) <> None -> z s = RVal (Z_ q' (fst s))).
  { destruct HZ as [(Ez & Z0 & OE)|(t & vz & lz & Ez & Hlz & HVz & HTz)].
    - exists (fun s => r_const (fst s)). assert (Ev : forall p, OnEarthR p -> r_const p = RVal 0).
      { intros p ((a1 & a2) & (a3 & a4)). unfold r_const, Rleb. repeat (destruct (Rle_dec _ _); [|exfalso; Lra.lra]). reflexivity. }
      split; [apply Still; auto|].
      + intros s No. unfold r_const, Rleb. repeat (destruct (Rle_dec _ _); cbn [andb]; [|reflexivity]). exfalso. apply No. unfold OnEarthR. Lra.lra.
      + intros s Hs NN. rewrite Z0. apply Ev. auto.
    - exists (fun s => node_expected (snap nr nc (fun i j => Z_ q' (at_node i j)) (fun _ _ => false)) (fst s, place_of (fst s))). split.
      + apply (Moving g te place_of q ex t vz nr nc lz false node_expected (fun u i j => Z_ u (at_node i j)) (fun _ _ => false) q'); auto. apply OnNodes; auto.
      + intros s Hs NN. specialize (Cell4 s Hs). unfold node_expected. cbn [snd]. destruct (place_of (fst s)) as [[[i j] [l m]]|]; [|congruence].
        cbn [snap a_at d_mask andb]. unfold or0. cbn [d_mask d_val]. f_equal. symmetry. now apply Cell4. }
  destruct SurfZ as (z & SZ & Ez).
  assert (Top' : forall s, In s pts -> (0 <= Q2R (snd s))%R \/ sbc <> BExtrapolate).
  { intros s Hs. destruct (Top s Hs) as [T|T]; [left|auto]. apply Qle_Rle in T. now rewrite RMicromega.Q2R_0 in T. }
  assert (HC : Columns g te place_of q ex n sbc bbc pts sit).
  { unfold Columns. fold r. split; [exact L1|]. split; [exact L2|]. split; [exact L3|]. split; [exact N|]. split; [apply Ss|]. split; [exact V12|].
    exists hcell, z. split; [exact FloorH|]. split; [exact SZ|]. intros s Hs. unfold sit. specialize (Hcell s Hs). specialize (Ez s Hs).
    specialize (Pt s Hs). specialize (Col s Hs).
    destruct (place_of (fst s)) as [pl|].
    - destruct (Col ltac:(discriminate)) as (_ & D & _ & T). destruct (Pt ltac:(discriminate)) as (P1 & P2 & P3).
      exists (Some (cols (fst s))). split; [|split].
      + apply (Wet _ _ _ _ _ (H (fst s)) (Z_ q' (fst s))); auto; [apply Ez; discriminate|]. unfold divisor.
        apply Qle_Rle in Hhc. rewrite RMicromega.Q2R_0 in Hhc. destruct (_ =? _)%Z; Lra.lra.
      + intros l E. injection E as <-. exact D.
      + apply (seated_ok sbc bbc _ _ 0%R); auto.
    - exists None. split; [apply Dry; auto|]. split; [discriminate|]. apply NoWater. }
  rewrite (c99_levels_partial g find place_of te loc nr nc node_expected v time n _ (fun _ _ => false) q q' ex sbc bbc pts sit HS (OnNodes g loc nr nc Hl Hn eq_refl eq_refl) HF HV HT HC).
  f_equal. apply map_ext_in. intros s Hs. unfold sit. specialize (Col s Hs). specialize (Cell4 s Hs). specialize (Pt s Hs). specialize (Top' s Hs).
  destruct (place_of (fst s)) as [[[i j] [l m]]|]; [|reflexivity].
  destruct (Col ltac:(discriminate)) as (Ln & D & Fi & La). destruct (Pt ltac:(discriminate)) as (P1 & P2 & P3). destruct Cell4 as (Li & Lj & U & Bi).
  set (d := Q2R (snd s)) in *.
  pose proof (seated_ok sbc bbc d (cols (fst s)) 0 D La Top') as St. destruct (seated bbc d (cols (fst s))) as [| |k w].
  - inversion St as [| | |l' x Hx Lx _|l' y Hy Ly _]; subst l'.
    + rewrite Fi in Hx. injection Hx as <-. destruct (Rle_dec 0 d); [|reflexivity]. destruct (Rlt_dec d (H (fst s) + Z_ q' (fst s))); [Lra.lra|reflexivity].
    + rewrite La in Hy. injection Hy as <-. destruct (Rle_dec 0 d); [Lra.lra|reflexivity].
  - inversion St. congruence.
  - inversion St as [|l' k' x y w' Hx Hy B2 Ew| | |]; subst l' k' w'.
    assert (y >= 0)%R.
    { pose proof (nth_error_Some_lt _ _ _ Hy) as Lk. destruct (Nat.eq_dec (S k) (length (cols (fst s)) - 1)) as [E|NE]; [rewrite E, La in Hy; injection Hy as <-; Lra.lra|].
      specialize (D (S k) (length (cols (fst s)) - 1) y 0%R ltac:(lia) Hy La). Lra.lra. }
    assert (x <= Z_ q' (fst s) + H (fst s))%R.
    { destruct (Nat.eq_dec k 0) as [-> |NE]; [rewrite Fi in Hx; injection Hx as <-; Lra.lra|]. specialize (D 0 k _ x ltac:(lia) Fi Hx). Lra.lra. }
    destruct (Rle_dec 0 d); [|Lra.lra]. destruct (Rlt_dec d (H (fst s) + Z_ q' (fst s))); [|Lra.lra].
    unfold node_expected. cbn [snd snap a_at d_mask andb]. unfold or0. cbn [d_mask d_val]. f_equal.
    assert (Aff : forall k x, nth_error (cols (fst s)) k = Some x ->
      x = bilin (depth_of q' k (at_node i j)) (depth_of q' k (at_node i (S j))) (depth_of q' k (at_node (S i) j)) (depth_of q' k (at_node (S i) (S j))) l m).
    { intros k2 x2 Hx2. pose proof (nth_error_Some_lt _ _ _ Hx2) as Lk. rewrite Ln in Lk. unfold cols, level_depths in Hx2.
      rewrite nth_error_map, (nth_combine _ _ k2 (Q2R (nth k2 (r_sw r) 0%Q)) (Q2R (nth k2 (r_Cw r) 0%Q))) in Hx2 by (rewrite nth_error_map, (nth_error_nth' _ 0%Q) by lia; reflexivity).
      cbn [option_map fst snd] in Hx2. injection Hx2 as <-. unfold depth_of. set (sk := Q2R (nth k2 (r_sw r) 0%Q)). set (ck := Q2R (nth k2 (r_Cw r) 0%Q)).
      assert (Pi : forall i' j', i' < nr -> j' < nc -> (H (at_node i' j') <> 0)%R) by (intros; apply Rgt_not_eq; apply Pos; auto).
      pose proof (Pi i j ltac:(lia) ltac:(lia)). pose proof (Pi i (S j) ltac:(lia) ltac:(lia)). pose proof (Pi (S i) j ltac:(lia) ltac:(lia)). pose proof (Pi (S i) (S j) ltac:(lia) ltac:(lia)).
      unfold level_height. destruct Case as [(-> & Eh)|(-> & En & _)]; cbn [Z.eqb Pos.eqb].
      - apply Qeq_eqR in Eh. rewrite Eh, RMicromega.Q2R_0.
        assert (Q1 : forall h zz, (h <> 0 -> zz - (zz + (zz + h) * ((0 * sk + h * ck) / (0 + h))) = - (zz + h) * ck)%R) by (intros; field; Lra.lra).
        rewrite !Q1 by (auto; Lra.lra). rewrite (Bi H BH), (Bi (Z_ q') (BZ q')). unfold bilin. ring.
      - destruct HZ as [(_ & Z0 & _)|(t & vz & lz & Ez' & _)]; [|congruence]. rewrite !Z0.
        assert (Q1 : forall h S, (0 - (S + 0 * (1 + S / h)) = - S)%R) by (intros; ring). rewrite !Q1, (Bi H BH). unfold bilin. ring. }
    unfold blended, field. rewrite (Bi (A q') (BA q')). rewrite Ew, (Aff k x Hx), (Aff (S k) y Hy). unfold bilin. ring.
Qed.
Print Assumptions c99_fields_partial.

(** ** The grid and points of C98; water 10 + x deep under a surface that rises by
    a tenth per second, asked at time 5. *)
Definition c99_H (p : R * R) : R := (10 + fst p)%R.
Definition c99_Z (t : Z) (_ : R * R) : R := (IZR t / 10)%R.
Definition c99_A (t : Z) (p : R * R) : R := (IZR t + fst p + 2 * snd p)%R.
Definition c99_node (i j : nat) : R * R := (ex_lon i j, ex_lat i j).
Definition c99_roms (hc : Q) (vt : Z) : roms := mkROMS [-1; -1#2; 0]%Q [-3#4; -1#4]%Q [-1; -1#4; 0]%Q [-5#8; -1#8]%Q hc vt.
Definition c99_zeta : nvar := mkNvar [2] (fun ix => mkArr 3 3 (fun i j => mkRd (c99_Z (nth (nth 0 ix 0) [0; 10]%Z 0%Z) (c99_node i j)) false)).
Definition c99_terr (hc : Q) (vt : Z) (moving : bool) : rterr :=
  mkRT (c99_roms hc vt) (mkArr 3 3 (fun i j => mkRd (c99_H (c99_node i j)) false)) "node" (if moving then Some (c98_time, c99_zeta, (3, 3), "node"%string) else None).
(** Node data x + 2 y + t + 3 (depth of the level under the node). *)
Definition c99_data (hc : Q) (vt : Z) (Z_ : Z -> R * R -> R) (t : Z) (k i j : nat) : R :=
  let p := c99_node i j in
  (c99_A t p + 3 * (Z_ t p - level_height vt (Q2R hc) (c99_H p) (Z_ t p) (Q2R (nth k [-1; -1#2; 0] 0)%Q) (Q2R (nth k [-1; -1#4; 0] 0)%Q)))%R.
Definition c99_var (f : Z -> nat -> nat -> nat -> R) : nvar :=
  mkNvar [2; 3] (fun ix => mkArr 3 3 (fun i j => mkRd (f (nth (nth 0 ix 0) [0; 10]%Z 0%Z) (nth 1 ix 0) i j) false)).
Lemma c99_stretches a : (-1 < a)%Q -> (a < 0)%Q -> Stretches [-1; a; 0]%Q.
Proof.
  intros L1 L2. split; [|split; [exists (-1)%Q|exists 0%Q]; split; reflexivity].
  intros i j x y L Hx Hy. destruct i as [|[|[|i]]], j as [|[|[|j]]]; cbn in Hx, Hy; try lia; try (destruct i; discriminate); try (destruct j; discriminate);
    injection Hx as <-; injection Hy as <-; Lqa.lra.
Qed.
Lemma c99_holds f : (forall k i j, exists a b, forall t, f t k i j = (a + b * IZR t)%R) ->
  Holds (c99_var f) (Some [0; 10]%Z) (Some 3) 3 3 f (fun _ _ _ => false).
Proof.
  intros H. split; [reflexivity|]. split.
  - intros ix t j (i & -> & Hi & Hj). split; [reflexivity|]. split; [reflexivity|]. intros r c. split; [reflexivity|]. intros _.
    destruct i as [|[|i]]; [injection Hi as <-; reflexivity|injection Hi as <-; reflexivity|destruct i; discriminate].
  - intros l r c k E _. injection E as <-. intros i t0 t1 q _ _ _. destruct (H k r c) as (a & b & Hx). rewrite !Hx. ring.
Qed.
Lemma c99_bounds i j : i < 3 -> j < 3 -> (0 <= ex_lon i j <= 4)%R.
Proof. intros Li Lj. destruct i as [|[|[|i]]], j as [|[|[|j]]]; try lia; unfold ex_lon; cbn [INR]; Lra.lra. Qed.
Example c99_example :
  roms_at ex_g c98_find (c99_terr 0 2 true) 5 false "node" (c99_var (c99_data 0 2 c99_Z)) 3 3 3 (Some c98_time) DepthModel.BMask DepthModel.BMask c98_pts
  = Ok [RVal (123 / 10)%R; RMask; RVal (75 / 4)%R].
Proof.
  pose proof (c99_fields_partial ex_g c98_find c98_place (c99_terr 0 2 true) "node" (c99_var (c99_data 0 2 c99_Z)) (Some c98_time) 3 c99_A (fun _ => 3%R) c99_H c99_Z 5 5 false
    DepthModel.BMask DepthModel.BMask c98_pts) as T. cbn zeta in T. etransitivity; [apply T|]; clear T.
  - split; reflexivity.
  - reflexivity.
  - reflexivity.
  - reflexivity.
  - apply c98_found.
  - apply c98_time_ok.
  - split; [reflexivity|]. split; [reflexivity|]. intros i j. split; reflexivity.
  - right. exists c98_time, c99_zeta, "node"%string. split; [reflexivity|]. split; [reflexivity|]. split; [|apply c98_time_ok]. split; [reflexivity|]. split.
    + intros ix t j (i & -> & Hi). split; [reflexivity|]. split; [reflexivity|]. intros r c. split; [reflexivity|]. intros _.
      destruct i as [|[|i]]; [injection Hi as <-; reflexivity|injection Hi as <-; reflexivity|destruct i; discriminate].
    + intros l r c k E _. injection E as <-. intros i t0 t1 q _ _ _. unfold c99_Z. field.
  - apply (c99_holds (c99_data 0 2 c99_Z)). intros k i j. unfold c99_data, level_height. cbn [Z.eqb Pos.eqb].
    set (S_ := ((_ + _) / _)%R). exists (fst (c99_node i j) + 2 * snd (c99_node i j) - 3 * (c99_H (c99_node i j) * S_))%R, (1 - 3 / 10 * S_)%R. intros t. unfold c99_A, c99_Z. field.
  - intros r c l m _ _. unfold c99_H, place, cell_quad, bilin. cbn [q00 q01 q10 q11 fst snd]. ring.
  - intros t r c l m _ _. unfold c99_Z, bilin. ring.
  - intros t r c l m _ _. unfold c99_A, place, cell_quad, bilin. cbn [q00 q01 q10 q11 fst snd]. ring.
  - reflexivity.
  - reflexivity.
  - reflexivity.
  - lia.
  - apply c99_stretches; reflexivity.
  - apply c99_stretches; reflexivity.
  - apply Qle_refl.
  - intros i j Li Lj. unfold c99_H, c99_Z. cbn [fst]. pose proof (c99_bounds i j Li Lj). cbn [ex_g g_lon a_at]. Lra.lra.
  - left. split; reflexivity.
  - intros s _. right. discriminate.
  - discriminate.
  - cbn [map c98_pts fst snd]. unfold c98_place. cbn [fst].
    destruct (Req_EM_T (9/10) (9/10)) as [_|NN]; [|exfalso; apply NN; reflexivity].
    destruct (Req_EM_T 100 (9/10)) as [?|?]; [exfalso; Lra.lra|]. destruct (Req_EM_T 100 (11/4)) as [?|?]; [exfalso; Lra.lra|].
    destruct (Req_EM_T (11/4) (9/10)) as [?|?]; [exfalso; Lra.lra|]. destruct (Req_EM_T (11/4) (11/4)) as [_|NN]; [|exfalso; apply NN; reflexivity].
    unfold c99_A, c99_H, c99_Z. cbn [fst snd]. assert (E2 : Q2R 2 = 2%R) by (unfold Q2R; cbn; field). assert (E3 : Q2R 3 = 3%R) by (unfold Q2R; cbn; field). rewrite E2, E3.
    repeat (destruct (Rle_dec _ _); [|exfalso; Lra.lra]). repeat (destruct (Rlt_dec _ _); [|exfalso; Lra.lra]). repeat (f_equal; try Lra.lra).
Qed.

(** With a critical depth the levels do not follow the bathymetry proportionally,
    and interpolating along levels distorts even fields that are linear in depth. *)
Theorem c99_critical_depth_refuted :
  exists g find place_of te v (A : Z -> R * R -> R) (H : R * R -> R) (s : rspot),
  let at_node i j := (a_at (g_lon g) i j, a_at (g_lat g) i j) in let r := rt_roms te in
  SameShape g /\ node_padding (g_pads g) = (PadNone, PadNone) /\ Finds g find place_of [fst s] /\ place_of (fst s) <> None /\
  rt_hloc te = "node"%string /\ Reads (rt_h te) 3 3 (fun i j => H (at_node i j)) (fun _ _ => false) /\ rt_zeta te = None /\ OnEarthR (fst s) /\
  Holds v None (Some 3) 3 3 (fun t k i j => A t (at_node i j) + 3 * (0 - level_height 2 (Q2R (r_hc r)) (H (at_node i j)) 0 (Q2R (nth k (r_sw r) 0%Q)) (Q2R (nth k (r_Cw r) 0%Q))))%R (fun _ _ _ => false) /\
  BilinearInCells g H /\ (forall t, BilinearInCells g (A t)) /\ length (r_sw r) = 3 /\ length (r_Cw r) = 3 /\ length (r_srho r) = 2 /\
  Stretches (r_sw r) /\ Stretches (r_Cw r) /\ (0 < r_hc r)%Q /\ r_vt r = 2%Z /\ (forall i j, i < 3 -> j < 3 -> (Q2R (r_hc r) <= H (at_node i j))%R) /\
  (0 <= Q2R (snd s) < H (fst s))%R /\
  roms_at g find te 0 false "node" v 3 3 3 None DepthModel.BMask DepthModel.BMask [s] <> Ok [RVal (A 0%Z (fst s) + 3 * Q2R (snd s))%R].
Proof.
  set (f := fun (t : Z) (k i j : nat) => (c99_A t (c99_node i j) + 3 * (0 - level_height 2 (Q2R 10) (c99_H (c99_node i j)) 0 (Q2R (nth k [-1; -1#2; 0] 0)%Q) (Q2R (nth k [-1; -1#4; 0] 0)%Q)))%R).
  set (v := mkNvar [3] (fun ix => mkArr 3 3 (fun i j => mkRd (f 0%Z (nth 0 ix 0) i j) false))).
  set (s := ((9/10, 1/5)%R, 2%Q) : rspot).
  exists ex_g, c98_find, c98_place, (c99_terr 10 2 false), v, (fun _ => c99_A 0), c99_H, s. intros at_node r.
  assert (Pl : c98_place (fst s) = Some (0, 0, (18/39, 1/5)%R)).
  { unfold c98_place, s. cbn [fst]. destruct (Req_EM_T (9/10) (9/10)) as [_|NN]; [reflexivity|exfalso; apply NN; reflexivity]. }
  assert (E10 : Q2R 10 = 10%R) by (unfold Q2R; cbn; field). assert (E2 : Q2R 2 = 2%R) by (unfold Q2R; cbn; field).
  assert (E1 : Q2R (-1) = (-1)%R) by (unfold Q2R; cbn; field). assert (Eh : Q2R (-1#2) = (-1/2)%R) by (unfold Q2R; cbn; field). assert (Eq : Q2R (-1#4) = (-1/4)%R) by (unfold Q2R; cbn; field).
  assert (E0 : Q2R 0 = 0%R) by apply RMicromega.Q2R_0.
  assert (HF : Finds ex_g c98_find c98_place [fst s]) by (intros p [<-|[]]; apply c98_found; now left).
  assert (HR : Reads (rt_h (c99_terr 10 2 false)) 3 3 (fun i j => c99_H (at_node i j)) (fun _ _ => false)) by (split; [reflexivity|]; split; [reflexivity|]; intros i j; split; reflexivity).
  assert (HV : Holds v None (Some 3) 3 3 (fun t => f 0%Z) (fun _ _ _ => false)).
  { split; [reflexivity|]. split; [|discriminate]. intros ix t j (-> & Hj). split; [reflexivity|]. split; [reflexivity|]. intros i c. split; reflexivity. }
  assert (OE : OnEarthR (fst s)) by (unfold OnEarthR, s; cbn [fst snd]; Lra.lra).
  assert (S1 : Stretches (r_sw r)) by (apply c99_stretches; reflexivity). assert (S2 : Stretches (r_Cw r)) by (apply c99_stretches; reflexivity).
  split; [split; reflexivity|]. split; [reflexivity|]. split; [exact HF|]. split; [rewrite Pl; discriminate|]. split; [reflexivity|]. split; [exact HR|]. split; [reflexivity|].
  split; [exact OE|]. split; [exact HV|].
  split; [intros a c l m _ _; unfold c99_H, place, cell_quad, bilin; cbn [q00 q01 q10 q11 fst snd]; ring|].
  split; [intros t a c l m _ _; unfold c99_A, place, cell_quad, bilin; cbn [q00 q01 q10 q11 fst snd]; ring|].
  split; [reflexivity|]. split; [reflexivity|]. split; [reflexivity|]. split; [exact S1|]. split; [exact S2|]. split; [reflexivity|]. split; [reflexivity|].
  split. { intros i j Li Lj. unfold r, c99_terr, c99_roms, c99_H, at_node. cbn [rt_roms r_hc fst ex_g g_lon a_at]. rewrite E10. pose proof (c99_bounds i j Li Lj). Lra.lra. }
  split. { unfold s, c99_H. cbn [fst snd]. rewrite E2. Lra.lra. }
  set (D := ((109/10) * (5 + (109/10) / 4) / (209/10))%R).
  assert (HC : Columns ex_g (c99_terr 10 2 false) c98_place 0 false 3 DepthModel.BMask DepthModel.BMask [s] (fun _ => Between 1 (1 - 2 / D)%R)).
  { split; [reflexivity|]. split; [reflexivity|]. split; [reflexivity|]. split; [lia|]. split; [apply S1|]. split; [right; reflexivity|].
    exists (fun s => node_expected (snap 3 3 (fun i j => c99_H (at_node i j)) (fun _ _ => false)) (fst s, c98_place (fst s))), (fun s => r_const (fst s)).
    split; [apply (FloorAt ex_g (c99_terr 10 2 false) c98_place false node_expected); [apply OnNodes; reflexivity|exact HR]|].
    split.
    - apply Still; [reflexivity| |].
      + intros s' ((a1 & a2) & (a3 & a4)). unfold r_const, Rleb. repeat (destruct (Rle_dec _ _); [|exfalso; Lra.lra]). reflexivity.
      + intros s' No. unfold r_const, Rleb. repeat (destruct (Rle_dec _ _); cbn [andb]; [|reflexivity]). exfalso. apply No. unfold OnEarthR. Lra.lra.
    - intros s' [<-|[]]. exists (Some (level_depths 2 (Q2R 10) (combine (map Q2R [-1; -1#2; 0]%Q) (map Q2R [-1; -1#4; 0]%Q)) (109/10)%R 0%R)). split; [|split].
      + apply (Wet _ _ _ _ _ (109/10)%R 0%R).
        * unfold node_expected. cbn [snd]. rewrite Pl. cbn [snap a_at d_mask andb]. unfold or0. cbn [d_mask d_val]. f_equal. unfold at_node, c99_H, bilin, ex_g, ex_lon. cbn [g_lon g_lat a_at fst INR]. field.
        * unfold r_const, Rleb, s. cbn [fst snd]. repeat (destruct (Rle_dec _ _); [|exfalso; Lra.lra]). reflexivity.
        * unfold divisor. cbn [Z.eqb Pos.eqb c99_terr c99_roms rt_roms r_vt r_hc]. rewrite E10. Lra.lra.
      + intros l E. injection E as <-. apply (c99_columns 2 10 [-1; -1#2; 0]%Q [-1; -1#4; 0]%Q); auto; try Lra.lra; [cbn; lia|discriminate].
      + apply (InWater _ _ _ _ 1 D 0%R).
        * cbn [map combine level_depths nth_error fst snd]. f_equal. unfold level_height, D. cbn [Z.eqb Pos.eqb]. rewrite E10, Eh, Eq. field.
        * cbn [map combine level_depths nth_error fst snd]. f_equal. unfold level_height. cbn [Z.eqb Pos.eqb]. rewrite E10, E0. field.
        * cbn [snd s]. rewrite E2. unfold D. Lra.lra.
        * cbn [snd s]. rewrite E2. unfold D. field. }
  rewrite (c99_levels_partial ex_g c98_find c98_place (c99_terr 10 2 false) "node" 3 3 node_expected v None 3 (fun _ => f 0%Z) (fun _ _ => false) 0 0 false
     DepthModel.BMask DepthModel.BMask [s] (fun _ => Between 1 (1 - 2 / D)%R) (conj eq_refl eq_refl) (OnNodes ex_g "node" 3 3 eq_refl eq_refl eq_refl eq_refl) HF HV ltac:(intros l E; discriminate) HC).
  cbn [map]. unfold node_expected. cbn [snd]. rewrite Pl. cbn [snap a_at d_mask andb]. unfold or0. cbn [d_mask d_val]. intros E. injection E as E.
  unfold blended, f, level_height, c99_A, c99_H, c99_node, bilin, ex_lon, ex_lat, D in E. cbn [Z.eqb Pos.eqb nth fst snd INR s] in E. rewrite E10, Eh, Eq, E0, E2 in E. Lra.lra.
Qed.
Print Assumptions c99_critical_depth_refuted.

(** One value per cell and layer, under a still surface: the layer by the depth of
    the water over the point (10.9 and 12.75 deep). *)
Example c99_layers_example :
  roms_at ex_g c98_find (c99_terr 0 2 false) 0 false "face" (mkNvar [2] (fun ix => mkArr 2 2 (fun r c => mkRd (7 * INR (nth 0%nat ix 0%nat) + INR r + 1)%R false))) 2 2 2 None
    DepthModel.BMask DepthModel.BMask [((9/10, 1/5)%R, 3%Q); ((100, 100)%R, 2%Q); ((11/4, 1)%R, 3%Q)]
  = Ok [RVal 1%R; RMask; RVal 9%R].
Proof.
  set (pts := [((9/10, 1/5)%R, 3%Q); ((100, 100)%R, 2%Q); ((11/4, 1)%R, 3%Q)] : list rspot).
  assert (E1 : Q2R (-1) = (-1)%R) by (unfold Q2R; cbn; field). assert (Eh : Q2R (-1#2) = (-1/2)%R) by (unfold Q2R; cbn; field). assert (Eq : Q2R (-1#4) = (-1/4)%R) by (unfold Q2R; cbn; field).
  assert (E0 : Q2R 0 = 0%R) by apply RMicromega.Q2R_0. assert (E3 : Q2R 3 = 3%R) by (unfold Q2R; cbn; field).
  assert (P1 : c98_place (9/10, 1/5)%R = Some (0, 0, (18/39, 1/5)%R)).
  { unfold c98_place. cbn [fst]. destruct (Req_EM_T (9/10) (9/10)) as [_|NN]; [reflexivity|exfalso; apply NN; reflexivity]. }
  assert (P2 : c98_place (100, 100)%R = None).
  { unfold c98_place. cbn [fst]. destruct (Req_EM_T 100 (9/10)) as [?|?]; [exfalso; Lra.lra|]. destruct (Req_EM_T 100 (11/4)) as [?|?]; [exfalso; Lra.lra|]. reflexivity. }
  assert (P3 : c98_place (11/4, 1)%R = Some (1, 1, (1/2, 0)%R)).
  { unfold c98_place. cbn [fst]. destruct (Req_EM_T (11/4) (9/10)) as [?|?]; [exfalso; Lra.lra|]. destruct (Req_EM_T (11/4) (11/4)) as [_|NN]; [reflexivity|exfalso; apply NN; reflexivity]. }
  set (sit := fun s : rspot => match c98_place (fst s) with Some (0, _, _) => Between 0 ((3 - 109/10) / (109/40 - 109/10))%R | Some _ => Between 1 ((3 - 51/16) / (0 - 51/16))%R | None => Out end).
  assert (HC : Columns ex_g (c99_terr 0 2 false) c98_place 0 false 3 DepthModel.BMask DepthModel.BMask pts sit).
  { split; [reflexivity|]. split; [reflexivity|]. split; [reflexivity|]. split; [lia|]. split; [apply c99_stretches; reflexivity|]. split; [right; reflexivity|].
    exists (fun s => node_expected (snap 3 3 (fun i j => c99_H (c99_node i j)) (fun _ _ => false)) (fst s, c98_place (fst s))), (fun s => r_const (fst s)).
    split; [apply (FloorAt ex_g (c99_terr 0 2 false) c98_place false node_expected); [apply OnNodes; reflexivity|split; [reflexivity|]; split; [reflexivity|]; intros i j; split; reflexivity]|].
    split.
    - apply Still; [reflexivity| |].
      + intros s' ((a1 & a2) & (a3 & a4)). unfold r_const, Rleb. repeat (destruct (Rle_dec _ _); [|exfalso; Lra.lra]). reflexivity.
      + intros s' No. unfold r_const, Rleb. repeat (destruct (Rle_dec _ _); cbn [andb]; [|reflexivity]). exfalso. apply No. unfold OnEarthR. Lra.lra.
    - assert (Wt : forall h, (0 < h)%R -> RDesc (level_depths 2 (Q2R 0) (combine (map Q2R [-1; -1#2; 0]%Q) (map Q2R [-1; -1#4; 0]%Q)) h 0)).
      { intros h Hh. apply (c99_columns 2 0 [-1; -1#2; 0]%Q [-1; -1#4; 0]%Q); auto; try Lra.lra; try (apply c99_stretches; reflexivity); [cbn; lia|apply Qle_refl]. }
      intros s' [<-|[<-|[<-|[]]]]; unfold sit; cbn [fst snd]; [rewrite P1|rewrite P2|rewrite P3].
      + exists (Some (level_depths 2 (Q2R 0) (combine (map Q2R [-1; -1#2; 0]%Q) (map Q2R [-1; -1#4; 0]%Q)) (109/10)%R 0%R)). split; [|split].
        * apply (Wet _ _ _ _ _ (109/10)%R 0%R).
          -- unfold node_expected. cbn [snd snap a_at d_mask andb]. unfold or0. cbn [d_mask d_val]. f_equal. unfold c99_node, c99_H, bilin, ex_lon. cbn [fst INR]. field.
          -- unfold r_const, Rleb. cbn [fst snd]. repeat (destruct (Rle_dec _ _); [|exfalso; Lra.lra]). reflexivity.
          -- unfold divisor. cbn [Z.eqb Pos.eqb c99_terr c99_roms rt_roms r_vt r_hc]. rewrite E0. Lra.lra.
        * intros l E. injection E as <-. apply Wt. Lra.lra.
        * apply (InWater _ _ _ _ 0 (109/10)%R (109/40)%R).
          -- cbn [map combine level_depths nth_error fst snd]. f_equal. unfold level_height. cbn [Z.eqb Pos.eqb]. rewrite E0, E1. field.
          -- cbn [map combine level_depths nth_error fst snd]. f_equal. unfold level_height. cbn [Z.eqb Pos.eqb]. rewrite E0, Eh, Eq. field.
          -- rewrite E3. Lra.lra.
          -- rewrite E3. field.
      + exists None. split; [|split; [discriminate|apply NoWater]]. apply Dry. left. reflexivity.
      + exists (Some (level_depths 2 (Q2R 0) (combine (map Q2R [-1; -1#2; 0]%Q) (map Q2R [-1; -1#4; 0]%Q)) (51/4)%R 0%R)). split; [|split].
        * apply (Wet _ _ _ _ _ (51/4)%R 0%R).
          -- unfold node_expected. cbn [snd snap a_at d_mask andb]. unfold or0. cbn [d_mask d_val]. f_equal. unfold c99_node, c99_H, bilin, ex_lon. cbn [fst INR]. field.
          -- unfold r_const, Rleb. cbn [fst snd]. repeat (destruct (Rle_dec _ _); [|exfalso; Lra.lra]). reflexivity.
          -- unfold divisor. cbn [Z.eqb Pos.eqb c99_terr c99_roms rt_roms r_vt r_hc]. rewrite E0. Lra.lra.
        * intros l E. injection E as <-. apply Wt. Lra.lra.
        * apply (InWater _ _ _ _ 1 (51/16)%R 0%R).
          -- cbn [map combine level_depths nth_error fst snd]. f_equal. unfold level_height. cbn [Z.eqb Pos.eqb]. rewrite E0, Eh, Eq. field.
          -- cbn [map combine level_depths nth_error fst snd]. f_equal. unfold level_height. cbn [Z.eqb Pos.eqb]. rewrite E0. field.
          -- rewrite E3. Lra.lra.
          -- rewrite E3. field. }
  etransitivity; [apply (c99_layers_partial ex_g c98_find c98_place (c99_terr 0 2 false) "face" 2 2 true (fun var => center_expected var (PadNone, PadNone))
    _ None 3 (fun _ k r _ => 7 * INR k + INR r + 1)%R (fun _ _ _ => false) 0 0 false DepthModel.BMask DepthModel.BMask pts sit)|].
  - split; reflexivity.
  - apply OnCenters; [reflexivity|reflexivity|split; discriminate|cbn; lia|cbn; lia].
  - apply c98_found.
  - split; [reflexivity|]. split; [|discriminate]. intros ix t j (-> & Hj). repeat split; reflexivity.
  - intros l E. discriminate.
  - exact HC.
  - intros s _. unfold sit. destruct (c98_place (fst s)) as [[[[|i] j] lm]|]; discriminate.
  - cbn [map pts]. unfold sit. cbn [fst snd]. rewrite P1, P2, P3. unfold center_expected. cbn [snd fst snap a_at d_mask d_val low_extra Nat.add INR]. repeat (f_equal; try Lra.lra).
Qed.
