(** C115 on the terrain-following levels of ROMS. *)
From Coq Require Import Reals String Lqa Lra Qreals.
From Verif Require Import Common CommonProofs TimeModel TimeSpec TimeProofs VariableModel VariableSpec VariableProofs VariableInterpProofs VariableAtProofs
  DepthModel DepthSpec DepthProofs WholeModel WholeSpec WholeProofs
  MaskModel GridTypeModel SGridModel SGridSpec SGridInterpModel SGridInterpSpec SGridInterpRun SGridInterpProps SWholeModel SWholeSpec SWholeProofs SWholeProps
  RTerrModel RTerrSpec RTerrProofs RTerrProps SMaskSpec SMaskProofs.
Open Scope list_scope.
Open Scope nat_scope.

(** What a sample answers at a seat in the water column, [x j] being what its
    level [j] answers: on the bed the lowest level, unless the uppermost is missing. *)
Definition AtSeat (n : nat) (st : seat) (x : nat -> rcell) (c : rcell) : Prop :=
  match st with
  | Out => c = RMask
  | Bed => Blend (x (n - 1)) (x 0) 1 c
  | Between j w => Blend (x j) (x (S j)) w c
  end.

Section Terrain.
  Context (g : sg) (find : R * R -> option (Z * Z)) (place_of : R * R -> option (nat * nat * (R * R))) (te : rterr) (loc : string) (nr nc : nat)
          (col : bool) (expct : arr rd -> located -> rcell) (v : nvar) (time : option time_obj) (n : nat) (d : Z -> nat -> arr rd) (q q' : Z) (ex : bool) (sbc bbc : bcond)
          (pts : list rspot) (sit : rspot -> seat).
  Context (HS : SameShape g) (St : Sits g loc nr nc col expct) (HF : Finds g find place_of (map fst pts))
          (HT : TimeOk (option_map t_data time) ex q q') (HC : Columns g te place_of q ex n sbc bbc pts sit).
  Let idxs := map (fun s => fst (seat_row (sit s))) pts.
  Let alphas := map (fun s => match snd (seat_row (sit s)) with Some a => a | None => 0%R end) pts.
  Lemma row_seat k i : In (k, Some i) (combine (seq 0 (length idxs)) idxs) -> exists s, nth_error pts k = Some s /\ fst (seat_row (sit s)) = Some i.
  Proof.
    intros I. apply In_nth_error in I as (k' & Hk'). assert (L : k' < length idxs) by (apply nth_error_Some_lt in Hk'; rewrite combine_length, seq_length in Hk'; lia).
    destruct (nth_error_lt_Some idxs k' L) as [o Ho]. rewrite (nth_combine _ _ k' k' o) in Hk'; [|rewrite (nth_error_nth' _ 0) by (rewrite seq_length; lia); now rewrite seq_nth by lia|exact Ho].
    injection Hk' as -> ->. unfold idxs in Ho. rewrite nth_error_map in Ho. destruct (nth_error pts k) as [s|]; [|discriminate]. exists s. split; [reflexivity|]. cbn in Ho. congruence.
  Qed.
  Lemma seat_mix u s i w : In s pts -> seat_row (sit s) = (Some i, Some w) ->
    AtSeat n (sit s) (fun j => expct (d u j) (fst s, place_of (fst s)))
      (rmix (cell_at place_of expct d u (py_level n i) s) (cell_at place_of expct d u (py_level n (i + 1)) s) w).
  Proof.
    intros Hs E. pose proof (seat_bound g place_of te n q ex sbc bbc pts sit HC s) as B.
    assert (Pl : forall j, Plain (cell_at place_of expct d u j s)) by (intros; eapply sits_cells; eauto).
    destruct (sit s) as [| |j w']; cbn [seat_row] in E; try discriminate; injection E as <- <-; cbn [AtSeat].
    - change (py_level n (-1)) with (n - 1). change (py_level n (-1 + 1)) with 0. apply blend_mix; [apply Pl|apply Pl|reflexivity].
    - unfold py_level. destruct (Z.eqb_spec (Z.of_nat j) (-1)); [lia|]. destruct (Z.eqb_spec (Z.of_nat j + 1) (-1)); [lia|].
      replace (Z.of_nat j + 1)%Z with (Z.of_nat (S j)) by lia. rewrite !Nat2Z.id. apply blend_mix; [apply Pl|apply Pl|reflexivity].
  Qed.
  Lemma terrain_levels : Stores v (option_map t_data time) (Some n) nr nc d ->
    (forall k s i, nth_error pts k = Some s -> fst (seat_row (sit s)) = Some i -> source pts idxs col i k = Some s) ->
    exists cs, roms_at g find te q ex loc v n nr nc time sbc bbc pts = Ok cs /\
    Forall2 (fun s c => exists e, (forall u, AtSeat n (sit s) (fun j => expct (d u j) (fst s, place_of (fst s))) (e u)) /\ OverTime (option_map t_data time) ex q e c) pts cs.
  Proof.
    intros HV Own. rewrite shape_eq.
    assert (Hli : length idxs = length pts) by (unfold idxs; now rewrite map_length). assert (Hla : length alphas = length pts) by (unfold alphas; now rewrite map_length).
    set (dv := r_view g find te q ex sbc bbc).
    assert (HA : av_alphas dv pts = Ok (idxs, alphas)) by (apply (view_ok g find place_of te n q ex sbc bbc pts sit HS HF HC)).
    assert (Val : forall u k s i, nth_error pts k = Some s -> fst (seat_row (sit s)) = Some i -> exists w, seat_row (sit s) = (Some i, Some w) /\
      levels_of place_of expct d pts n idxs alphas col u i k = rmix (cell_at place_of expct d u (py_level n i) s) (cell_at place_of expct d u (py_level n (i + 1)) s) w).
    { intros u k s i Hs Hi. destruct (snd (seat_row (sit s))) as [w|] eqn:Ew; [|destruct (sit s); discriminate]. exists w. split; [rewrite <- Hi, <- Ew; apply surjective_pairing|].
      unfold levels_of. rewrite (Own k s i Hs Hi). unfold alphas. rewrite nth_error_map, Hs. cbn [option_map]. rewrite Ew. reflexivity. }
    destruct (deep_times g find loc nr nc v time _ d q q' ex pts HV HT n dv idxs alphas HA (levels_of place_of expct d pts n idxs alphas col)) as (cs & E & F).
    - intros u i k I. destruct (row_seat k i I) as (s & Hs & Hi). destruct (Val u k s i Hs Hi) as (w & _ & ->). apply plain_mix; eapply sits_cells; eauto.
    - intros sl u Sl. apply (slice_levels g find place_of loc nr nc col expct v time (Some n) d pts HS St HF HV n eq_refl dv idxs alphas); auto.
      + unfold dv. cbn [r_view av_layers]. destruct HC as (_ & _ & L3 & N & _). lia.
      + apply (idx_range g place_of te n q ex sbc bbc pts sit HC).
    - exists cs. split; [exact E|]. apply (by_points pts idxs alphas Hli Hla _ _ cs F).
      intros k s c o Hs Ho K. unfold idxs in Ho. rewrite nth_error_map, Hs in Ho. injection Ho as <-. cbn [fst snd] in K.
      destruct (fst (seat_row (sit s))) as [i|] eqn:Ei.
      + exists (fun u => levels_of place_of expct d pts n idxs alphas col u i k). split; [|exact K]. intros u. destruct (Val u k s i Hs Ei) as (w & Er & ->).
        apply seat_mix; [eapply nth_error_In; eauto|exact Er].
      + exists (fun _ => RMask). split; [|exact K]. intros u. destruct (sit s); try discriminate. reflexivity.
  Qed.
  Lemma terrain_layers : Stores v (option_map t_data time) (Some (n - 1)) nr nc d -> (forall s, In s pts -> sit s <> Bed) ->
    exists cs, roms_at g find te q ex loc v (n - 1) nr nc time sbc bbc pts = Ok cs /\
    Forall2 (fun s c => match sit s with
      | Between j _ => OverTime (option_map t_data time) ex q (fun u => expct (d u j) (fst s, place_of (fst s))) c
      | _ => OverTime (option_map t_data time) ex q (fun _ => RMask) c
      end) pts cs.
  Proof.
    intros HV NB. rewrite shape_eq.
    assert (Hli : length idxs = length pts) by (unfold idxs; now rewrite map_length). assert (Hla : length alphas = length pts) by (unfold alphas; now rewrite map_length).
    set (dv := r_view g find te q ex sbc bbc).
    assert (HA : av_alphas dv pts = Ok (idxs, alphas)) by (apply (view_ok g find place_of te n q ex sbc bbc pts sit HS HF HC)).
    destruct (deep_times g find loc nr nc v time _ d q q' ex pts HV HT (n - 1) dv idxs alphas HA (layer_of place_of expct d pts (n - 1))) as (cs & E & F).
    - intros u i k I. destruct (row_seat k i I) as (s & Hs & Hi). unfold layer_of. rewrite Hs. eapply sits_cells; eauto.
    - intros sl u Sl. apply (slice_layers g find place_of loc nr nc col expct v time (Some (n - 1)) d pts HS St HF HV (n - 1) eq_refl dv idxs alphas); auto.
      + unfold dv. cbn [r_view av_layers]. apply HC.
      + intros i Hi. unfold idxs in Hi. apply in_map_iff in Hi as (s & Es & Hs). pose proof (seat_bound g place_of te n q ex sbc bbc pts sit HC s) as B. specialize (NB s Hs).
        destruct (sit s) as [| |j w]; cbn in Es; try discriminate; [congruence|]. injection Es as <-. specialize (B j w Hs eq_refl). lia.
    - exists cs. split; [exact E|]. apply (by_points pts idxs alphas Hli Hla _ _ cs F).
      intros k s c o Hs Ho K. unfold idxs in Ho. rewrite nth_error_map, Hs in Ho. injection Ho as <-. cbn [fst snd] in K. specialize (NB s (nth_error_In _ _ Hs)).
      destruct (sit s) as [| |j w]; cbn [seat_row fst] in K; [exact K|congruence|]. unfold layer_of in K. rewrite Hs in K. unfold cell_at, py_level, spot_in in K.
      destruct (Z.eqb_spec (Z.of_nat j) (-1)); [lia|]. rewrite Nat2Z.id in K. exact K.
  Qed.
End Terrain.

(** On the levels, at nodes and edges. *)
Theorem c115_terrain_partial :
  forall g find place_of te loc nr nc expct v time n d q q' ex sbc bbc (pts : list rspot) sit,
  SameShape g -> Sits g loc nr nc false expct -> Finds g find place_of (map fst pts) ->
  Stores v (option_map t_data time) (Some n) nr nc d -> TimeOk (option_map t_data time) ex q q' -> Columns g te place_of q ex n sbc bbc pts sit ->
  exists cs, roms_at g find te q ex loc v n nr nc time sbc bbc pts = Ok cs /\
  Forall2 (fun s c => exists e, (forall u, AtSeat n (sit s) (fun j => expct (d u j) (fst s, place_of (fst s))) (e u)) /\ OverTime (option_map t_data time) ex q e c) pts cs.
Proof.
  intros g find place_of te loc nr nc expct v time n d q q' ex sbc bbc pts sit HS St HF HV HT HC.
  apply (terrain_levels g find place_of te loc nr nc false expct v time n d q q' ex sbc bbc pts sit HS St HF HT HC HV). intros k s i Hs _. exact Hs.
Qed.
Print Assumptions c115_terrain_partial.
(** At any of the points, one point at a time. *)
Theorem c115_terrain_one_point_partial :
  forall g find place_of te loc nr nc col expct v time n d q q' ex sbc bbc (s : rspot) sit,
  SameShape g -> Sits g loc nr nc col expct -> Finds g find place_of [fst s] ->
  Stores v (option_map t_data time) (Some n) nr nc d -> TimeOk (option_map t_data time) ex q q' -> Columns g te place_of q ex n sbc bbc [s] sit ->
  exists c e, roms_at g find te q ex loc v n nr nc time sbc bbc [s] = Ok [c] /\
  (forall u, AtSeat n (sit s) (fun j => expct (d u j) (fst s, place_of (fst s))) (e u)) /\ OverTime (option_map t_data time) ex q e c.
Proof.
  intros g find place_of te loc nr nc col expct v time n d q q' ex sbc bbc s sit HS St HF HV HT HC.
  destruct (terrain_levels g find place_of te loc nr nc col expct v time n d q q' ex sbc bbc [s] sit HS St HF HT HC HV) as (cs & E & F).
  - intros k s' i Hs Hi. destruct k as [|k]; [|destruct k; discriminate]. injection Hs as <-. unfold source. destruct col; [|reflexivity]. unfold first. cbn [map where_eq]. rewrite Hi, Z.eqb_refl. reflexivity.
  - inversion F as [|? c ? r (e & A & B) N]; subst. inversion N; subst. exists c, e. auto.
Qed.
Print Assumptions c115_terrain_one_point_partial.
(** On the layers between the levels, at any of the points: the layer that holds
    the point, over time. *)
Theorem c115_terrain_layers_partial :
  forall g find place_of te loc nr nc col expct v time n d q q' ex sbc bbc (pts : list rspot) sit,
  SameShape g -> Sits g loc nr nc col expct -> Finds g find place_of (map fst pts) ->
  Stores v (option_map t_data time) (Some (n - 1)) nr nc d -> TimeOk (option_map t_data time) ex q q' ->
  Columns g te place_of q ex n sbc bbc pts sit -> (forall s, In s pts -> sit s <> Bed) ->
  exists cs, roms_at g find te q ex loc v (n - 1) nr nc time sbc bbc pts = Ok cs /\
  Forall2 (fun s c => match sit s with
    | Between j _ => OverTime (option_map t_data time) ex q (fun u => expct (d u j) (fst s, place_of (fst s))) c
    | _ => c = RMask
    end) pts cs.
Proof.
  intros g find place_of te loc nr nc col expct v time n d q q' ex sbc bbc pts sit HS St HF HV HT HC NB.
  destruct (terrain_layers g find place_of te loc nr nc col expct v time n d q q' ex sbc bbc pts sit HS St HF HT HC HV NB) as (cs & E & F). exists cs. split; [exact E|].
  clear E. revert F. generalize cs. clear. intros cs F. induction F as [|s c pts cs K F IH]; constructor; auto.
  assert (M : OverTime (option_map t_data time) ex q (fun _ => RMask) c -> c = RMask).
  { clear. destruct time as [t|]; cbn [option_map OverTime]; [|auto]. intros [(u & _ & E)|(t0 & t1 & _ & [(_ & E)|(a & b & E & _)])]; [exact E|exact E|discriminate]. }
  destruct (sit s); auto.
Qed.
Print Assumptions c115_terrain_layers_partial.
