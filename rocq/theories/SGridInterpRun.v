(** interpolate_var_to_points as a whole. *)
From Coq Require Import Reals Lra String.
From Verif Require Import Common CommonProofs DepthModel DepthProofs MaskModel GridTypeModel GridTypeProofs SGridModel SGridSpec SGridProofs
  SGridInterpModel SGridInterpSpec SGridInterpProofs.
Open Scope R_scope.

Lemma mapM_pure {A B} (f : A -> result B) (h : A -> B) l : (forall x, In x l -> f x = Ok (h x)) -> mapM f l = Ok (map h l).
Proof.
  induction l as [|x l IH]; intros H; [reflexivity|]. cbn [mapM map]. rewrite (H x (or_introl eq_refl)). cbn [bind].
  rewrite IH by (intros y Hy; apply H; right; exact Hy). reflexivity.
Qed.
Lemma mapM_map {A B C} (f : B -> result C) (h : A -> B) l : mapM f (map h l) = mapM (fun x => f (h x)) l.
Proof. induction l as [|x l IH]; [reflexivity|]. cbn [mapM map]. rewrite IH. reflexivity. Qed.
Lemma combine_same {A B C} (f : A -> B) (h : A -> C) l : combine (map f l) (map h l) = map (fun x => (f x, h x)) l.
Proof. induction l as [|x l IH]; [reflexivity|]. cbn. rewrite IH. reflexivity. Qed.

Lemma nth_combine {A B} (l : list A) (l' : list B) : forall i x y, nth_error l i = Some x -> nth_error l' i = Some y ->
  nth_error (combine l l') i = Some (x, y).
Proof.
  revert l'. induction l as [|a l IH]; intros [|b l'] [|i] x y Hx Hy; cbn in *; try discriminate; [congruence|auto].
Qed.

(** ** Looking up entries *)
Lemma clip_in n i : (i < n)%nat -> clip n (Z.of_nat i) = i.
Proof. intros H. unfold clip. lia. Qed.
Lemma take_flat_at {A} (a : arr A) i j : (i < a_r a)%nat -> (j < a_c a)%nat -> take_flat a (i * a_c a + j) = Ok (a_at a i j).
Proof.
  intros Hi Hj. unfold take_flat. destruct (cell_div_mod i j (a_c a) Hj) as [-> ->].
  assert (i * a_c a + j < a_r a * a_c a)%nat by nia. rewrite (proj2 (Nat.ltb_lt _ _) H). reflexivity.
Qed.
Lemma vbi_cell {A} (a : arr A) r c : IsCell (a_r a) (a_c a) r c ->
  variable_by_index a (Z.of_nat r, Z.of_nat c) = Ok [a_at a r c; a_at a (S r) c; a_at a (S r) (S c); a_at a r (S c)].
Proof.
  intros [Hr Hc]. unfold variable_by_index. cbn [fst snd]. rewrite !clip_in by lia.
  rewrite (take_flat_at a r c) by lia. cbn [bind].
  replace (r * a_c a + c + a_c a)%nat with (S r * a_c a + c)%nat by lia. rewrite (take_flat_at a (S r) c) by lia. cbn [bind].
  replace (S r * a_c a + c + 1)%nat with (S r * a_c a + S c)%nat by lia. rewrite (take_flat_at a (S r) (S c)) by lia. cbn [bind].
  replace (r * a_c a + c + 1)%nat with (r * a_c a + S c)%nat by lia. rewrite (take_flat_at a r (S c)) by lia. reflexivity.
Qed.
Lemma coef_at_cell (a : arr R) r c : IsCell (a_r a) (a_c a) r c ->
  coef_at a (Z.of_nat r, Z.of_nat c) = Ok (cell_coef [a_at a r c; a_at a (S r) c; a_at a (S r) (S c); a_at a r (S c)]).
Proof.
  intros H. unfold coef_at. cbn [fst snd]. rewrite (vbi_cell a r c H). destruct H as [Hr Hc].
  rewrite !(proj2 (Z.leb_le _ _)), !(proj2 (Z.ltb_lt _ _)) by lia. reflexivity.
Qed.
Lemma coef_at_misses (a : arr R) i j :
  ~ (exists r c, IsCell (a_r a) (a_c a) r c /\ (i, j) = (Z.of_nat r, Z.of_nat c)) -> coef_at a (i, j) = Err IndexError.
Proof.
  intros H. unfold coef_at. cbn [fst snd].
  destruct ((0 <=? i)%Z && (i <? Z.of_nat (a_r a) - 1)%Z && (0 <=? j)%Z && (j <? Z.of_nat (a_c a) - 1)%Z) eqn:E; [|reflexivity].
  exfalso. apply H. rewrite !andb_true_iff, !Z.leb_le, !Z.ltb_lt in E. exists (Z.to_nat i), (Z.to_nat j).
  rewrite !Z2Nat.id by lia. split; [split; lia|reflexivity].
Qed.

(** ** Offsets *)
Definition offs_of (x : located) : offs :=
  match snd x with None => OMask | Some (_, _, (l, m)) => OIn (LM l m) end.
Lemma offset_cell g p r c : SameShape g -> IsCell (a_r (g_lon g)) (a_c (g_lon g)) r c ->
  offset g p (Some (Z.of_nat r, Z.of_nat c)) =
  Ok (OIn (x_to_l (fst p) (snd p) (qa (cell_quad g r c)) (qb (cell_quad g r c)))).
Proof.
  intros [S1 S2] H. unfold offset. rewrite (coef_at_cell _ _ _ H). cbn [bind].
  rewrite (coef_at_cell (g_lat g)) by (rewrite S1, S2; exact H). reflexivity.
Qed.
Lemma offset_placed g x : SameShape g -> WellPlaced g x -> offset g (fst x) (where_ x) = Ok (offs_of x).
Proof.
  intros HS. destruct x as [p [[[r c] [l m]]|]]; unfold WellPlaced, where_, offs_of; cbn [fst snd]; [|reflexivity].
  intros (Hc & Hu & Hp & HC & HE). rewrite offset_cell by assumption. rewrite (quad_defined _ p l m) by assumption. reflexivity.
Qed.
Lemma offsets_placed g ps : SameShape g -> Forall (WellPlaced g) ps ->
  mapM (fun pi => offset g (fst pi) (snd pi)) (combine (map fst ps) (map where_ ps)) = Ok (map offs_of ps).
Proof.
  intros HS HF. rewrite combine_same, mapM_map. apply mapM_pure. intros x Hx. cbn [fst snd].
  apply offset_placed; [exact HS|]. rewrite Forall_forall in HF. auto.
Qed.

(** ** Padding *)
Definition shifted_to (p : pad * pad) (x : located) : option (Z * Z) :=
  match snd x with
  | None => None
  | Some (r, c, _) => Some (Z.of_nat (low_extra (fst p) + r), Z.of_nat (low_extra (snd p) + c))
  end.
Lemma apply_padding_known p i j : known2 p ->
  apply_padding p (Z.of_nat i, Z.of_nat j) = Ok (Z.of_nat (low_extra (fst p) + i), Z.of_nat (low_extra (snd p) + j)).
Proof. intros [H1 H2]. unfold apply_padding. cbn [fst snd]. rewrite !pad_shift_known by assumption. reflexivity. Qed.
Lemma shifted_all p ps : known2 p -> mapM (shifted p) (map where_ ps) = Ok (map (shifted_to p) ps).
Proof.
  intros Hp. rewrite mapM_map. apply mapM_pure. intros [pt [[[r c] lm]|]] _; unfold where_, shifted_to, shifted; cbn [snd].
  - rewrite apply_padding_known by exact Hp. reflexivity.
  - change (0, 0)%Z with (Z.of_nat 0, Z.of_nat 0). rewrite apply_padding_known by exact Hp. reflexivity.
Qed.

(** ** The three kinds of location *)
Lemma isin_node_not loc : isin loc node_names = true ->
  isin loc center_names = false /\ isin loc edge1_names = false /\ isin loc edge2_names = false.
Proof.
  intros H. apply isin_in in H. cbn [In node_names] in H.
  destruct H as [<-|[<-|[<-|[<-|[<-|[<-|[<-|[]]]]]]]]; vm_compute; auto.
Qed.
Lemma isin_center_not loc : isin loc center_names = true -> isin loc node_names = false.
Proof.
  intros H. apply isin_in in H. cbn [In center_names] in H.
  destruct H as [<-|[<-|[<-|[<-|[<-|[<-|[]]]]]]]; vm_compute; auto.
Qed.
Lemma isin_edge1_not loc : isin loc edge1_names = true ->
  isin loc node_names = false /\ isin loc center_names = false /\ isin loc edge2_names = false.
Proof. intros H. apply isin_in in H. cbn [In edge1_names] in H. destruct H as [<-|[<-|[]]]; vm_compute; auto. Qed.
Lemma isin_edge2_not loc : isin loc edge2_names = true ->
  isin loc node_names = false /\ isin loc center_names = false /\ isin loc edge1_names = false.
Proof. intros H. apply isin_in in H. cbn [In edge2_names] in H. destruct H as [<-|[<-|[]]]; vm_compute; auto. Qed.

Lemma node_point_expected a b c d l m :
  node_point [a; b; c; d] l m =
  if d_mask a && d_mask d && d_mask b && d_mask c then RMask
  else RVal (bilin (or0 a) (or0 d) (or0 b) (or0 c) l m).
Proof.
  unfold node_point, ma_sum, or0, bilin, w_aa, w_ab, w_ac, w_ad. cbn [combine map fst snd forallb].
  destruct (d_mask a), (d_mask b), (d_mask c), (d_mask d); cbn [andb filter snd fst negb map fold_right]; try reflexivity; f_equal; ring.
Qed.

Lemma opt_all_none (ps : list located) : opt_all (map where_ ps) = true -> forall x, In x ps -> snd x = None.
Proof.
  unfold opt_all. rewrite forallb_forall. intros H x Hx. specialize (H (where_ x) (in_map _ _ _ Hx)).
  destruct x as [p [[[r c] lm]|]]; [discriminate|reflexivity].
Qed.

Section Run.
  Context (g : sg) (ps : list located) (located_ : bool) (loc : string) (var : arr rd).
  Context (HS : SameShape g) (HP : Forall (WellPlaced g) ps).
  Let run := interpolate g (map fst ps) (map where_ ps) located_ false loc (Some []) (flat2 var).

  (** Points all outside: everything masked, whatever the variable. *)
  Lemma run_outside (h : located -> rcell) : (forall x, snd x = None -> h x = RMask) ->
    located_ && opt_all (map where_ ps) = true -> run = Ok (map h ps).
  Proof.
    intros Hh E. unfold run, interpolate. rewrite E. f_equal. rewrite map_map. apply map_ext_in.
    intros x Hx. apply andb_true_iff in E. destruct E as [_ E]. symmetry. apply Hh, (opt_all_none ps E x Hx).
  Qed.

  Lemma run_node : isin loc node_names = true -> node_padding (g_pads g) = (PadNone, PadNone) ->
    a_r var = a_r (g_lon g) -> a_c var = a_c (g_lon g) -> run = Ok (map (node_expected var) ps).
  Proof.
    intros Hl Hn Hr Hc. destruct (located_ && opt_all (map where_ ps)) eqn:E.
    { apply run_outside; [|exact E]. intros x Hx. unfold node_expected. rewrite Hx. reflexivity. }
    unfold run, interpolate. rewrite E, (offsets_placed g ps HS HP). cbn [bind].
    unfold padding_by_location. rewrite Hl. cbn [bind]. rewrite Hn, shifted_all by (split; discriminate). cbn [bind select VariableModel.resolve flat2 nv_lead nv_at].
    destruct (isin_node_not loc Hl) as (-> & -> & ->). cbn [orb].
    assert (X : existsb (fun o => match o with OIn LNaN => true | _ => false end) (map offs_of ps) = false).
    { clear. induction ps as [|x l IH]; [reflexivity|]. cbn [map existsb]. rewrite IH.
      unfold offs_of. destruct x as [p [[[r c] [ll mm]]|]]; reflexivity. }
    rewrite X, combine_same, mapM_map. apply mapM_pure. intros x Hx.
    rewrite Forall_forall in HP. specialize (HP x Hx). clear - HP Hr Hc.
    destruct x as [p [[[r c] [l m]]|]]; unfold WellPlaced, shifted_to, offs_of, node_expected in *; cbn [snd fst low_extra Nat.add] in *; [|reflexivity].
    destruct HP as (Hcell & _). rewrite (vbi_cell var r c) by (rewrite Hr, Hc; exact Hcell). cbn [bind].
    rewrite node_point_expected. reflexivity.
  Qed.

  Lemma run_center p : isin loc center_names = true -> face_padding (g_pads g) = Ok p -> known2 p ->
    (a_r var >= low_extra (fst p) + (a_r (g_lon g) - 1))%nat -> (a_c var >= low_extra (snd p) + (a_c (g_lon g) - 1))%nat ->
    run = Ok (map (center_expected var p) ps).
  Proof.
    intros Hl Hp Hk Hr Hc. destruct (located_ && opt_all (map where_ ps)) eqn:E.
    { apply run_outside; [|exact E]. intros x Hx. unfold center_expected. rewrite Hx. reflexivity. }
    unfold run, interpolate. rewrite E, (offsets_placed g ps HS HP). cbn [bind].
    unfold padding_by_location. rewrite (isin_center_not loc Hl), Hl. rewrite Hp. cbn [bind].
    rewrite shifted_all by exact Hk. cbn [bind select VariableModel.resolve flat2 nv_lead nv_at]. f_equal. rewrite map_map. apply map_ext_in. intros x Hx.
    rewrite Forall_forall in HP. specialize (HP x Hx). clear - HP Hr Hc.
    destruct x as [q [[[r c] [l m]]|]]; unfold WellPlaced, shifted_to, center_expected in *; cbn [snd fst] in *; [|reflexivity].
    destruct HP as ((H1 & H2) & _). unfold variable_at. cbn [fst snd]. rewrite !clip_in by lia. reflexivity.
  Qed.

  Definition alpha_of (e1 : bool) (x : located) : alpha_row :=
    match snd x with None => AMask | Some (_, _, (l, m)) => let a := if e1 then l else m in ARow [1 - a; a] end.
  Definition edge_off (e1 : bool) : Z * Z := if e1 then (0, 1)%Z else (1, 0)%Z.
  Definition row_of (e1 : bool) (p cp : pad * pad) (x : located) : list rd :=
    match shifted_to p x, shifted_to cp x with
    | Some i, Some c => edge_pair g var i c (edge_off e1)
    | _, _ => masked_pair
    end.
  Lemma run_edge (e1 : bool) p cp : isin loc (if e1 then edge1_names else edge2_names) = true ->
    (if e1 then edge1_padding (g_pads g) else edge2_padding (g_pads g)) = Ok p -> known2 p ->
    face_padding (g_pads g) = Ok cp -> known2 cp -> located_ && opt_all (map where_ ps) = false ->
    run = compute_interpolant (g_behavior g) (map (row_of e1 p cp) ps) 2 (map (alpha_of e1) ps).
  Proof.
    intros Hl Hp Hk Hcp Hkc E. unfold run, interpolate. rewrite E, (offsets_placed g ps HS HP). cbn [bind].
    assert (P : padding_by_location (g_pads g) loc = Ok (Some p) /\ isin loc center_names = false /\
                isin loc edge1_names || isin loc edge2_names = true /\ isin loc edge1_names = e1).
    { unfold padding_by_location. destruct e1.
      - destruct (isin_edge1_not loc Hl) as (-> & -> & ->). rewrite Hl, Hp. auto.
      - destruct (isin_edge2_not loc Hl) as (-> & -> & ->). rewrite Hl, Hp. auto. }
    destruct P as (-> & -> & -> & ->). cbn [bind]. rewrite shifted_all by exact Hk.
    cbn [bind select VariableModel.resolve flat2 nv_lead nv_at]. rewrite Hcp. cbn [bind]. rewrite shifted_all by exact Hkc. cbn [bind].
    rewrite combine_same, !map_map.
    assert (X : forall rows rows' al al', rows = rows' -> al = al' ->
      compute_interpolant (g_behavior g) rows 2 al = compute_interpolant (g_behavior g) rows' 2 al') by (intros; congruence).
    apply X; apply map_ext; intros x.
    - unfold row_of, edge_off. destruct (shifted_to p x), (shifted_to cp x); reflexivity.
    - unfold alpha_of, offs_of. destruct x as [q [[[r c] [l m]]|]]; reflexivity.
  Qed.

  Lemma center_flag_at i j : (forall k m, g_cmask g = Some (k, m) -> (i < a_r m)%nat /\ (j < a_c m)%nat) ->
    center_flag g (Z.of_nat i, Z.of_nat j) = land g i j.
  Proof.
    intros H. unfold center_flag, land. destruct (g_cmask g) as [[k m]|]; [|reflexivity].
    destruct (H k m eq_refl). unfold variable_at. cbn [fst snd]. rewrite !clip_in by assumption. reflexivity.
  Qed.
  Lemma center_flag_clip i j : center_flag g (i, j) =
    land g (clip (fst (cm_shape g)) i) (clip (snd (cm_shape g)) j).
  Proof. unfold center_flag, land, cm_shape. destruct (g_cmask g) as [[k m]|]; reflexivity. Qed.

  Lemma edge_zero (e1 : bool) p cp : known2 p -> known2 cp -> MaskCovers g cp ->
    (a_r var >= low_extra (fst p) + (a_r (g_lon g) - 1) + (if e1 then 0 else 1))%nat ->
    (a_c var >= low_extra (snd p) + (a_c (g_lon g) - 1) + (if e1 then 1 else 0))%nat ->
    g_behavior g = BZero ->
    compute_interpolant (g_behavior g) (map (row_of e1 p cp) ps) 2 (map (alpha_of e1) ps) =
    Ok (map ((if e1 then edge1_expected else edge2_expected) g var p cp) ps).
  Proof.
    intros Hk Hkc HM Hr Hc Hb. rewrite Hb. unfold compute_interpolant. f_equal. rewrite combine_same, map_map.
    apply map_ext_in. intros x Hx. cbn [fst snd]. rewrite Forall_forall in HP. specialize (HP x Hx).
    destruct x as [q [[[r c] [l m]]|]]; unfold alpha_of, row_of, shifted_to; cbn [snd]; [|destruct e1; reflexivity].
    unfold WellPlaced in HP. cbn [snd] in HP. destruct HP as ((H1 & H2) & _). clear HP HS.
    set (i := (low_extra (fst p) + r)%nat) in *. set (j := (low_extra (snd p) + c)%nat) in *.
    set (ci := (low_extra (fst cp) + r)%nat) in *. set (cj := (low_extra (snd cp) + c)%nat) in *.
    assert (Hi : (i < a_r var)%nat) by (unfold i; lia). assert (Hj : (j < a_c var)%nat) by (unfold j; lia).
    assert (B : g_cmask g = None \/ ((ci < fst (cm_shape g))%nat /\ (cj < snd (cm_shape g))%nat)).
    { unfold MaskCovers, cm_shape in *. destruct (g_cmask g) as [[k mm]|]; [right|left; reflexivity]. cbn [fst snd]. unfold ci, cj. lia. }
    assert (LN : forall i1 j1 i2 j2, g_cmask g = None -> land g i1 j1 = land g i2 j2) by (intros ? ? ? ? E; unfold land; rewrite E; reflexivity).
    unfold row_sum, edge_pair, edge_off. destruct e1.
    - unfold add2. cbn [fst snd]. unfold variable_at. cbn [fst snd].
      replace (Z.of_nat i + 0)%Z with (Z.of_nat i) by lia. replace (Z.of_nat j + 1)%Z with (Z.of_nat (S j)) by lia.
      replace (Z.of_nat ci + - 0)%Z with (Z.of_nat ci) by lia. replace (Z.of_nat ci + 0)%Z with (Z.of_nat ci) by lia.
      rewrite !clip_in by lia. rewrite !center_flag_clip.
      assert (E1 : land g (clip (fst (cm_shape g)) (Z.of_nat ci)) (clip (snd (cm_shape g)) (Z.of_nat cj)) = land g ci cj).
      { destruct B as [B|[B1 B2]]; [apply LN, B|]. rewrite !clip_in by assumption. reflexivity. }
      assert (E2 : land g (clip (fst (cm_shape g)) (Z.of_nat ci)) (clip (snd (cm_shape g)) (Z.of_nat cj + - (1))) = land g ci (cj - 1)).
      { destruct B as [B|[B1 B2]]; [apply LN, B|]. rewrite clip_in by assumption. f_equal. unfold clip. lia. }
      assert (E3 : land g (clip (fst (cm_shape g)) (Z.of_nat ci)) (clip (snd (cm_shape g)) (Z.of_nat cj + 1)) = land g ci (next_in (snd (cm_shape g)) cj)).
      { destruct B as [B|[B1 B2]]; [apply LN, B|]. rewrite clip_in by assumption. f_equal. unfold clip, next_in. lia. }
      rewrite E1, E2, E3. unfold edge1_expected. cbn [snd]. fold i j ci cj. f_equal.
      cbn [zero_fill map combine fst snd fold_right d_mask d_val]. unfold edge_val.
      destruct (d_mask (a_at var i j)), (d_mask (a_at var i (S j))), (xorb (land g ci cj) (land g ci (cj - 1))), (xorb (land g ci cj) (land g ci (next_in (snd (cm_shape g)) cj)));
        cbn [orb]; ring.
    - unfold add2. cbn [fst snd]. unfold variable_at. cbn [fst snd].
      replace (Z.of_nat j + 0)%Z with (Z.of_nat j) by lia. replace (Z.of_nat i + 1)%Z with (Z.of_nat (S i)) by lia.
      replace (Z.of_nat cj + - 0)%Z with (Z.of_nat cj) by lia. replace (Z.of_nat cj + 0)%Z with (Z.of_nat cj) by lia.
      rewrite !clip_in by lia. rewrite !center_flag_clip.
      assert (E1 : land g (clip (fst (cm_shape g)) (Z.of_nat ci)) (clip (snd (cm_shape g)) (Z.of_nat cj)) = land g ci cj).
      { destruct B as [B|[B1 B2]]; [apply LN, B|]. rewrite !clip_in by assumption. reflexivity. }
      assert (E2 : land g (clip (fst (cm_shape g)) (Z.of_nat ci + - (1))) (clip (snd (cm_shape g)) (Z.of_nat cj)) = land g (ci - 1) cj).
      { destruct B as [B|[B1 B2]]; [apply LN, B|]. rewrite (clip_in (snd (cm_shape g))) by assumption. f_equal. unfold clip. lia. }
      assert (E3 : land g (clip (fst (cm_shape g)) (Z.of_nat ci + 1)) (clip (snd (cm_shape g)) (Z.of_nat cj)) = land g (next_in (fst (cm_shape g)) ci) cj).
      { destruct B as [B|[B1 B2]]; [apply LN, B|]. rewrite (clip_in (snd (cm_shape g))) by assumption. f_equal. unfold clip, next_in. lia. }
      rewrite E1, E2, E3. unfold edge2_expected. cbn [snd]. fold i j ci cj. f_equal.
      cbn [zero_fill map combine fst snd fold_right d_mask d_val]. unfold edge_val.
      destruct (d_mask (a_at var i j)), (d_mask (a_at var (S i) j)), (xorb (land g ci cj) (land g (ci - 1) cj)), (xorb (land g ci cj) (land g (next_in (fst (cm_shape g)) ci) cj));
        cbn [orb]; ring.
  Qed.
End Run.
