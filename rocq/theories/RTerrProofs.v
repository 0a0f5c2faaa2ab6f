From Coq Require Import Reals String Lqa Lra Qreals.
From Verif Require Import Common CommonProofs TimeModel TimeSpec TimeProofs VariableModel VariableSpec VariableProofs VariableInterpProofs VariableAtProofs
  DepthModel DepthSpec DepthProofs WholeModel WholeSpec WholeProofs
  MaskModel GridTypeModel SGridModel SGridSpec SGridInterpModel SGridInterpSpec SGridInterpRun SGridInterpProps SWholeModel SWholeSpec SWholeProofs
  RTerrModel RTerrSpec.
Open Scope list_scope.
Open Scope nat_scope.

Lemma Rleb_true x y : Rleb x y = true <-> (x <= y)%R.
Proof. unfold Rleb. destruct (Rle_dec x y); split; auto; discriminate. Qed.
Lemma Rleb_false x y : Rleb x y = false <-> (y < x)%R.
Proof. unfold Rleb. destruct (Rle_dec x y); split; intros; try discriminate; auto; Lra.lra. Qed.

(** ** The search in a falling column *)
Lemma rdesc_tail x l : RDesc (x :: l) -> RDesc l.
Proof. intros H i j a b L Ha Hb. apply (H (S i) (S j)); auto. lia. Qed.
Lemma r_down_desc l : RDesc l -> r_down l = true.
Proof.
  induction l as [|x [|y l] IH]; intros H; [reflexivity..|]. cbn [r_down]. apply andb_true_iff. split.
  - apply Rleb_true. specialize (H 0 1 x y ltac:(lia) eq_refl eq_refl). Lra.lra.
  - apply IH. now apply rdesc_tail in H.
Qed.
Lemma r_up_desc l : RDesc l -> 2 <= length l -> r_up l = false.
Proof.
  destruct l as [|x [|y l]]; cbn [length]; intros H L; try lia. cbn [r_up]. replace (Rleb x y) with false; [reflexivity|]. symmetry. apply Rleb_false.
  apply (H 0 1); auto.
Qed.
Lemma r_digitize_desc l d : RDesc l -> 2 <= length l ->
  exists k, r_digitize d l = Ok k /\ k <= length l /\ (forall i x, i < k -> nth_error l i = Some x -> (d < x)%R) /\
    (forall i x, k <= i -> nth_error l i = Some x -> (x <= d)%R).
Proof.
  intros H L. unfold r_digitize. rewrite (r_up_desc l H L), (r_down_desc l H). eexists. split; [reflexivity|].
  assert (RN : forall i, i < length l -> nth_error (rev l) i = nth_error l (length l - 1 - i)).
  { intros i Hi. rewrite (nth_error_nth' (rev l) 0%R) by (rewrite rev_length; lia). rewrite rev_nth by lia.
    rewrite (nth_error_nth' l 0%R) by lia. do 2 f_equal. lia. }
  assert (Sp : splits (fun b => Rleb b d) (rev l)).
  { intros i j x y Lij Hx Hy Py. pose proof (nth_error_Some_lt _ _ _ Hy) as Lj. rewrite rev_length in Lj. rewrite RN in Hx, Hy by lia.
    apply Rleb_true in Py. apply Rleb_true. specialize (H (length l - 1 - j) (length l - 1 - i) y x ltac:(lia) Hy Hx). Lra.lra. }
  destruct (searchsorted_spec _ _ Sp) as (Hn & H1 & H2). rewrite rev_length in Hn. set (k := searchsorted _ _) in *.
  split; [lia|]. split.
  - intros i x Hi Hx. pose proof (nth_error_Some_lt _ _ _ Hx). apply Rleb_false. apply (H2 (length l - 1 - i)); [lia|]. rewrite RN by lia. rewrite <- Hx. f_equal. lia.
  - intros i x Hi Hx. pose proof (nth_error_Some_lt _ _ _ Hx). apply Rleb_true. apply (H1 (length l - 1 - i)); [lia|]. rewrite RN by lia. rewrite <- Hx. f_equal. lia.
Qed.
(** One point. *)
Definition seat_row (s : seat) : rrow :=
  match s with Out => (None, None) | Bed => (Some (-1)%Z, Some 1%R) | Between j w => (Some (Z.of_nat j), Some w) end.


Lemma rs_point_seats n sbc bbc d prof st : 2 <= n -> (forall l, prof = Some l -> RDesc l /\ length l = n) -> Seats sbc bbc d prof st ->
  rs_point (Z.of_nat (n - 1)) 0 sbc bbc d prof = Ok (seat_row st).
Proof.
  intros N HP St.
  assert (FS : (Z.of_nat (n - 1) =? 0)%Z = false) by (apply Z.eqb_neq; lia).
  destruct St as [|l j x y w Hx Hy B E|l x Hx B E|l x Hx B E|l y Hy B E]; [reflexivity|..]; destruct (HP l eq_refl) as (HD & HL); cbn [rs_point];
    destruct (r_digitize_desc l d HD ltac:(lia)) as (k & Ek & Lk & K1 & K2); rewrite Ek; cbn [bind]; unfold s_boundary; rewrite FS.
  - assert (k = S j) as ->.
    { destruct (Nat.lt_trichotomy k (S j)) as [L|[?|L]]; auto; exfalso.
      - specialize (K2 j x ltac:(lia) Hx). Lra.lra.
      - specialize (K1 (S j) y L Hy). Lra.lra. }
    pose proof (nth_error_Some_lt _ _ _ Hy) as Lj.
    replace (Z.of_nat (S j) - 1)%Z with (Z.of_nat j) by lia.
    replace (Z.of_nat j >=? Z.of_nat (n - 1))%Z with false by (symmetry; rewrite Z.geb_leb; apply Z.leb_gt; lia).
    replace (Z.of_nat j <? 0)%Z with false by (symmetry; apply Z.ltb_ge; lia).
    rewrite !andb_false_r. cbn [orb negb]. replace (DepthModel.clip 0 (Z.of_nat (length l) - 2) (Z.of_nat j)) with (Z.of_nat j) by (unfold DepthModel.clip; lia).
    replace (Z.of_nat j + 1)%Z with (Z.of_nat (S j)) by lia. rewrite (py_get_nat l j x Hx), (py_get_nat l (S j) y Hy). cbn [bind].
    destruct (Req_EM_T (y - x) 0); [exfalso; Lra.lra|].
    assert (W : ((d - x) / (y - x) = w)%R) by (rewrite E; field; exact n0). rewrite W.
    assert (0 < w <= 1)%R.
    { split.
      - apply Rnot_le_lt. intros L. assert (0 <= w * (y - x))%R by nra. Lra.lra.
      - apply Rnot_lt_le. intros L. assert (w * (y - x) < 1 * (y - x))%R by (apply Rmult_lt_gt_compat_neg_l; Lra.lra) || nra. Lra.lra. }
    replace (Rltb w 0) with false by (unfold Rltb; destruct (Rlt_dec w 0); auto; exfalso; Lra.lra).
    replace (Rltb 1 w) with false by (unfold Rltb; destruct (Rlt_dec 1 w); auto; exfalso; Lra.lra). reflexivity.
  - assert (k = 0) as ->. { destruct k; auto. specialize (K1 0 x ltac:(lia) Hx). exfalso. Lra.lra. }
    cbn [Z.of_nat Z.sub Z.add Z.opp Z.pos_sub]. replace (-1 >=? Z.of_nat (n - 1))%Z with false by (symmetry; rewrite Z.geb_leb; apply Z.leb_gt; lia). cbn [Z.ltb Z.compare].
    rewrite E. cbn. rewrite ?andb_false_r. cbn. replace (Q2R 1) with 1%R by (unfold Q2R; cbn; field). reflexivity.
  - assert (k = 0) as ->. { destruct k; auto. specialize (K1 0 x ltac:(lia) Hx). exfalso. Lra.lra. }
    cbn [Z.of_nat Z.sub Z.add Z.opp Z.pos_sub]. replace (-1 >=? Z.of_nat (n - 1))%Z with false by (symmetry; rewrite Z.geb_leb; apply Z.leb_gt; lia). cbn [Z.ltb Z.compare].
    destruct bbc; [|congruence|]; cbn; rewrite ?andb_false_r; cbn; reflexivity.
  - assert (k = length l) as ->. { destruct (Nat.eq_dec k (length l)); auto. specialize (K2 (length l - 1) y ltac:(lia) Hy). exfalso. Lra.lra. }
    rewrite HL. replace (Z.of_nat n - 1 >=? Z.of_nat (n - 1))%Z with true by (symmetry; rewrite Z.geb_leb; apply Z.leb_le; lia).
    replace (Z.of_nat n - 1 <? 0)%Z with false by (symmetry; apply Z.ltb_ge; lia). rewrite !andb_false_r. cbn [orb].
    destruct sbc; [|congruence|]; cbn; reflexivity.
Qed.

(** ** The water columns *)
Lemma sits_plain g loc nr nc col expct var x : Sits g loc nr nc col expct -> expct var x = RMask \/ exists v, expct var x = RVal v.
Proof.
  destruct x as [p [[[r c] [l m]]|]]; destruct 1; auto.
  - unfold node_expected. cbn [snd]. destruct (_ && _); eauto.
  - unfold edge1_expected. cbn [snd]. eauto.
  - unfold edge2_expected. cbn [snd]. eauto.
  - unfold center_expected. cbn [snd]. destruct (d_mask _); eauto.
Qed.
Lemma all_some_map {A B} (f : A -> B) l : all_some (map (fun x => Some (f x)) l) = Some (map f l).
Proof. induction l as [|x l IH]; [reflexivity|]. cbn. now rewrite IH. Qed.
Lemma all_none_map {A B} (l : list A) : l <> [] -> all_some (map (fun _ => @None B) l) = None.
Proof. destruct l; [congruence|reflexivity]. Qed.
Lemma column_water vt hc cu h z prof : cu <> [] -> (vt = 1 \/ vt = 2)%Z -> Water vt (Q2R hc) (map (fun sc => (Q2R (fst sc), Q2R (snd sc))) cu) h z prof ->
  (h = RMask \/ exists v, h = RVal v) -> (z = RMask \/ exists v, z = RVal v) ->
  r_column vt hc cu h z = Ok prof.
Proof.
  intros Ne Hvt W Ph Pz. unfold r_column. replace ((vt =? 1) || (vt =? 2))%Z with true by (destruct Hvt; subst; reflexivity). cbn [bind].
  assert (RL : forall a b, mapM (fun sc => r_level vt (Q2R hc) a b (Q2R (fst sc)) (Q2R (snd sc))) cu =
    Ok (map (fun sc => if Req_EM_T (divisor vt (Q2R hc) a) 0 then None else Some (- level_height vt (Q2R hc) a b (Q2R (fst sc)) (Q2R (snd sc)))%R) cu)).
  { intros a b. apply mapM_pure. intros [s c] _. unfold r_level, divisor, level_height. cbn [fst snd]. destruct Hvt as [-> | ->]; cbn [Z.eqb Pos.eqb].
    - destruct (Req_EM_T a 0); [reflexivity|]. do 2 f_equal. f_equal. f_equal; [ring|]. f_equal. f_equal. f_equal. ring.
    - destruct (Req_EM_T (Q2R hc + a) 0); reflexivity. }
  destruct W as [[->| ->]|a b -> -> D|a b -> -> D].
  - reflexivity.
  - destruct Ph as [-> | (v & ->)]; reflexivity.
  - rewrite RL. cbn [bind]. destruct (Req_EM_T (divisor vt (Q2R hc) a) 0); [|contradiction]. now rewrite all_none_map.
  - rewrite RL. cbn [bind]. destruct (Req_EM_T (divisor vt (Q2R hc) a) 0); [contradiction|].
    rewrite (all_some_map (fun sc => - level_height vt (Q2R hc) a b (Q2R (fst sc)) (Q2R (snd sc)))%R). cbn [option_map]. do 2 f_equal. unfold level_depths. rewrite !map_map.
    apply map_ext. intros sc. cbn [fst snd]. ring.
Qed.
Lemma mapM_nth {A B C D} (F : A -> B -> result C) (h : D -> A) (z : D -> B) da db : forall pts,
  mapM (fun k => F (nth k (map h pts) da) (nth k (map z pts) db)) (seq 0 (length pts)) = mapM (fun s => F (h s) (z s)) pts.
Proof.
  induction pts as [|s pts IH]; [reflexivity|]. cbn [length seq mapM map nth]. rewrite <- seq_shift, mapM_map. cbn [nth]. now rewrite IH.
Qed.
Lemma zip_curve {A B} (a : list A) : forall (b : list B), length a = length b -> zipM (fun s c => Ok (s, c)) a b = Ok (combine a b).
Proof. induction a as [|x a IH]; intros [|y b] E; try discriminate; [reflexivity|]. cbn [zipM combine]. rewrite IH by (injection E; auto). reflexivity. Qed.
Lemma combine_map {A B C D} (f : A -> C) (h : B -> D) (a : list A) : forall b, combine (map f a) (map h b) = map (fun sc => (f (fst sc), h (snd sc))) (combine a b).
Proof. induction a as [|x a IH]; intros [|y b]; cbn; auto. now rewrite IH. Qed.

Section Terrain.
  Context (g : sg) (find : R * R -> option (Z * Z)) (place_of : R * R -> option (nat * nat * (R * R))) (te : rterr) (q : Z) (ex : bool)
          (pts : list rspot).
  Context (HS : SameShape g) (HF : Finds g find place_of (map fst pts)).
  Lemma rh_ok h : Floor g te place_of h -> rh_at g find te q ex pts = Ok (map h pts) /\ forall s, h s = RMask \/ exists v, h s = RVal v.
  Proof.
    intros [col expct nr nc f m St HR]. split; [|intros s; eapply sits_plain; eauto]. unfold rh_at.
    pose proof HR as (E1 & E2 & _). rewrite E1, E2.
    apply (no_depth g find place_of (rt_hloc te) nr nc col expct (mkNvar [] (fun _ => rt_h te)) None None (fun _ _ => f) (fun _ => m) q q ex pts HS St HF); auto.
    - split; [reflexivity|]. split; [|discriminate]. intros ix t j _. exact HR.
    - intros l E. discriminate.
  Qed.
  Lemma rz_ok z : Surface g te place_of q ex z -> rz_at g find te q ex pts = Ok (map z pts) /\ forall s, z s = RMask \/ exists v, z s = RVal v.
  Proof.
    intros [h Ez H1 H2|t v nr nc loc col expct f m qz Ez St HV HT]; unfold rz_at; rewrite Ez.
    - assert (D : forall s, h s = r_const (fst s)).
      { intros s. unfold r_const. destruct (Rleb (-360) (fst (fst s))) eqn:A1; [apply Rleb_true in A1|apply Rleb_false in A1; apply H2; unfold OnEarthR; Lra.lra].
        destruct (Rleb (fst (fst s)) 360) eqn:A2; [apply Rleb_true in A2|apply Rleb_false in A2; apply H2; unfold OnEarthR; Lra.lra].
        destruct (Rleb _ (snd (fst s))) eqn:A3; [apply Rleb_true in A3|apply Rleb_false in A3; apply H2; unfold OnEarthR; Lra.lra].
        destruct (Rleb (snd (fst s)) _) eqn:A4; [apply Rleb_true in A4|apply Rleb_false in A4; apply H2; unfold OnEarthR; Lra.lra].
        cbn [andb]. apply H1. unfold OnEarthR. Lra.lra. }
      split; [f_equal; apply map_ext; auto|]. intros s. rewrite D. unfold r_const. destruct (_ && _); eauto.
    - split; [|intros s; eapply sits_plain; eauto].
      exact (no_depth g find place_of loc nr nc col expct v (Some t) None (fun u _ => f u) (fun _ => m) q qz ex pts HS St HF HV HT eq_refl None).
  Qed.
  Lemma rows_ok n sbc bbc sit : Columns g te place_of q ex n sbc bbc pts sit -> r_alphas g find te q ex sbc bbc pts = Ok (map (fun s => seat_row (sit s)) pts).
  Proof.
    intros (L1 & L2 & L3 & N & Asc & Hvt & h & z & Fl & Su & HP). destruct (rh_ok h Fl) as (Eh & Ph), (rz_ok z Su) as (Ez & Pz).
    assert (Ne : r_sw (rt_roms te) <> []) by (intros E; rewrite E in L1; cbn in L1; lia).
    unfold r_alphas. rewrite (argmax_asc _ Ne Asc), (argmin_asc _ Ne Asc). cbn [bind]. rewrite L1, (proj2 (Nat.eqb_neq n 1)) by lia.
    unfold r_profiles. rewrite Ez, Eh. cbn [bind]. unfold r_curve. rewrite L1, L3, (proj2 (Nat.eqb_neq n (n - 1))) by lia. rewrite zip_curve by congruence. cbn [bind].
    rewrite mapM_nth. set (cu := combine (r_sw (rt_roms te)) (r_Cw (rt_roms te))).
    set (colf := fun s => match r_column (r_vt (rt_roms te)) (r_hc (rt_roms te)) cu (h s) (z s) with Ok p => p | _ => None end).
    assert (Lc : length cu = n) by (unfold cu; rewrite combine_length; lia).
    assert (K : forall s, In s pts -> r_column (r_vt (rt_roms te)) (r_hc (rt_roms te)) cu (h s) (z s) = Ok (colf s) /\
      (forall l, colf s = Some l -> RDesc l /\ length l = n) /\ Seats sbc bbc (Q2R (snd s)) (colf s) (sit s)).
    { intros s Hs. destruct (HP s Hs) as (prof & W & D & St). rewrite combine_map in W. fold cu in W.
      assert (E : r_column (r_vt (rt_roms te)) (r_hc (rt_roms te)) cu (h s) (z s) = Ok prof).
      { apply column_water; auto. intros E. rewrite E in Lc. cbn in Lc. lia. }
      assert (colf s = prof) as -> by (unfold colf; rewrite E; reflexivity). split; [exact E|]. split; [|exact St].
      intros l El. split; [auto|]. inversion W as [| |a b _ _ _ Ew]; subst; try discriminate. injection El as <-. unfold level_depths. rewrite !map_length. exact Lc. }
    rewrite (mapM_pure _ colf) by (intros s Hs; apply K; auto). cbn [bind].
    rewrite <- (map_id pts) at 1. rewrite combine_same, mapM_map. cbn [fst snd]. change (Z.of_nat 0) with 0%Z.
    apply mapM_pure. intros s Hs. destruct (K s Hs) as (_ & D & St). apply (rs_point_seats n); auto.
  Qed.
End Terrain.
