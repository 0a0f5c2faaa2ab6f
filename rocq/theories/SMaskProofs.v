From Coq Require Import Reals String Lqa Lra Qreals.
From Verif Require Import Common CommonProofs TimeModel TimeSpec TimeProofs VariableModel VariableSpec VariableProofs VariableInterpProofs VariableAtProofs
  DepthModel DepthSpec DepthProofs WholeModel WholeSpec WholeProofs
  MaskModel GridTypeModel SGridModel SGridSpec SGridInterpModel SGridInterpSpec SGridInterpRun SGridInterpProps SWholeModel SWholeSpec SWholeProofs SWholeProps SMaskSpec.
Open Scope list_scope.
Open Scope nat_scope.

(** ** Cells *)
Lemma sits_cells g loc nr nc col ex var x : Sits g loc nr nc col ex -> ex var x = RMask \/ exists a, ex var x = RVal a.
Proof.
  intros St. destruct x as [p [[[r c] [l m]]|]]; [|left; eapply sits_outside; eauto].
  destruct St; unfold node_expected, edge1_expected, edge2_expected, center_expected; cbn [snd]; try (destruct (_ && _)); try (destruct (d_mask _)); eauto.
Qed.
Definition Plain (x : rcell) : Prop := x = RMask \/ exists a, x = RVal a.
Lemma plain_mix x y s : Plain x -> Plain y -> Plain (rmix x y s).
Proof. intros [->|(a & ->)] [->|(b & ->)]; cbn; unfold Plain; eauto. Qed.
Lemma blend_mix x y s s' : Plain x -> Plain y -> s = s' -> Blend x y s' (rmix x y s).
Proof.
  intros [->|(a & ->)] [->|(b & ->)] <-; cbn [rmix]; unfold Blend; auto. right. exists a, b. split; [reflexivity|]. split; [reflexivity|]. f_equal. ring.
Qed.
Lemma share t0 t1 q al : (t0 < t1)%Z -> (inject_Z t0 + al * (inject_Z t1 - inject_Z t0) == inject_Z q)%Q -> Q2R al = ((IZR q - IZR t0) / (IZR t1 - IZR t0))%R.
Proof.
  intros L E. apply Qeq_eqR in E. rewrite Q2R_plus, Q2R_mult, Q2R_minus in E.
  assert (I : forall x, Q2R (inject_Z x) = IZR x) by (intros x; unfold Q2R, inject_Z; cbn; field). rewrite !I in E.
  assert (IZR t0 < IZR t1)%R by (apply IZR_lt; lia). rewrite <- E. field. lra.
Qed.
Lemma share_depth x y z al : ~ (x == y)%Q -> (z == x + al * (y - x))%Q -> Q2R al = ((Q2R z - Q2R x) / (Q2R y - Q2R x))%R.
Proof.
  intros N E. apply Qeq_eqR in E. rewrite Q2R_plus, Q2R_mult, Q2R_minus in E. rewrite E. field. intros H. apply N. apply eqR_Qeq. lra.
Qed.

Lemma forall2_nth {A B} (P : A -> B -> Prop) l : forall l', length l = length l' -> (forall k a b, nth_error l k = Some a -> nth_error l' k = Some b -> P a b) -> Forall2 P l l'.
Proof. induction l as [|a l IH]; intros [|b l'] L H; try discriminate; constructor; [apply (H 0); reflexivity|]. apply IH; [now injection L|]. intros k. apply (H (S k)). Qed.
Lemma forall2_len {A B} (P : A -> B -> Prop) l l' : Forall2 P l l' -> length l = length l'.
Proof. induction 1; cbn; auto. Qed.
Lemma nth_forall2 {A B} (P : A -> B -> Prop) l l' k a b : Forall2 P l l' -> nth_error l k = Some a -> nth_error l' k = Some b -> P a b.
Proof. intros F. revert k. induction F; intros [|k] Ha Hb; try discriminate; cbn in *; [congruence|eauto]. Qed.

(** ** Time *)
Lemma a_time_used t q q' ex (val : list Z -> result (answer rcell)) (b : bool) (G : Z -> list rcell) :
  StrictlyIncreasing (t_data t) -> t_data t <> [] -> TimeAsked (t_data t) ex q q' ->
  (forall k tk, nth_error (t_data t) k = Some tk -> val [Z.of_nat k] = Ok (shape_as b (G tk))) ->
  val [(-1)%Z] = val [Z.of_nat (length (t_data t) - 1)] ->
  exists t0 t1 al, (t0 = t1 /\ Alone (t_data t) ex q t0 \/ Around (t_data t) q t0 t1 /\ (t0 < t1)%Z /\ (inject_Z t0 + al * (inject_Z t1 - inject_Z t0) == inject_Z q)%Q) /\
    a_time rlerp t q ex val [] = Ok (shape_as b (lerp_list rlerp (G t0) (G t1) al)).
Proof.
  intros SI Ne TA V L. destruct (nonempty_ends _ Ne) as (a & z & Ha & Hz). set (n := length (t_data t)) in *.
  assert (Hn : 0 < n) by (unfold n; destruct (t_data t); [congruence|cbn; lia]).
  pose proof (V _ _ Ha) as V0. pose proof (V _ _ Hz) as Vz. rewrite <- L in Vz.
  unfold a_time. rewrite (min_time_first t a Ha), (max_time_last t z Hz). cbn [bind app].
  assert (AA : forall u, Alone (t_data t) ex q u -> forall o, o = Ok (shape_as b (G u)) ->
    exists t0 t1 al, (t0 = t1 /\ Alone (t_data t) ex q t0 \/ Around (t_data t) q t0 t1 /\ (t0 < t1)%Z /\ (inject_Z t0 + al * (inject_Z t1 - inject_Z t0) == inject_Z q)%Q) /\
      o = Ok (shape_as b (lerp_list rlerp (G t0) (G t1) al))).
  { intros u Al o ->. exists u, u, 0%Q. split; [left; auto|]. now rewrite lerp_list_same. }
  destruct (Nat.eq_dec n 1) as [E1|N1].
  - assert (z = a) as ->. { replace (n - 1) with 0 in Hz by lia. congruence. }
    apply (AA a); [left; auto|].
    destruct (_ || _); [exact V0|]. destruct (_ || _); [exact Vz|].
    rewrite (index_of_single t q false E1). cbn [bind]. change (Z.of_nat 0 - 1)%Z with (-1)%Z. rewrite Vz. cbn [bind]. rewrite V0. cbn [bind].
    rewrite (interp_alpha_single t q ex E1). cbn [bind]. now rewrite lerp_one_shape, lerp_list_same.
  - assert (Hlt : (a < z)%Z) by (apply (SI 0 (n - 1)); auto; lia).
    destruct TA as [((a' & b' & Ha' & Hb' & B) & ->)|[(a' & -> & Ha' & Lt & ->)|[(b' & -> & Hb' & Lt & ->)|(E1 & _)]]].
    + rewrite Ha in Ha'. injection Ha' as <-. fold n in Hb'. rewrite Hz in Hb'. injection Hb' as <-.
      destruct (Z.eqb_spec q a) as [->|Na]; [apply (AA a); [right; left; auto|exact V0]|]. cbn [orb]. replace (ex && (q <? a)%Z) with false by (destruct ex; cbn; symmetry; auto; apply Z.ltb_ge; lia).
      destruct (Z.eqb_spec q z) as [->|Nz]; [apply (AA z); [right; right; auto|exact Vz]|]. cbn [orb]. replace (ex && (q >? z)%Z) with false by (destruct ex; cbn; symmetry; auto; rewrite Z.gtb_ltb; apply Z.ltb_ge; lia).
      assert (IR : InRange (t_data t) q) by (exists a, z; auto).
      destruct (interp_alpha_bracket t q false SI N1 IR) as (i & al & Hi & _ & _ & C).
      destruct (interp_alpha_bracket t q ex SI N1 IR) as (i' & al' & Hi' & Hal & _ & C').
      destruct C as [(_ & H0 & _)|(k & t0 & t1 & -> & H0 & H1 & Hq & _)]; [rewrite Ha in H0; congruence|].
      destruct C' as [(_ & H0' & _)|(k' & u0 & u1 & -> & H0' & H1' & Hq' & Eq & _)]; [rewrite Ha in H0'; congruence|].
      assert (k' = k) as ->.
      { assert (X : forall i j x y x' y', nth_error (t_data t) (S i) = Some y -> nth_error (t_data t) j = Some x' -> i < j -> (x < q <= y)%Z -> (x' < q <= y')%Z -> False).
        { intros i j x y x' y' Hy Hx' Lij A B'. destruct (Nat.eq_dec (S i) j) as [<-|]; [rewrite Hy in Hx'; injection Hx' as ->; lia|].
          specialize (SI (S i) j y x' ltac:(lia) Hy Hx'). lia. }
        destruct (Nat.lt_trichotomy k k') as [l|[?|l]]; auto; exfalso; [apply (X k k' t0 t1 u0 u1)|apply (X k' k u0 u1 t0 t1)]; auto. }
      rewrite H0 in H0'. injection H0' as <-. rewrite H1 in H1'. injection H1' as <-.
      exists t0, t1, al'. split.
      * right. split; [|split; [lia|exact Eq]]. exists k. fold n. rewrite Hz. repeat split; auto; try lia. congruence.
      * rewrite Hi. cbn [bind]. replace (Z.of_nat (S k) - 1)%Z with (Z.of_nat k) by lia. rewrite (V k t0 H0). cbn [bind]. rewrite (V (S k) t1 H1). cbn [bind].
        rewrite Hal. cbn [bind]. apply lerp_one_shape.
    + rewrite Ha in Ha'. injection Ha' as <-. apply (AA a); [right; left; auto|]. apply Z.ltb_lt in Lt. rewrite Lt, orb_true_r. exact V0.
    + fold n in Hb'. rewrite Hz in Hb'. injection Hb' as <-. apply (AA z); [right; right; auto|]. replace (q =? a)%Z with false by (symmetry; apply Z.eqb_neq; lia). replace (q <? a)%Z with false by (symmetry; apply Z.ltb_ge; lia).
      cbn [andb orb]. rewrite Z.gtb_ltb. apply Z.ltb_lt in Lt. rewrite Lt, orb_true_r. exact Vz.
    + contradiction.
Qed.

(** ** Composed *)
Section Composed.
  Context (g : sg) (find : R * R -> option (Z * Z)) (place_of : R * R -> option (nat * nat * (R * R))) (loc : string) (nr nc : nat)
          (col : bool) (expct : arr rd -> located -> rcell) (v : nvar) (time : option time_obj) (n : option nat)
          (d : Z -> nat -> arr rd) (q q' : Z) (ex : bool) (pts : list rspot).
  Context (HS : SameShape g) (St : Sits g loc nr nc col expct) (HF : Finds g find place_of (map fst pts))
          (HV : Stores v (option_map t_data time) n nr nc d) (HT : TimeOk (option_map t_data time) ex q q').
  Definition cell_at (u : Z) (j : nat) (s : rspot) : rcell := expct (d u j) (spot_in place_of s).
  Lemma cell_plain u j s : Plain (cell_at u j s).
  Proof. eapply sits_cells; eauto. Qed.
  Lemma finds_in ps : incl ps pts -> Finds g find place_of (map fst ps).
  Proof. intros I p Hp. apply HF. apply in_map_iff in Hp as (s & <- & Hs). apply in_map. auto. Qed.
  Lemma leaf_in ps sl ix u j : incl ps pts -> VariableModel.resolve (nv_lead v) sl = Ok ix -> SlotAt (option_map t_data time) n ix u j ->
    stag_xy g find loc v ps sl = Ok (shape_as (lost find ps || col) (map (cell_at u j) ps)).
  Proof.
    intros I Hr Sl. destruct HV as (_ & HR). destruct (HR ix u j Sl) as (Ea & Rr & Rc).
    assert (RD : Reads (d u j) nr nc (fun a b => d_val (a_at (d u j) a b)) (fun a b => d_mask (a_at (d u j) a b))) by (split; [auto|]; split; auto).
    rewrite (stag_leaf g find place_of loc nr nc col expct v ps sl ix (fun a b => d_val (a_at (d u j) a b)) (fun a b => d_mask (a_at (d u j) a b)) HS St (finds_in ps I) Hr) by (rewrite Ea; exact RD).
    f_equal. f_equal. apply map_ext. intros s. symmetry. exact (reads_snap (d u j) nr nc _ _ g loc col expct _ RD St).
  Qed.
  Lemma lost_missing ps : incl ps pts -> lost find ps = true -> forall u j s, In s ps -> cell_at u j s = RMask.
  Proof.
    intros I L u j s Hs. unfold cell_at, spot_in. destruct (HF (fst s)) as [E _]; [apply in_map; auto|].
    unfold lost, opt_all in L. rewrite forallb_forall in L. specialize (L (find (fst s)) ltac:(now apply (in_map (fun p : rspot => find (fst p))))).
    destruct (find (fst s)); [discriminate|]. unfold where_ in E. cbn [snd] in E. destruct (place_of (fst s)) as [[[r c] ?]|]; [discriminate|]. eapply sits_outside; eauto.
  Qed.
  Definition InSlot (sl : list Z) (u : Z) : Prop :=
    match time with Some t => exists k, nth_error (t_data t) k = Some u /\ (sl = [Z.of_nat k] \/ (sl = [(-1)%Z] /\ k = length (t_data t) - 1)) | None => sl = [] end.

  (** From the answers of the time slices to that of the question. *)
  Lemma over_times {X} (xs : list X) (row : Z -> X -> rcell) b val : (forall u x, In x xs -> Plain (row u x)) ->
    (forall sl u, InSlot sl u -> val sl = Ok (shape_as b (map (row u) xs))) ->
    exists cs, (match time with Some t => a_time rlerp t q ex val [] | None => val [] end) = Ok (shape_as b cs) /\
      Forall2 (fun x c => OverTime (option_map t_data time) ex q (fun u => row u x) c) xs cs.
  Proof.
    intros Pl V. unfold InSlot in V. destruct time as [t|] eqn:Et in V |- *.
    - destruct (HT (t_data t)) as (SI & Ne & TA); [now rewrite Et|].
      assert (0 < length (t_data t)) by (destruct (t_data t); [congruence|cbn; lia]).
      destruct (a_time_used t q q' ex val b (fun u => map (row u) xs) SI Ne TA) as (t0 & t1 & al & C & E).
      + intros k tk Hk. apply V. eauto.
      + destruct (nth_error_lt_Some (t_data t) (length (t_data t) - 1)) as [z Hz]; [lia|]. rewrite !(V _ z); eauto.
      + rewrite E. eexists. split; [reflexivity|]. rewrite lerp_list_map. cbn [option_map OverTime].
        clear E V. induction xs as [|x xs IH]; [constructor|]. cbn [map]. constructor; [|apply IH; intros; apply Pl; now right].
        destruct C as [(<- & Al)|(Ar & Lt & Eq)]; [left; exists t0; split; [exact Al|apply rlerp_same]|]. right. exists t0, t1. split; [exact Ar|].
        rewrite rlerp_mix. apply blend_mix; try (apply Pl; now left). now apply share.
    - cbn [option_map OverTime]. rewrite (V [] q eq_refl). eexists. split; [reflexivity|]. clear V. induction xs as [|x xs IH]; constructor; auto. apply IH. intros; apply Pl; now right.
  Qed.

  Lemma no_levels depth : n = None -> exists cs,
    stag_at g find loc (order_of (some time) false GStructured) v (lead_shape nr nc time) time depth q ex pts = Ok cs /\
    Forall2 (fun s c => OverTime (option_map t_data time) ex q (fun u => cell_at u 0 s) c) pts cs.
  Proof.
    intros Hn. destruct (over_times pts (fun u => cell_at u 0) (lost find pts || col) (stag_xy g find loc v pts)) as (cs & E & F).
    - intros. apply cell_plain.
    - intros sl u Sl. pose proof HV as (HL & _). rewrite Hn in HL. unfold InSlot in Sl. destruct time as [t|] eqn:Et in Sl, HL |- *; cbn [option_map app] in HL.
      + destruct Sl as (k & Hk & C). pose proof (nth_error_Some_lt _ _ _ Hk). apply (leaf_in pts _ [k]); [apply incl_refl| |rewrite Et, Hn; exists k; auto].
        rewrite HL. destruct C as [->|(-> & ->)]; cbn [VariableModel.resolve]; [rewrite py_index_nat by auto|rewrite py_index_last by lia]; reflexivity.
      + subst sl. apply (leaf_in pts [] []); [apply incl_refl|now rewrite HL|now rewrite Et, Hn].
    - exists cs. split; [|exact F]. unfold stag_at, a_value, lead_shape. destruct time as [t|]; cbn [some app] in *.
      + change (a_at_nomem rlerp rmix RMask RNaN (order_of true false GStructured) [length (t_data t); nr; nc] (Some t) depth q ex (stag_xy g find loc v) pts)
          with (a_time rlerp t q ex (stag_xy g find loc v pts) []). rewrite E. cbn [bind]. destruct (_ || _); reflexivity.
      + change (order_of false false GStructured) with (horizontal GStructured). cbn [horizontal a_at_nomem]. rewrite E. cbn [bind]. destruct (_ || _); reflexivity.
  Qed.

  Section Depth.
    Context (nd : nat) (Hn : n = Some nd) (dv : aview rspot R) (idxs : list (option Z)) (alphas : list R).
    Context (HA : av_alphas dv pts = Ok (idxs, alphas)) (Hli : length idxs = length pts) (Hla : length alphas = length pts).
    Let group i := where_eq 0 idxs i.
    Lemma leaf_deep sl u ps i : incl ps pts -> (-1 <= i < Z.of_nat nd)%Z -> 0 < nd -> InSlot sl u ->
      stag_xy g find loc v ps (sl ++ [i]) = Ok (shape_as (lost find ps || col) (map (cell_at u (py_level nd i)) ps)).
    Proof.
      intros I B P Sl. destruct (py_level_ok pts nd idxs alphas Hli Hla i B P) as (Ei & Li). pose proof HV as (HL & _). rewrite Hn in HL. unfold InSlot in Sl. destruct time as [t|] eqn:Et in HL, Sl |- *; cbn [option_map app] in *.
      - destruct Sl as (k & Hk & C). pose proof (nth_error_Some_lt _ _ _ Hk) as Lk.
        assert (Rs : VariableModel.resolve (nv_lead v) (sl ++ [i]) = Ok [k; py_level nd i]).
        { rewrite HL. destruct C as [->|(-> & ->)]; cbn [app VariableModel.resolve]; [rewrite py_index_nat by auto|rewrite py_index_last by lia]; rewrite Ei; reflexivity. }
        apply (leaf_in ps _ [k; py_level nd i]); auto. rewrite Et, Hn. exists k. auto.
      - subst sl. apply (leaf_in ps _ [py_level nd i]); auto; [|rewrite Et, Hn; cbn; auto]. rewrite HL. cbn [app VariableModel.resolve]. rewrite Ei. reflexivity.
    Qed.
    Lemma rows_as (row : Z -> nat -> rcell) : rows_at idxs row = map (fun ki => match snd ki with None => RMask | Some i => row i (fst ki) end) (combine (seq 0 (length idxs)) idxs).
    Proof. reflexivity. Qed.
    (** One time slice to all. *)
    Lemma deep_times (row : Z -> Z -> nat -> rcell) : (forall u i k, In (k, Some i) (combine (seq 0 (length idxs)) idxs) -> Plain (row u i k)) ->
      (forall sl u, InSlot sl u -> a_depth rmix RMask RNaN nd (stag_xy g find loc v) sl pts idxs alphas (av_layers dv) = Ok (Vec (rows_at idxs (row u)))) ->
      exists cs, stag_at g find loc (order_of (some time) true GStructured) v (deep_shape nr nc time nd) time (Some dv) q ex pts = Ok cs /\
        Forall2 (fun ki c => OverTime (option_map t_data time) ex q (fun u => match snd ki with None => RMask | Some i => row u i (fst ki) end) c) (combine (seq 0 (length idxs)) idxs) cs.
    Proof.
      intros Pl HD.
      destruct (over_times (combine (seq 0 (length idxs)) idxs) (fun u ki => match snd ki with None => RMask | Some i => row u i (fst ki) end) false
        (fun sl => a_depth rmix RMask RNaN nd (stag_xy g find loc v) sl pts idxs alphas (av_layers dv))) as (cs & E & F).
      - intros u [k [i|]] I; cbn [fst snd]; [now apply Pl|now left].
      - exact HD.
      - exists cs. split; [|exact F]. unfold stag_at, a_value, deep_shape. destruct time as [t|]; cbn [some app] in *.
        + change (a_at_nomem rlerp rmix RMask RNaN (order_of true true GStructured) [length (t_data t); nd; nr; nc] (Some t) (Some dv) q ex (stag_xy g find loc v) pts)
            with (a_time rlerp t q ex (fun sl => do ia <- av_alphas dv pts; a_depth rmix RMask RNaN nd (stag_xy g find loc v) sl pts (fst ia) (snd ia) (av_layers dv)) []).
          rewrite HA. cbn [bind fst snd]. rewrite E. reflexivity.
        + change (a_at_nomem rlerp rmix RMask RNaN (order_of false true GStructured) [nd; nr; nc] None (Some dv) q ex (stag_xy g find loc v) pts)
            with (do ia <- av_alphas dv pts; a_depth rmix RMask RNaN nd (stag_xy g find loc v) [] pts (fst ia) (snd ia) (av_layers dv)).
          rewrite HA. cbn [bind fst snd]. rewrite E. reflexivity.
    Qed.
    Definition levels_of (b : bool) (u : Z) (i : Z) (k : nat) : rcell :=
      match source pts idxs b i k, nth_error alphas k with
      | Some p, Some a => rmix (cell_at u (py_level nd i) p) (cell_at u (py_level nd (i + 1)) p) a
      | _, _ => RNaN
      end.
    Definition layer_of (u : Z) (i : Z) (k : nat) : rcell :=
      match nth_error pts k with Some p => cell_at u (py_level nd i) p | None => RNaN end.
    Lemma slice_levels sl u : av_layers dv <> nd -> (forall i, In (Some i) idxs -> (-1 <= i < Z.of_nat nd - 1)%Z) -> InSlot sl u ->
      a_depth rmix RMask RNaN nd (stag_xy g find loc v) sl pts idxs alphas (av_layers dv) = Ok (Vec (rows_at idxs (levels_of col u))).
    Proof.
      intros Hl Hi Sl. apply (a_depth_levels nd _ sl pts idxs alphas Hli Hla); auto. intros i Ii. specialize (Hi i Ii). split; [lia|].
      fold (group i). set (ps := gather pts (group i)). assert (I : incl ps pts) by (intros x; apply gather_in).
      rewrite (leaf_deep sl u ps (i + 1)), (leaf_deep sl u ps i) by (auto; lia). eexists _, _. split; [reflexivity|]. split; [reflexivity|].
      assert (HG : forall k, In k (group i) -> exists p a, nth_error pts k = Some p /\ nth_error alphas k = Some a).
      { intros k Hk. destruct (group_pt pts idxs alphas Hli Hla i k Hk) as (p & a & ? & ? & _). eauto. }
      assert (Vec_ : lerp_zip rmix (map (cell_at u (py_level nd i)) ps) (map (cell_at u (py_level nd (i + 1))) ps) (gather alphas (group i)) = map (levels_of false u i) (group i)).
      { unfold ps. rewrite (zip_group pts alphas) by exact HG. reflexivity. }
      assert (Col_ : forall s, hd_error ps = Some s ->
        map (rmix (cell_at u (py_level nd i) s) (cell_at u (py_level nd (i + 1)) s)) (gather alphas (group i)) = map (levels_of true u i) (group i)).
      { intros s Es. rewrite (map_group pts alphas _ RNaN) by exact HG. apply map_ext. intros k. unfold levels_of. cbn [source]. unfold first. fold (group i). fold ps. now rewrite Es. }
      assert (E0 : ps = [] -> group i = []).
      { intros Ep. destruct (group i) as [|k l] eqn:Eg; [reflexivity|]. exfalso. destruct (HG k (or_introl eq_refl)) as (p & a & Hp & _).
        unfold ps in Ep. cbn [gather flat_map] in Ep. rewrite Hp in Ep. discriminate. }
      destruct col eqn:Ec in |- *.
      - rewrite orb_true_r. cbn [shape_as]. destruct ps as [|s l] eqn:Ep.
        + cbn [map lerp_alphas]. rewrite E0 by auto. reflexivity.
        + cbn [map lerp_alphas]. f_equal. now apply Col_.
      - rewrite orb_false_r. destruct (lost find ps) eqn:EL; cbn [shape_as].
        + pose proof (lost_missing ps I EL) as LM. destruct ps as [|s l] eqn:Ep.
          * cbn [map lerp_alphas]. rewrite E0 by auto. reflexivity.
          * cbn [map lerp_alphas]. f_equal. rewrite (map_group pts alphas _ RNaN) by exact HG. apply map_ext_in. intros k Hk.
            destruct (HG k Hk) as (p & a & Hp & Ha). unfold levels_of. cbn [source]. unfold own. rewrite Hp, Ha, (LM u _ s) by (now left).
            assert (Ip : In p ps). { unfold ps, gather. apply in_flat_map. exists k. rewrite Hp. split; [auto|now left]. }
            rewrite (LM u _ p) by (rewrite <- Ep; exact Ip). reflexivity.
        + cbn [lerp_alphas]. f_equal. exact Vec_.
    Qed.
    Lemma slice_layers sl u : av_layers dv = nd -> (forall i, In (Some i) idxs -> (0 <= i < Z.of_nat nd)%Z) -> InSlot sl u ->
      a_depth rmix RMask RNaN nd (stag_xy g find loc v) sl pts idxs alphas (av_layers dv) = Ok (Vec (rows_at idxs (layer_of u))).
    Proof.
      intros Hl Hi Sl. apply (a_depth_layers nd _ sl pts idxs alphas Hli Hla); auto. intros i Ii. specialize (Hi i Ii). split; [lia|].
      fold (group i). set (ps := gather pts (group i)). assert (I : incl ps pts) by (intros x; apply gather_in).
      rewrite (leaf_deep sl u ps i) by (auto; lia). eexists. split; [reflexivity|].
      assert (flat (shape_as (lost find ps || col) (map (cell_at u (py_level nd i)) ps)) = map (cell_at u (py_level nd i)) ps) as -> by (destruct (_ || _); reflexivity).
      unfold ps. rewrite (gather_map _ _ RNaN); [reflexivity|]. intros j Hj. apply (group_bound pts idxs alphas Hli Hla) in Hj. lia.
    Qed.
    (** Points instead of rows. *)
    Lemma by_points (P : rspot -> rcell -> Prop) (K : nat * option Z -> rcell -> Prop) cs :
      Forall2 K (combine (seq 0 (length idxs)) idxs) cs ->
      (forall k s c o, nth_error pts k = Some s -> nth_error idxs k = Some o -> K (k, o) c -> P s c) -> Forall2 P pts cs.
    Proof.
      intros F H. apply forall2_nth; [rewrite <- (forall2_len _ _ _ F), combine_length, seq_length; lia|]. intros k s c Hs Hc.
      destruct (nth_error_lt_Some idxs k) as [o Ho]; [pose proof (nth_error_Some_lt _ _ _ Hs); lia|]. apply (H k s c o Hs Ho).
      apply (nth_forall2 _ _ _ k _ _ F); [|exact Hc]. apply nth_combine; [|exact Ho]. pose proof (nth_error_Some_lt _ _ _ Ho).
      rewrite (nth_error_nth' _ 0) by (rewrite seq_length; lia). now rewrite seq_nth by lia.
    Qed.
  End Depth.
End Composed.
