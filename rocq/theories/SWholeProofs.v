From Coq Require Import Reals String Lqa Lra Qreals.
From Verif Require Import Common CommonProofs TimeModel TimeSpec TimeProofs VariableModel VariableSpec VariableProofs VariableInterpProofs VariableAtProofs
  DepthModel DepthSpec DepthProofs WholeModel WholeSpec WholeProofs
  MaskModel GridTypeModel SGridModel SGridSpec SGridInterpModel SGridInterpSpec SGridInterpRun SGridInterpProps SWholeModel SWholeSpec.
Open Scope list_scope.
Open Scope nat_scope.

(** ** The same program as VariableModel's when all answers are vectors *)
Section Same.
  Context {P : Type}.
  Definition vecs (r : result (list cell)) : result (answer cell) := do v <- r; Ok (Vec v).
  Lemma lerp_list_cells v0 : forall v1 a, lerp_list cell_lerp v0 v1 a = cells_lerp v0 v1 a.
  Proof. induction v0; intros [|]; cbn; intros; congruence. Qed.
  Lemma lerp_zip_cells v0 : forall v1 a, lerp_zip cell_lerp v0 v1 a = zip_lerp v0 v1 a.
  Proof. induction v0; intros [|] [|]; cbn; intros; congruence. Qed.
  Lemma same_time t q ex (val : list Z -> result (list cell)) sl :
    a_time cell_lerp t q ex (fun s => vecs (val s)) sl = vecs (time_interp t q ex val sl).
  Proof.
    unfold a_time, time_interp, vecs. destruct (min_time t); [|reflexivity]. cbn [bind]. destruct (_ || _); [reflexivity|].
    destruct (max_time t); [|reflexivity]. cbn [bind]. destruct (_ || _); [reflexivity|].
    destruct (index_of t q false); [|reflexivity]. cbn [bind]. destruct (val _); [|reflexivity]. cbn [bind]. destruct (val _); [|reflexivity]. cbn [bind].
    destruct (interp_alpha t q ex); [|reflexivity]. cbn [bind lerp_one_alpha]. now rewrite lerp_list_cells.
  Qed.
  Lemma same_layers (val : list P -> list Z -> result (list cell)) sl pts idxs us : forall values,
    a_layers (fun p s => vecs (val p s)) sl pts idxs us values = layer_loop val sl pts idxs us values.
  Proof. induction us as [|u us IH]; intros values; [reflexivity|]. cbn [a_layers layer_loop]. unfold vecs at 1. destruct (val _ _); cbn [bind flat]; auto. Qed.
  Lemma same_levels n (val : list P -> list Z -> result (list cell)) sl pts idxs al us : forall lay values,
    a_levels cell_lerp n (fun p s => vecs (val p s)) sl pts idxs al us lay values = level_loop n val sl pts idxs al us lay values.
  Proof.
    induction us as [|u us IH]; intros lay values; [reflexivity|]. cbn [a_levels level_loop]. destruct (_ =? _)%Z.
    - destruct lay; [|reflexivity]. unfold vecs at 1. destruct (val _ _); cbn [bind flat]; auto.
    - unfold vecs at 1. destruct (val _ _); cbn [bind]; [|reflexivity]. unfold vecs at 1. destruct (val _ _); cbn [bind]; [|reflexivity].
      cbn [lerp_alphas bind]. rewrite lerp_zip_cells. auto.
  Qed.
  Lemma same_depth n (val : list P -> list Z -> result (list cell)) sl pts idxs al L :
    a_depth cell_lerp CMasked CNaN n (fun p s => vecs (val p s)) sl pts idxs al L = vecs (depth_interp n val sl pts idxs al L).
  Proof.
    unfold a_depth, depth_interp. destruct (forallb _ idxs); [reflexivity|]. destruct (Nat.eqb n L).
    - now rewrite same_layers.
    - now rewrite same_levels.
  Qed.
  Lemma same_value order shape time (depth : option (depth_view (P := P))) q ex (xy : list P -> list Z -> result (list cell)) pts :
    a_value cell_lerp cell_lerp CMasked CNaN order shape time (option_map (from_view (fun x => x)) depth) q ex (fun p s => vecs (xy p s)) pts =
    match order with
    | DTime :: _ => do b <- next_is order DTime DDepth; if b then v_time time q ex (v_depth order shape depth xy) pts [] else v_time time q ex xy pts []
    | DDepth :: _ => do b <- next_is order DDepth DTime; if b then v_depth order shape depth (v_time time q ex xy) pts [] else v_depth order shape depth xy pts []
    | [] => Err IndexError
    | _ => xy pts []
    end.
  Proof.
    assert (W : forall r : result (list cell), (do a <- vecs r; Ok (flat a)) = r) by (intros [|]; reflexivity).
    assert (D : forall (val : list P -> list Z -> result (list cell)) ps sl,
      av_depth cell_lerp CMasked CNaN order shape (option_map (from_view (fun x => x)) depth) (fun p s => vecs (val p s)) ps sl = vecs (v_depth order shape depth val ps sl)).
    { intros val ps sl. unfold av_depth, v_depth. destruct depth as [dv|]; [|reflexivity]. cbn [option_map from_view av_alphas av_layers]. destruct (dv_alphas dv ps); [|reflexivity]. cbn [bind]. rewrite map_id. cbn [fst snd].
      destruct (dim_len order shape DDepth); [|reflexivity]. cbn [bind]. apply same_depth. }
    assert (T : forall (val : list P -> list Z -> result (list cell)) ps sl,
      av_time cell_lerp time q ex (fun p s => vecs (val p s)) ps sl = vecs (v_time time q ex val ps sl)).
    { intros val ps sl. unfold av_time, v_time. destruct time; [|reflexivity]. apply (same_time t q ex (val ps)). }
    assert (TE : forall (v v' : list P -> list Z -> result (answer cell)) ps sl, (forall s, v ps s = v' ps s) ->
      av_time cell_lerp time q ex v ps sl = av_time cell_lerp time q ex v' ps sl).
    { intros v v' ps sl H. unfold av_time. destruct time; [|reflexivity]. unfold a_time.
      destruct (min_time t); [|reflexivity]. cbn [bind]. destruct (_ || _); [apply H|]. destruct (max_time t); [|reflexivity]. cbn [bind].
      destruct (_ || _); [apply H|]. destruct (index_of t q false); [|reflexivity]. cbn [bind]. now rewrite !H. }
    assert (DE : forall (v v' : list P -> list Z -> result (answer cell)) ps sl, (forall ps s, v ps s = v' ps s) ->
      av_depth cell_lerp CMasked CNaN order shape (option_map (from_view (fun x => x)) depth) v ps sl = av_depth cell_lerp CMasked CNaN order shape (option_map (from_view (fun x => x)) depth) v' ps sl).
    { intros v v' ps sl H. unfold av_depth. destruct depth as [dv|]; [|reflexivity]. cbn [option_map from_view av_alphas av_layers]. destruct (dv_alphas dv ps) as [ia|]; [|reflexivity]. cbn [bind]. rewrite map_id. cbn [fst snd].
      destruct (dim_len order shape DDepth) as [n|]; [|reflexivity]. cbn [bind]. unfold a_depth. destruct (forallb _ _); [reflexivity|].
      f_equal. destruct (Nat.eqb n (dv_layers dv)).
      - generalize (map (fun o : option Z => match o with Some _ => CNaN | None => CMasked end) (fst ia)). induction (unique_unmasked (fst ia)) as [|u us IH]; intros vals; [reflexivity|].
        cbn [a_layers]. rewrite H. destruct (v' _ _); cbn [bind]; auto.
      - generalize (map (fun o : option Z => match o with Some _ => CNaN | None => CMasked end) (fst ia)). generalize (@None (list nat)).
        induction (unique_unmasked (fst ia)) as [|u us IH]; intros lay vals; [reflexivity|].
        cbn [a_levels]. destruct (_ =? _)%Z.
        + destruct lay; [|reflexivity]. rewrite H. destruct (v' _ _); cbn [bind]; auto.
        + rewrite !H. destruct (v' _ _); cbn [bind]; [|reflexivity]. destruct (v' _ _); cbn [bind]; [|reflexivity]. destruct (lerp_alphas _ _ _ _); cbn [bind]; auto. }
    unfold a_value, a_at_nomem. destruct order as [|[] o]; [reflexivity| | |apply W..].
    - destruct (next_is _ DTime DDepth) as [[]|]; cbn [bind]; [| |reflexivity].
      + rewrite (TE _ (fun p s => vecs (v_depth (DTime :: o) shape depth xy p s))), T by (intros; apply D). apply W.
      + rewrite T. apply W.
    - destruct (next_is _ DDepth DTime) as [[]|]; cbn [bind]; [| |reflexivity].
      + rewrite (DE _ (fun p s => vecs (v_time time q ex xy p s))), D by (intros; apply T). apply W.
      + rewrite D. apply W.
  Qed.
End Same.

(** ** Mixtures of real cells *)
Open Scope R_scope.
Lemma rlerp_mix x y a : rlerp x y a = rmix x y (Q2R a).
Proof. destruct x, y; reflexivity. Qed.
Lemma rlerp_same x a : rlerp x x a = x.
Proof. destruct x; cbn; auto. f_equal. ring. Qed.
(** Array [C] lies between [A] and [B]. *)
Definition Mixture (A B C : arr rd) (s : R) : Prop :=
  forall i j, d_mask (a_at A i j) = d_mask (a_at C i j) /\ d_mask (a_at B i j) = d_mask (a_at C i j) /\
    (d_mask (a_at C i j) = false -> d_val (a_at C i j) = d_val (a_at A i j) + (d_val (a_at B i j) - d_val (a_at A i j)) * s).
Lemma mix_or0 A B C s i j : Mixture A B C s -> or0 (a_at C i j) = or0 (a_at A i j) + (or0 (a_at B i j) - or0 (a_at A i j)) * s.
Proof.
  intros M. destruct (M i j) as (HA & HB & H). unfold or0. rewrite HA, HB. destruct (d_mask (a_at C i j)); [ring|]. auto.
Qed.
Lemma mix_edge A B C s i j h t : Mixture A B C s ->
  edge_val (a_at C i j) h t = edge_val (a_at A i j) h t + (edge_val (a_at B i j) h t - edge_val (a_at A i j) h t) * s.
Proof.
  intros M. destruct (M i j) as (HA & HB & H). unfold edge_val. rewrite HA, HB. destruct (d_mask (a_at C i j)); [ring|]. destruct (xorb h t); [ring|]. auto.
Qed.
Lemma sits_mix g loc nr nc col ex A B C s x : Sits g loc nr nc col ex -> Mixture A B C s -> ex C x = rmix (ex A x) (ex B x) s.
Proof.
  intros HS M. destruct x as [p [[[r c] [l m]]|]]; destruct HS; cbn [snd]; try reflexivity.
  - unfold node_expected. cbn [snd].
    destruct (M r c) as (K1 & K2 & _), (M r (S c)) as (K3 & K4 & _), (M (S r) c) as (K5 & K6 & _), (M (S r) (S c)) as (K7 & K8 & _).
    rewrite K1, K2, K3, K4, K5, K6, K7, K8. destruct (_ && _); [reflexivity|]. cbn [rmix]. f_equal.
    rewrite !(mix_or0 A B C s) by assumption. unfold bilin. ring.
  - unfold edge1_expected. cbn [snd rmix]. f_equal. rewrite !(mix_edge A B C s) by assumption. ring.
  - unfold edge2_expected. cbn [snd rmix]. f_equal. rewrite !(mix_edge A B C s) by assumption. ring.
  - unfold center_expected. cbn [snd]. destruct (M (low_extra (fst p0) + r)%nat (low_extra (snd p0) + c)%nat) as (HA & HB & HV).
    rewrite HA, HB. destruct (d_mask (a_at C _ _)); [reflexivity|]. cbn [rmix]. f_equal. auto.
Qed.
Lemma sits_outside g loc nr nc col ex var p : Sits g loc nr nc col ex -> ex var (p, None) = RMask.
Proof. destruct 1; reflexivity. Qed.
Lemma reads_snap var nr nc f m g loc col ex x : Reads var nr nc f m -> Sits g loc nr nc col ex -> ex var x = ex (snap nr nc f m) x.
Proof.
  intros (_ & _ & H) HS. rewrite (sits_mix g loc nr nc col ex (snap nr nc f m) (snap nr nc f m) var 0 x HS).
  - destruct (ex (snap nr nc f m) x); cbn; auto. f_equal. ring.
  - intros i j. destruct (H i j) as (E & V). cbn [snap a_at d_mask d_val]. rewrite E. repeat split; auto. intros Hm. rewrite V by auto. ring.
Qed.
Lemma snap_mix nr nc f0 f1 f2 m s : (forall i j, m i j = false -> f2 i j = f0 i j + (f1 i j - f0 i j) * s) ->
  Mixture (snap nr nc f0 m) (snap nr nc f1 m) (snap nr nc f2 m) s.
Proof. intros H i j. cbn [snap a_at d_mask d_val]. auto. Qed.

(** ** The grid below *)
Lemma resolve_select g pts ind l a loc sl v ix : VariableModel.resolve (nv_lead v) sl = Ok ix ->
  interpolate g pts ind l a loc (Some sl) v = interpolate g pts ind l a loc (Some []) (flat2 (nv_at v ix)).
Proof. intros H. unfold interpolate, select. cbn [flat2 nv_lead nv_at VariableModel.resolve bind]. rewrite H. cbn [bind]. reflexivity. Qed.
Definition shape_as {V} (b : bool) (l : list V) : answer V := if b then Col l else Vec l.
Definition lost (find : R * R -> option (Z * Z)) (pts : list rspot) : bool := opt_all (map (fun p : rspot => find (fst p)) pts).
Definition spot_in (place_of : R * R -> option (nat * nat * (R * R))) (s : rspot) : located := (fst s, place_of (fst s)).
Lemma stag_leaf g find place_of loc nr nc col ex v pts sl ix f m : SameShape g -> Sits g loc nr nc col ex ->
  Finds g find place_of (map fst pts) -> VariableModel.resolve (nv_lead v) sl = Ok ix -> Reads (nv_at v ix) nr nc f m ->
  stag_xy g find loc v pts sl = Ok (shape_as (lost find pts || col) (map (fun s => ex (snap nr nc f m) (spot_in place_of s)) pts)).
Proof.
  intros HS St HF Hr HR. unfold stag_xy. rewrite (resolve_select _ _ _ _ _ _ _ _ ix Hr).
  set (ps := map (spot_in place_of) pts).
  assert (E1 : map fst pts = map fst ps) by (unfold ps; rewrite map_map; apply map_ext; reflexivity).
  assert (E2 : map (fun p : rspot => find (fst p)) pts = map where_ ps).
  { unfold ps. rewrite map_map. apply map_ext_in. intros s Hs. destruct (HF (fst s)) as [H _]; [now apply in_map|]. exact H. }
  assert (HP : Forall (WellPlaced g) ps).
  { apply Forall_forall. intros x Hx. apply in_map_iff in Hx as (s & <- & Hs). apply HF. now apply in_map. }
  fold (lost find pts).
  assert (RR : interpolate g (map fst pts) (map (fun p : rspot => find (fst p)) pts) true false loc (Some []) (flat2 (nv_at v ix)) = Ok (map (ex (nv_at v ix)) ps)).
  { rewrite E1, E2. destruct HR as (R1 & R2 & _).
    destruct St; [apply c41_node_values|apply c41_edge1_values|apply c41_edge2_values|apply c41_center_values]; rewrite ?R1, ?R2; auto. }
  match goal with |- bind ?X _ = _ => change X with (interpolate g (map fst pts) (map (fun p : rspot => find (fst p)) pts) true false loc (Some []) (flat2 (nv_at v ix))) end.
  rewrite RR. cbn [bind]. f_equal.
  assert (E3 : isin loc center_names = col).
  { destruct St; [destruct (isin_node_not loc H) as (E & _); exact E|destruct (isin_edge1_not loc H) as (_ & E & _); exact E|destruct (isin_edge2_not loc H) as (_ & E & _); exact E|]; auto. }
  rewrite E3. unfold shape_as. unfold ps. rewrite map_map. f_equal.
  rewrite (map_ext_in _ (fun s => ex (snap nr nc f m) (spot_in place_of s))); [reflexivity|]. intros s _. now apply (reads_snap _ nr nc f m g loc col).
Qed.

(** ** Time *)
Open Scope nat_scope.
Lemma lerp_list_same l a : lerp_list rlerp l l a = l.
Proof. induction l; cbn; f_equal; auto using rlerp_same. Qed.
Lemma lerp_list_map {X} (f h : X -> rcell) l a : lerp_list rlerp (map f l) (map h l) a = map (fun x => rlerp (f x) (h x) a) l.
Proof. induction l; cbn; f_equal; auto. Qed.
Lemma lerp_one_shape b l l' a : lerp_one_alpha rlerp (shape_as b l) (shape_as b l') a = Ok (shape_as b (lerp_list rlerp l l' a)).
Proof. destruct b; reflexivity. Qed.
Lemma a_time_mixes t q q' ex (val : list Z -> result (answer rcell)) (b : bool) (G : Z -> list rcell) :
  StrictlyIncreasing (t_data t) -> t_data t <> [] -> TimeAsked (t_data t) ex q q' ->
  (forall k tk, nth_error (t_data t) k = Some tk -> val [Z.of_nat k] = Ok (shape_as b (G tk))) ->
  val [(-1)%Z] = val [Z.of_nat (length (t_data t) - 1)] ->
  (forall k t0 t1 al, nth_error (t_data t) k = Some t0 -> nth_error (t_data t) (S k) = Some t1 -> (t0 < q <= t1)%Z ->
     (inject_Z t0 + al * (inject_Z t1 - inject_Z t0) == inject_Z q)%Q -> G q = lerp_list rlerp (G t0) (G t1) al) ->
  a_time rlerp t q ex val [] = Ok (shape_as b (G q')).
Proof.
  intros SI Ne TA V L Mx. destruct (nonempty_ends _ Ne) as (a & z & Ha & Hz). set (n := length (t_data t)) in *.
  assert (Hn : 0 < n) by (unfold n; destruct (t_data t); [congruence|cbn; lia]).
  pose proof (V _ _ Ha) as V0. pose proof (V _ _ Hz) as Vz. rewrite <- L in Vz.
  unfold a_time. rewrite (min_time_first t a Ha), (max_time_last t z Hz). cbn [bind app].
  assert (Haz : (a <= z)%Z).
  { destruct (Nat.eq_dec n 1) as [E|E]; [replace (n - 1) with 0 in Hz by lia; rewrite Ha in Hz; injection Hz; lia|]. specialize (SI 0 (n - 1) a z ltac:(lia) Ha Hz). lia. }
  destruct (Nat.eq_dec n 1) as [E1|N1].
  - (* one sample *)
    assert (z = a) as ->. { replace (n - 1) with 0 in Hz by lia. congruence. }
    assert (q' = a) as ->.
    { destruct TA as [((a' & b' & Ha' & Hb' & B) & ->)|[(a' & _ & Ha' & _ & ->)|[(b' & _ & Hb' & _ & ->)|(_ & H1)]]]; try congruence.
      - rewrite Ha in Ha'. injection Ha' as <-. fold n in Hb'. rewrite Hz in Hb'. injection Hb' as <-. lia.
      - fold n in Hb'. congruence. }
    destruct (_ || _); [exact V0|]. destruct (_ || _); [exact Vz|].
    rewrite (index_of_single t q false E1). cbn [bind]. change (Z.of_nat 0 - 1)%Z with (-1)%Z. rewrite Vz. cbn [bind]. rewrite V0. cbn [bind].
    rewrite (interp_alpha_single t q ex E1). cbn [bind]. now rewrite lerp_one_shape, lerp_list_same.
  - assert (Hlt : (a < z)%Z) by (apply (SI 0 (n - 1)); auto; lia).
    destruct TA as [((a' & b' & Ha' & Hb' & B) & ->)|[(a' & -> & Ha' & Lt & ->)|[(b' & -> & Hb' & Lt & ->)|(E1 & _)]]].
    + rewrite Ha in Ha'. injection Ha' as <-. fold n in Hb'. rewrite Hz in Hb'. injection Hb' as <-.
      destruct (Z.eqb_spec q a) as [->|Na]; [exact V0|]. cbn [orb]. replace (ex && (q <? a)%Z) with false by (destruct ex; cbn; symmetry; auto; apply Z.ltb_ge; lia).
      destruct (Z.eqb_spec q z) as [->|Nz]; [exact Vz|]. cbn [orb]. replace (ex && (q >? z)%Z) with false by (destruct ex; cbn; symmetry; auto; rewrite Z.gtb_ltb; apply Z.ltb_ge; lia).
      assert (IR : InRange (t_data t) q) by (exists a, z; auto).
      destruct (interp_alpha_bracket t q false SI N1 IR) as (i & al & Hi & _ & _ & C).
      destruct (interp_alpha_bracket t q ex SI N1 IR) as (i' & al' & Hi' & Hal & _ & C').
      destruct C as [(_ & H0 & _)|(k & t0 & t1 & -> & H0 & H1 & Hq & _)]; [rewrite Ha in H0; congruence|].
      destruct C' as [(_ & H0' & _)|(k' & u0 & u1 & -> & H0' & H1' & Hq' & Eq & _)]; [rewrite Ha in H0'; congruence|].
      assert (k' = k) as ->.
      { assert (X : forall i j x y x' y', nth_error (t_data t) (S i) = Some y -> nth_error (t_data t) j = Some x' -> i < j -> (x < q <= y)%Z -> (x' < q <= y')%Z -> False).
        { intros i j x y x' y' Hy Hx' Lij A B'. destruct (Nat.eq_dec (S i) j) as [<-|]; [rewrite Hy in Hx'; injection Hx' as ->; lia|].
          specialize (SI (S i) j y x' ltac:(lia) Hy Hx'). lia. }
        destruct (Nat.lt_trichotomy k k') as [l|[?|l]]; auto; exfalso; [apply (X k k' t0 t1 u0 u1)|apply (X k' k u0 u1 t0 t1)]; auto. }
      rewrite H0 in H0'. injection H0' as <-. rewrite H1 in H1'. injection H1' as <-.
      rewrite Hi. cbn [bind]. replace (Z.of_nat (S k) - 1)%Z with (Z.of_nat k) by lia. rewrite (V k t0 H0). cbn [bind]. rewrite (V (S k) t1 H1). cbn [bind].
      rewrite Hal. cbn [bind]. rewrite lerp_one_shape. now rewrite (Mx k t0 t1 al' H0 H1 Hq Eq).
    + rewrite Ha in Ha'. injection Ha' as <-. apply Z.ltb_lt in Lt. rewrite Lt, orb_true_r. exact V0.
    + fold n in Hb'. rewrite Hz in Hb'. injection Hb' as <-. replace (q =? a)%Z with false by (symmetry; apply Z.eqb_neq; lia). replace (q <? a)%Z with false by (symmetry; apply Z.ltb_ge; lia).
      cbn [andb orb]. rewrite Z.gtb_ltb. apply Z.ltb_lt in Lt. rewrite Lt, orb_true_r. exact Vz.
    + contradiction.
Qed.
(** The fraction of a linear change. *)
Lemma linear_mix ts (f : Z -> R) k t0 t1 q al : RLinearInTime ts f -> nth_error ts k = Some t0 -> nth_error ts (S k) = Some t1 -> (t0 < q <= t1)%Z ->
  (inject_Z t0 + al * (inject_Z t1 - inject_Z t0) == inject_Z q)%Q -> f q = (f t0 + (f t1 - f t0) * Q2R al)%R.
Proof.
  intros Lin H0 H1 Hq E. specialize (Lin k t0 t1 q H0 H1 ltac:(lia)). apply Qeq_eqR in E. rewrite Q2R_plus, Q2R_mult, Q2R_minus in E.
  assert (I : forall x, Q2R (inject_Z x) = IZR x) by (intros x; unfold Q2R, inject_Z; cbn; field). rewrite !I in E.
  assert (D : (IZR t1 - IZR t0 <> 0)%R) by (assert (IZR t0 < IZR t1)%R by (apply IZR_lt; lia); lra).
  rewrite <- E in Lin. replace (IZR t0 + Q2R al * (IZR t1 - IZR t0) - IZR t0)%R with (Q2R al * (IZR t1 - IZR t0))%R in Lin by ring.
  rewrite <- Rmult_assoc in Lin. apply Rmult_eq_reg_r in Lin; [|exact D]. lra.
Qed.

(** ** Depth *)
Lemma nth_ext' {A} (l : list A) : forall l', (forall k, nth_error l k = nth_error l' k) -> l = l'.
Proof.
  induction l as [|x l IH]; intros [|y l'] H; auto; pose proof (H 0) as H0; cbn in H0; try discriminate. injection H0 as ->. f_equal.
  apply IH. intros k. apply (H (S k)).
Qed.
Section Rows.
  Context {P : Type} (ndim : nat) (val : list P -> list Z -> result (answer rcell))
          (slices : list Z) (pts : list P) (idxs : list (option Z)) (alphas : list R).
  Context (Hli : length idxs = length pts) (Hla : length alphas = length pts).
  Let group i := where_eq 0 idxs i.
  Lemma group_bound i k : In k (group i) -> k < length pts /\ k < length alphas.
  Proof. intros H. apply where_eq_in in H as (m & -> & Hm). apply nth_error_Some_lt in Hm. cbn [Nat.add]. rewrite Hla, <- Hli. auto. Qed.
  Lemma put_step (h : nat -> rcell) values u us vs (H : Z -> nat -> rcell) :
    length values = length pts -> (forall k, In k (group u) -> h k = H u k) ->
    (forall k, nth_error vs k = match nth_error idxs k with
                | Some (Some i) => if in_dec Z.eq_dec i us then Some (H i k) else nth_error (put_all values (group u) (map h (group u))) k
                | _ => nth_error (put_all values (group u) (map h (group u))) k end) ->
    forall k, nth_error vs k = match nth_error idxs k with
                | Some (Some i) => if in_dec Z.eq_dec i (u :: us) then Some (H i k) else nth_error values k
                | _ => nth_error values k end.
  Proof.
    intros Hlen Hh Hk k. rewrite Hk.
    assert (Hput : nth_error (put_all values (group u) (map h (group u))) k = if in_dec Nat.eq_dec k (group u) then Some (h k) else nth_error values k).
    { apply put_all_spec; [apply where_eq_nodup|]. intros j Hj. apply group_bound in Hj. lia. }
    destruct (nth_error idxs k) as [[i|]|] eqn:Ei.
    - destruct (in_dec Z.eq_dec i us) as [Hi|Hi]; destruct (in_dec Z.eq_dec i (u :: us)) as [Hi'|Hi']; auto.
      + exfalso. apply Hi'. right; auto.
      + destruct Hi' as [->|]; [|contradiction]. rewrite Hput. destruct (in_dec Nat.eq_dec k (group i)) as [Hin|Hnin]; [f_equal; auto|].
        exfalso. apply Hnin. apply where_eq_in. exists k. auto.
      + rewrite Hput. destruct (in_dec Nat.eq_dec k (group u)) as [Hin|Hnin]; auto.
        apply where_eq_in in Hin as (m & -> & Hm). cbn in Ei. rewrite Hm in Ei. injection Ei as ->. exfalso. apply Hi'. left; auto.
    - rewrite Hput. destruct (in_dec Nat.eq_dec k (group u)) as [Hin|Hnin]; auto. apply where_eq_in in Hin as (m & -> & Hm). cbn in Ei. congruence.
    - rewrite Hput. destruct (in_dec Nat.eq_dec k (group u)) as [Hin|Hnin]; auto. apply where_eq_in in Hin as (m & -> & Hm). cbn in Ei. congruence.
  Qed.
  Lemma a_levels_spec (H : Z -> nat -> rcell) us : forall lay values,
    (forall i, In i us -> i <> (Z.of_nat ndim - 1)%Z /\ exists v0 v1, val (gather pts (group i)) (slices ++ [i + 1]%Z) = Ok v1 /\
       val (gather pts (group i)) (slices ++ [i]) = Ok v0 /\ lerp_alphas rmix v0 v1 (gather alphas (group i)) = Ok (map (H i) (group i))) ->
    length values = length pts ->
    exists vs, a_levels rmix ndim val slices pts idxs alphas us lay values = Ok vs /\ length vs = length pts /\
      forall k, nth_error vs k = match nth_error idxs k with
                | Some (Some i) => if in_dec Z.eq_dec i us then Some (H i k) else nth_error values k
                | _ => nth_error values k end.
  Proof.
    induction us as [|u us IH]; intros lay values HU Hlen; cbn [a_levels].
    - exists values. split; [auto|]. split; [auto|]. intros k. destruct (nth_error idxs k) as [[i|]|]; auto.
    - destruct (HU u (or_introl eq_refl)) as (Nu & v0 & v1 & E1 & E0 & EL). rewrite (proj2 (Z.eqb_neq _ _) Nu).
      fold (group u). rewrite E1. cbn [bind]. rewrite E0. cbn [bind]. rewrite EL. cbn [bind].
      destruct (IH (Some (group u)) (put_all values (group u) (map (H u) (group u)))) as (vs & Hvs & Hvl & Hk).
      + intros i Hi. apply HU. now right.
      + now rewrite put_all_len.
      + exists vs. split; [auto|]. split; [auto|]. apply (put_step (H u) values u us vs H); auto.
  Qed.
  Lemma a_layers_spec (H : Z -> nat -> rcell) us : forall values,
    (forall i, In i us -> i <> (-1)%Z /\ exists v, val (gather pts (group i)) (slices ++ [i]) = Ok v /\ flat v = map (H i) (group i)) ->
    length values = length pts ->
    exists vs, a_layers val slices pts idxs us values = Ok vs /\ length vs = length pts /\
      forall k, nth_error vs k = match nth_error idxs k with
                | Some (Some i) => if in_dec Z.eq_dec i us then Some (H i k) else nth_error values k
                | _ => nth_error values k end.
  Proof.
    induction us as [|u us IH]; intros values HU Hlen; cbn [a_layers].
    - exists values. split; [auto|]. split; [auto|]. intros k. destruct (nth_error idxs k) as [[i|]|]; auto.
    - destruct (HU u (or_introl eq_refl)) as (Nu & v & E & EL). rewrite (proj2 (Z.eqb_neq _ _) Nu).
      fold (group u). rewrite E. cbn [bind]. rewrite EL.
      destruct (IH (put_all values (group u) (map (H u) (group u)))) as (vs & Hvs & Hvl & Hk).
      + intros i Hi. apply HU. now right.
      + now rewrite put_all_len.
      + exists vs. split; [auto|]. split; [auto|]. apply (put_step (H u) values u us vs H); auto.
  Qed.
  (** The whole answer, position by position. *)
  Definition rows_at (H : Z -> nat -> rcell) : list rcell :=
    map (fun ki => match snd ki with None => RMask | Some i => H i (fst ki) end) (combine (seq 0 (length idxs)) idxs).
  Lemma rows_at_len H : length (rows_at H) = length pts.
  Proof. clear Hla. unfold rows_at. rewrite map_length, combine_length, seq_length. lia. Qed.
  Lemma rows_at_nth H k o : nth_error idxs k = Some o -> nth_error (rows_at H) k = Some (match o with None => RMask | Some i => H i k end).
  Proof.
    clear Hli Hla. intros Ho. unfold rows_at. rewrite nth_error_map. rewrite (nth_combine _ _ k k o); [reflexivity| |exact Ho].
    pose proof (nth_error_Some_lt _ _ _ Ho). rewrite (nth_error_nth' _ 0) by (rewrite seq_length; lia). now rewrite seq_nth by lia.
  Qed.
  Lemma rows_eq vs H values : length vs = length pts -> values = map (fun o : option Z => match o with None => RMask | Some _ => RNaN end) idxs ->
    (forall k, nth_error vs k = match nth_error idxs k with
                | Some (Some i) => if in_dec Z.eq_dec i (unique_unmasked idxs) then Some (H i k) else nth_error values k
                | _ => nth_error values k end) -> vs = rows_at H.
  Proof.
    intros Hl -> Hk. apply nth_ext'. intros k. rewrite Hk. destruct (nth_error idxs k) as [o|] eqn:Eo.
    - rewrite (rows_at_nth H k o Eo). destruct o as [i|].
      + destruct (in_dec Z.eq_dec i (unique_unmasked idxs)) as [|Hi]; [reflexivity|]. exfalso. apply Hi. apply unique_unmasked_in. eapply nth_error_In; eauto.
      + rewrite nth_error_map, Eo. reflexivity.
    - rewrite nth_error_map, Eo. cbn. symmetry. apply nth_error_None. rewrite rows_at_len. apply nth_error_None in Eo. lia.
  Qed.
  Lemma masked_rows H : forallb (fun o : option Z => match o with None => true | _ => false end) idxs = true -> map (fun _ => RMask) pts = rows_at H.
  Proof.
    intros Em. apply nth_ext'. intros k. rewrite nth_error_map. destruct (nth_error pts k) as [p|] eqn:Ep.
    - destruct (nth_error_lt_Some idxs k) as [o Ho]; [pose proof (nth_error_Some_lt _ _ _ Ep); lia|]. rewrite (rows_at_nth H k o Ho).
      rewrite (all_masked idxs Em k o Ho). reflexivity.
    - cbn. symmetry. apply nth_error_None. rewrite rows_at_len. now apply nth_error_None.
  Qed.
  Lemma a_depth_levels (H : Z -> nat -> rcell) layers : ndim <> layers ->
    (forall i, In (Some i) idxs -> i <> (Z.of_nat ndim - 1)%Z /\ exists v0 v1, val (gather pts (group i)) (slices ++ [i + 1]%Z) = Ok v1 /\
       val (gather pts (group i)) (slices ++ [i]) = Ok v0 /\ lerp_alphas rmix v0 v1 (gather alphas (group i)) = Ok (map (H i) (group i))) ->
    a_depth rmix RMask RNaN ndim val slices pts idxs alphas layers = Ok (Vec (rows_at H)).
  Proof.
    intros Hl HU. unfold a_depth. destruct (forallb _ idxs) eqn:Em; [now rewrite (masked_rows H Em)|]. rewrite (proj2 (Nat.eqb_neq _ _) Hl).
    destruct (a_levels_spec H (unique_unmasked idxs) None (map (fun o => match o with None => RMask | Some _ => RNaN end) idxs)) as (vs & E & El & Hk).
    - intros i Hi. apply HU. now apply unique_unmasked_in.
    - rewrite map_length. auto.
    - rewrite E. cbn [bind]. f_equal. f_equal. eapply rows_eq; eauto.
  Qed.
  Lemma a_depth_layers (H : Z -> nat -> rcell) layers : ndim = layers ->
    (forall i, In (Some i) idxs -> i <> (-1)%Z /\ exists v, val (gather pts (group i)) (slices ++ [i]) = Ok v /\ flat v = map (H i) (group i)) ->
    a_depth rmix RMask RNaN ndim val slices pts idxs alphas layers = Ok (Vec (rows_at H)).
  Proof.
    intros Hl HU. unfold a_depth. destruct (forallb _ idxs) eqn:Em; [now rewrite (masked_rows H Em)|]. rewrite (proj2 (Nat.eqb_eq _ _) Hl).
    destruct (a_layers_spec H (unique_unmasked idxs) (map (fun o => match o with None => RMask | Some _ => RNaN end) idxs)) as (vs & E & El & Hk).
    - intros i Hi. apply HU. now apply unique_unmasked_in.
    - rewrite map_length. auto.
    - rewrite E. cbn [bind]. f_equal. f_equal. eapply rows_eq; eauto.
  Qed.
  (** Every point of the group [i] has a place and an alpha. *)
  Lemma group_pt i k : In k (group i) -> exists p a, nth_error pts k = Some p /\ nth_error alphas k = Some a /\ nth_error idxs k = Some (Some i).
  Proof.
    intros Hk. pose proof (group_bound i k Hk) as (A & B). apply where_eq_in in Hk as (m & -> & Hm). cbn [Nat.add] in *.
    destruct (nth_error_lt_Some pts m A) as [p Ep]. destruct (nth_error_lt_Some alphas m B) as [a Ea]. eauto.
  Qed.
  (** One value per point and its alpha, or the first one's. *)
  Lemma zip_group (f0 f1 : P -> rcell) ks : (forall k, In k ks -> exists p a, nth_error pts k = Some p /\ nth_error alphas k = Some a) ->
    lerp_zip rmix (map f0 (gather pts ks)) (map f1 (gather pts ks)) (gather alphas ks) =
    map (fun k => match nth_error pts k, nth_error alphas k with Some p, Some a => rmix (f0 p) (f1 p) a | _, _ => RNaN end) ks.
  Proof.
    induction ks as [|k ks IH]; intros Hk; [reflexivity|]. cbn [gather flat_map map]. destruct (Hk k (or_introl eq_refl)) as (p & a & -> & ->). cbn.
    f_equal. apply IH. intros; apply Hk; now right.
  Qed.
  Lemma map_group {B} (h : R -> B) (d : B) ks : (forall k, In k ks -> exists p a, nth_error pts k = Some p /\ nth_error alphas k = Some a) ->
    map h (gather alphas ks) = map (fun k => match nth_error alphas k with Some a => h a | None => d end) ks.
  Proof.
    induction ks as [|k ks IH]; intros Hk; [reflexivity|]. cbn [gather flat_map map]. destruct (Hk k (or_introl eq_refl)) as (p & a & _ & ->). cbn.
    f_equal. apply IH. intros; apply Hk; now right.
  Qed.
  Lemma gather_in {A} (l : list A) ks x : In x (gather l ks) -> In x l.
  Proof. unfold gather. intros H. apply in_flat_map in H as (k & _ & Hk). destruct (nth_error l k) eqn:E; [|destruct Hk]. destruct Hk as [<-|[]]. eapply nth_error_In; eauto. Qed.
End Rows.

(** ** Composed *)
Lemma rmix_swap a b c d s u : rmix (rmix a b s) (rmix c d s) u = rmix (rmix a c u) (rmix b d u) s.
Proof. destruct a, b, c, d; cbn; try reflexivity. f_equal. ring. Qed.
Section Composed.
  Context (g : sg) (find : R * R -> option (Z * Z)) (place_of : R * R -> option (nat * nat * (R * R))) (loc : string) (nr nc : nat)
          (col : bool) (expct : arr rd -> located -> rcell) (v : nvar) (time : option time_obj) (n : option nat)
          (f : Z -> nat -> nat -> nat -> R) (m : nat -> nat -> nat -> bool) (q q' : Z) (ex : bool) (pts : list rspot).
  Context (HS : SameShape g) (St : Sits g loc nr nc col expct) (HF : Finds g find place_of (map fst pts))
          (HV : Holds v (option_map t_data time) n nr nc f m) (HT : TimeOk (option_map t_data time) ex q q').
  Definition val_at (u : Z) (j : nat) (s : rspot) : rcell := expct (snap nr nc (f u j) (m j)) (spot_in place_of s).

  Lemma finds_incl ps : incl ps pts -> Finds g find place_of (map fst ps).
  Proof. intros I p Hp. apply HF. apply in_map_iff in Hp as (s & <- & Hs). apply in_map. auto. Qed.
  Lemma leaf_at ps sl ix u j : incl ps pts -> VariableModel.resolve (nv_lead v) sl = Ok ix -> SlotAt (option_map t_data time) n ix u j ->
    stag_xy g find loc v ps sl = Ok (shape_as (lost find ps || col) (map (val_at u j) ps)).
  Proof. intros I Hr Sl. destruct HV as (_ & HR & _). apply (stag_leaf g find place_of loc nr nc col expct v ps sl ix (f u j) (m j)); auto using finds_incl. Qed.
  Lemma val_time t j s k t0 t1 al : time = Some t -> nth_error (t_data t) k = Some t0 -> nth_error (t_data t) (S k) = Some t1 -> (t0 < q <= t1)%Z ->
    (inject_Z t0 + al * (inject_Z t1 - inject_Z t0) == inject_Z q)%Q -> val_at q j s = rlerp (val_at t0 j s) (val_at t1 j s) al.
  Proof.
    intros Et H0 H1 Hq E. rewrite rlerp_mix. unfold val_at. apply (sits_mix g loc nr nc col expct); auto. apply snap_mix. intros r c Hm.
    destruct HV as (_ & _ & HL). apply (linear_mix (t_data t) (fun u => f u j r c) k t0 t1 q al); auto. apply HL; auto. now rewrite Et.
  Qed.
  Lemma lost_masked ps : incl ps pts -> lost find ps = true -> forall u j s, In s ps -> val_at u j s = RMask.
  Proof.
    intros I L u j s Hs. unfold val_at, spot_in. destruct (HF (fst s)) as [E _]; [apply in_map; auto|].
    unfold lost, opt_all in L. rewrite forallb_forall in L. specialize (L (find (fst s)) ltac:(now apply (in_map (fun p : rspot => find (fst p))))).
    destruct (find (fst s)); [discriminate|]. unfold where_ in E. cbn [snd] in E. destruct (place_of (fst s)) as [[[r c] ?]|]; [discriminate|]. eapply sits_outside; eauto.
  Qed.

  Section NoDepth.
    Context (Hn : n = None).
    Definition lead_shape : list nat := match time with Some t => [length (t_data t)] | None => [] end ++ [nr; nc].
    Lemma no_depth depth : stag_at g find loc (order_of (some time) false GStructured) v lead_shape time depth q ex pts = Ok (map (val_at q' 0) pts).
    Proof.
      unfold stag_at, a_value, lead_shape. pose proof HV as (HL & _). rewrite Hn in HL. destruct time as [t|] eqn:Et in HL |- *; cbn [some option_map app] in *.
      - destruct (HT (t_data t)) as (SI & Ne & TA); [now rewrite Et|].
        assert (a_at_nomem rlerp rmix RMask RNaN (order_of true false GStructured) [length (t_data t); nr; nc] (Some t) depth q ex (stag_xy g find loc v) pts =
          a_time rlerp t q ex (stag_xy g find loc v pts) []) as -> by reflexivity.
        assert (0 < length (t_data t)) by (destruct (t_data t); [congruence|cbn; lia]).
        rewrite (a_time_mixes t q q' ex _ (lost find pts || col) (fun u => map (val_at u 0) pts) SI Ne TA).
        + cbn [bind]. destruct (_ || _); reflexivity.
        + intros k tk Hk. apply (leaf_at pts _ [k]); [apply incl_refl| |].
          * rewrite HL. cbn. rewrite py_index_nat by (eapply nth_error_Some_lt; eauto). reflexivity.
          * rewrite Et, Hn. exists k. auto.
        + destruct (nth_error_lt_Some (t_data t) (length (t_data t) - 1)) as [z Hz]; [lia|].
          rewrite !(leaf_at pts _ [length (t_data t) - 1] z 0); auto; try apply incl_refl; try (rewrite Et, Hn; exists (length (t_data t) - 1); auto).
          * rewrite HL. cbn [VariableModel.resolve]. rewrite py_index_nat by lia. reflexivity.
          * rewrite HL. cbn [VariableModel.resolve]. rewrite py_index_last by lia. reflexivity.
        + intros k t0 t1 al H0 H1 Hq E. rewrite lerp_list_map. apply map_ext. intros s. eapply val_time; eauto.
      - change (order_of false false GStructured) with (horizontal GStructured). cbn [horizontal a_at_nomem].
        rewrite (leaf_at pts [] [] q' 0); [|apply incl_refl|now rewrite HL|now rewrite Et, Hn]. cbn [bind]. destruct (_ || _); reflexivity.
    Qed.
  End NoDepth.

  Section Depth.
    Context (nd : nat) (Hn : n = Some nd) (dv : aview rspot R) (idxs : list (option Z)) (alphas : list R).
    Context (HA : av_alphas dv pts = Ok (idxs, alphas)) (Hli : length idxs = length pts) (Hla : length alphas = length pts).
    Definition deep_shape : list nat := match time with Some t => [length (t_data t)] | None => [] end ++ [nd; nr; nc].
    Let group i := where_eq 0 idxs i.
    (** Level [i] as Python counts. *)
    Definition py_level (i : Z) : nat := if (i =? -1)%Z then nd - 1 else Z.to_nat i.
    Lemma py_level_ok i : (-1 <= i < Z.of_nat nd)%Z -> 0 < nd -> py_index nd i = Some (py_level i) /\ py_level i < nd.
    Proof.
      intros B P. unfold py_level. destruct (Z.eqb_spec i (-1)) as [->|N]; [rewrite py_index_last by auto; split; [auto|lia]|].
      replace i with (Z.of_nat (Z.to_nat i)) at 1 by lia. rewrite py_index_nat by lia. split; [auto|lia].
    Qed.
    (** Depth below time: the value at the level [i] in one time slice. *)
    Lemma deep_leaf sl u ps i : incl ps pts -> (-1 <= i < Z.of_nat nd)%Z -> 0 < nd ->
      (match time with Some t => exists k, nth_error (t_data t) k = Some u /\ (sl = [Z.of_nat k] \/ (sl = [(-1)%Z] /\ k = length (t_data t) - 1)) | None => sl = [] end) ->
      stag_xy g find loc v ps (sl ++ [i]) = Ok (shape_as (lost find ps || col) (map (val_at u (py_level i)) ps)).
    Proof.
      intros I B P Sl. destruct (py_level_ok i B P) as (Ei & Li). pose proof HV as (HL & _). rewrite Hn in HL. destruct time as [t|] eqn:Et in HL, Sl |- *; cbn [option_map app] in *.
      - destruct Sl as (k & Hk & C). pose proof (nth_error_Some_lt _ _ _ Hk) as Lk.
        assert (Rs : VariableModel.resolve (nv_lead v) (sl ++ [i]) = Ok [k; py_level i]).
        { rewrite HL. destruct C as [->|(-> & ->)]; cbn [app VariableModel.resolve]; [rewrite py_index_nat by auto|rewrite py_index_last by lia]; rewrite Ei; reflexivity. }
        apply (leaf_at ps _ [k; py_level i]); auto. rewrite Et, Hn. exists k. auto.
      - subst sl. apply (leaf_at ps _ [py_level i]); auto; [|rewrite Et, Hn; cbn; auto]. rewrite HL. cbn [app VariableModel.resolve]. rewrite Ei. reflexivity.
    Qed.

    (** From one time slice to the question. *)
    Lemma over_time (Hrow : Z -> Z -> nat -> rcell) :
      (forall sl u, (match time with Some t => exists k, nth_error (t_data t) k = Some u /\ (sl = [Z.of_nat k] \/ (sl = [(-1)%Z] /\ k = length (t_data t) - 1)) | None => sl = [] end) ->
         a_depth rmix RMask RNaN nd (stag_xy g find loc v) sl pts idxs alphas (av_layers dv) = Ok (Vec (rows_at idxs (Hrow u)))) ->
      (forall t k t0 t1 al i j, time = Some t -> nth_error (t_data t) k = Some t0 -> nth_error (t_data t) (S k) = Some t1 -> (t0 < q <= t1)%Z ->
         (inject_Z t0 + al * (inject_Z t1 - inject_Z t0) == inject_Z q)%Q -> Hrow q i j = rlerp (Hrow t0 i j) (Hrow t1 i j) al) ->
      stag_at g find loc (order_of (some time) true GStructured) v deep_shape time (Some dv) q ex pts = Ok (rows_at idxs (Hrow q')).
    Proof.
      intros HD Mx. unfold stag_at, a_value, deep_shape. destruct time as [t|] eqn:Et in HD, Mx |- *; cbn [some option_map app] in *.
      - destruct (HT (t_data t)) as (SI & Ne & TA); [now rewrite Et|].
        assert (a_at_nomem rlerp rmix RMask RNaN (order_of true true GStructured) [length (t_data t); nd; nr; nc] (Some t) (Some dv) q ex (stag_xy g find loc v) pts =
          a_time rlerp t q ex (fun sl => a_depth rmix RMask RNaN nd (stag_xy g find loc v) sl pts idxs alphas (av_layers dv)) []) as ->.
        { change (a_at_nomem rlerp rmix RMask RNaN (order_of true true GStructured) [length (t_data t); nd; nr; nc] (Some t) (Some dv) q ex (stag_xy g find loc v) pts)
            with (a_time rlerp t q ex (fun sl => do ia <- av_alphas dv pts; a_depth rmix RMask RNaN nd (stag_xy g find loc v) sl pts (fst ia) (snd ia) (av_layers dv)) []).
          rewrite HA. reflexivity. }
        assert (0 < length (t_data t)) by (destruct (t_data t); [congruence|cbn; lia]).
        rewrite (a_time_mixes t q q' ex _ false (fun u => rows_at idxs (Hrow u)) SI Ne TA).
        + reflexivity.
        + intros k tk Hk. apply HD. eauto.
        + destruct (nth_error_lt_Some (t_data t) (length (t_data t) - 1)) as [z Hz]; [lia|].
          rewrite !(HD _ z); auto; eauto.
        + intros k t0 t1 al H0 H1 Hq E. unfold rows_at. rewrite lerp_list_map. apply map_ext. intros [j [i|]]; [|reflexivity]. cbn [fst snd].
          eapply Mx; eauto.
      - change (a_at_nomem rlerp rmix RMask RNaN (order_of false true GStructured) [nd; nr; nc] None (Some dv) q ex (stag_xy g find loc v) pts)
          with (do ia <- av_alphas dv pts; a_depth rmix RMask RNaN nd (stag_xy g find loc v) [] pts (fst ia) (snd ia) (av_layers dv)).
        rewrite HA. cbn [bind fst snd]. rewrite (HD [] q') by reflexivity. reflexivity.
    Qed.

    Definition own (i : Z) (k : nat) : option rspot := nth_error pts k.
    Definition first (i : Z) (k : nat) : option rspot := hd_error (gather pts (group i)).
    Definition source (b : bool) := if b then first else own.
    Definition level_row (b : bool) (u : Z) (i : Z) (k : nat) : rcell :=
      match source b i k, nth_error alphas k with
      | Some p, Some a => rmix (val_at u (py_level i) p) (val_at u (py_level (i + 1)) p) a
      | _, _ => RNaN
      end.
    Definition layer_row (u : Z) (i : Z) (k : nat) : rcell :=
      match nth_error pts k with Some p => val_at u (py_level i) p | None => RNaN end.
    Lemma levels_composed : av_layers dv <> nd -> (forall i, In (Some i) idxs -> (-1 <= i < Z.of_nat nd - 1)%Z) ->
      stag_at g find loc (order_of (some time) true GStructured) v deep_shape time (Some dv) q ex pts = Ok (rows_at idxs (level_row col q')).
    Proof.
      intros Hl Hi. apply over_time.
      - intros sl u Sl. apply (a_depth_levels nd _ sl pts idxs alphas Hli Hla); auto. intros i Ii. specialize (Hi i Ii). split; [lia|].
        fold (group i). set (ps := gather pts (group i)). assert (I : incl ps pts) by (intros x; apply gather_in).
        rewrite (deep_leaf sl u ps (i + 1)), (deep_leaf sl u ps i) by (auto; lia). eexists _, _. split; [reflexivity|]. split; [reflexivity|].
        assert (HG : forall k, In k (group i) -> exists p a, nth_error pts k = Some p /\ nth_error alphas k = Some a).
        { intros k Hk. destruct (group_pt pts idxs alphas Hli Hla i k Hk) as (p & a & ? & ? & _). eauto. }
        assert (Vec_ : lerp_zip rmix (map (val_at u (py_level i)) ps) (map (val_at u (py_level (i + 1))) ps) (gather alphas (group i)) = map (level_row false u i) (group i)).
        { unfold ps. rewrite (zip_group pts alphas) by exact HG. reflexivity. }
        assert (Col_ : forall s, hd_error ps = Some s ->
          map (rmix (val_at u (py_level i) s) (val_at u (py_level (i + 1)) s)) (gather alphas (group i)) = map (level_row true u i) (group i)).
        { intros s Es. rewrite (map_group pts alphas _ RNaN) by exact HG. apply map_ext. intros k. unfold level_row. cbn [source]. unfold first. fold ps. now rewrite Es. }
        assert (E0 : ps = [] -> group i = []).
        { intros Ep. destruct (group i) as [|k l] eqn:Eg; [reflexivity|]. exfalso. destruct (HG k (or_introl eq_refl)) as (p & a & Hp & _).
          unfold ps in Ep. cbn [gather flat_map] in Ep. rewrite Hp in Ep. discriminate. }
        destruct col eqn:Ec in |- *.
        + rewrite orb_true_r. cbn [shape_as]. destruct ps as [|s l] eqn:Ep.
          * cbn [map lerp_alphas]. rewrite E0 by auto. reflexivity.
          * cbn [map lerp_alphas]. f_equal. now apply Col_.
        + rewrite orb_false_r. destruct (lost find ps) eqn:EL; cbn [shape_as].
          * pose proof (lost_masked ps I EL) as LM. destruct ps as [|s l] eqn:Ep.
            -- cbn [map lerp_alphas]. rewrite E0 by auto. reflexivity.
            -- cbn [map lerp_alphas]. f_equal. rewrite (map_group pts alphas _ RNaN) by exact HG. apply map_ext_in. intros k Hk.
               destruct (HG k Hk) as (p & a & Hp & Ha). unfold level_row. cbn [source]. unfold own. rewrite Hp, Ha, (LM u _ s) by (now left).
               assert (Ip : In p ps). { unfold ps, gather. apply in_flat_map. exists k. rewrite Hp. split; [auto|now left]. }
               rewrite (LM u _ p) by (rewrite <- Ep; exact Ip). reflexivity.
          * cbn [lerp_alphas]. f_equal. exact Vec_.
      - intros t k t0 t1 al i j Et H0 H1 Hq E. unfold level_row. destruct (source col i j) as [p|]; [|reflexivity]. destruct (nth_error alphas j) as [a|]; [|reflexivity].
        rewrite !(val_time t _ p k t0 t1 al) by auto. rewrite !rlerp_mix. apply rmix_swap.
    Qed.
    Lemma layers_composed : av_layers dv = nd -> (forall i, In (Some i) idxs -> (0 <= i < Z.of_nat nd)%Z) ->
      stag_at g find loc (order_of (some time) true GStructured) v deep_shape time (Some dv) q ex pts = Ok (rows_at idxs (layer_row q')).
    Proof.
      intros Hl Hi. apply over_time.
      - intros sl u Sl. apply (a_depth_layers nd _ sl pts idxs alphas Hli Hla); auto. intros i Ii. specialize (Hi i Ii). split; [lia|].
        fold (group i). set (ps := gather pts (group i)). assert (I : incl ps pts) by (intros x; apply gather_in).
        rewrite (deep_leaf sl u ps i) by (auto; lia). eexists. split; [reflexivity|].
        assert (flat (shape_as (lost find ps || col) (map (val_at u (py_level i)) ps)) = map (val_at u (py_level i)) ps) as -> by (destruct (_ || _); reflexivity).
        unfold ps. rewrite (gather_map _ _ RNaN); [reflexivity|]. intros j Hj. apply (group_bound pts idxs alphas Hli Hla) in Hj. lia.
      - intros t k t0 t1 al i j Et H0 H1 Hq E. unfold layer_row. destruct (nth_error pts j) as [p|]; [|reflexivity]. eapply val_time; eauto.
    Qed.
  End Depth.
End Composed.
