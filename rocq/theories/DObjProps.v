(** C95. *)
From Coq Require Import String Lqa.
From Verif Require Import Common CommonProofs DepthModel DepthProofs GridTypeModel GridTypeProofs DObjModel DObjSpec DObjProofs.
Open Scope string_scope.
Open Scope list_scope.
Open Scope nat_scope.

Ltac each H := repeat (destruct H as [H|H]; [injection H as <- <- <-|]); [..|destruct H].
Lemma arg_drop kw ks k d : ~ In k ks -> arg (drop ks kw) k d = arg kw k d.
Proof. intros H. unfold arg. now rewrite dget_drop. Qed.

(** The settings of the surface-only object. *)
Theorem c95_base_settings :
  forall kw, exists o, depth_new CBase kw = Ok o /\
  forall a k d, In (a, k, d) base_settings -> exists v, Value kw k d v /\ Has o a v.
Proof.
  intros kw. eexists. split; [reflexivity|]. intros a k d H. exists (arg kw k d). split; [apply arg_value|]. unfold base_settings in H. cbn [In] in H. each H; reflexivity.
Qed.
Print Assumptions c95_base_settings.
(** With terms under free names: each term is an attribute, and the settings are
    those given, but for attributes that a term replaces. *)
Theorem c95_settings_partial :
  forall c kw terms, c <> CBase -> Value kw "terms" VNone (VDict terms) -> NoDup (map fst kw) -> NoDup (map fst terms) ->
  (forall k, In k (map fst terms) -> ~ Blocked c k) ->
  exists o, depth_new c kw = Ok o /\
    (forall k v, In (k, v) terms -> ~ In k (late c) -> Has o k v) /\
    (forall a k d, In (a, k, d) (settings c) -> (In a (map fst terms) -> In a (late c)) -> exists v, Value kw k d v /\ Has o a v).
Proof.
  intros c kw terms Hc HT Nk Nt B.
  assert (ET : arg kw "terms" VNone = VDict terms).
  { destruct HT as [H|[_ H]]; [|discriminate]. unfold arg. now rewrite (dget_iff _ _ _ Nk H). }
  destruct c; [congruence| | | |].
  - cbn [depth_new]. unfold level_new. rewrite ET.
    destruct (take_ok CLevel (dset (base_new (drop ["terms"] kw)) "terms" (VDict [])) terms B Nt) as (o & E & G1 & G2). exists o. split; [exact E|]. split; [intros; now apply G1|].
    intros a k d H Ha. exists (arg kw k d). split; [apply arg_value|]. unfold Has. rewrite G2 by (intros X; exact (Ha X)). cbn [settings level_settings In base_settings] in H. each H;
      [rewrite ET; reflexivity|..]; rewrite dget_dset; cbn [String.eqb Ascii.eqb Bool.eqb base_new dget]; rewrite arg_drop by (cbn; intuition discriminate); reflexivity.
  - cbn [depth_new]. unfold sigma_new. rewrite ET. cbv zeta.
    match goal with |- context [take_terms CSigma ?o0 _] => destruct (take_ok CSigma o0 terms B Nt) as (o & E & G1 & G2) end. rewrite E. cbn [bind]. eexists. split; [reflexivity|]. split.
    + intros k v H L. unfold Has. rewrite !dget_dset. cbn [late In] in L. destruct (String.eqb_spec k "default_bottom_boundary_condition") as [->|]; [tauto|].
      destruct (String.eqb_spec k "default_surface_boundary_condition") as [->|]; [tauto|]. now apply G1.
    + intros a k d H Ha. exists (arg kw k d). split; [apply arg_value|]. unfold Has. cbn [settings sigma_settings In] in H. cbn [late In] in Ha.
      each H; rewrite !dget_dset; cbn [String.eqb Ascii.eqb Bool.eqb]; try reflexivity; (rewrite G2 by (intros X; apply Ha in X; intuition discriminate));
        rewrite ?dget_dset; cbn [String.eqb Ascii.eqb Bool.eqb base_new dget]; rewrite ?ET; try reflexivity; rewrite arg_drop by (cbn; intuition discriminate); reflexivity.
  - cbn [depth_new]. unfold sigma_new. rewrite ET. cbv zeta.
    match goal with |- context [take_terms CRoms ?o0 _] => destruct (take_ok CRoms o0 terms B Nt) as (o & E & G1 & G2) end. rewrite E. cbn [bind]. eexists. split; [reflexivity|]. split.
    + intros k v H L. unfold Has. rewrite !dget_dset. cbn [late In] in L. destruct (String.eqb_spec k "default_bottom_boundary_condition") as [->|]; [tauto|].
      destruct (String.eqb_spec k "default_surface_boundary_condition") as [->|]; [tauto|]. now apply G1.
    + intros a k d H Ha. exists (arg kw k d). split; [apply arg_value|]. unfold Has. cbn [settings sigma_settings In] in H. cbn [late In] in Ha.
      each H; rewrite !dget_dset; cbn [String.eqb Ascii.eqb Bool.eqb]; try reflexivity; (rewrite G2 by (intros X; apply Ha in X; intuition discriminate));
        rewrite ?dget_dset; cbn [String.eqb Ascii.eqb Bool.eqb base_new dget]; rewrite ?ET; try reflexivity; rewrite arg_drop by (cbn; intuition discriminate); reflexivity.
  - cbn [depth_new]. unfold sigma_new. rewrite ET. cbv zeta.
    match goal with |- context [take_terms CFvcom ?o0 _] => destruct (take_ok CFvcom o0 terms B Nt) as (o & E & G1 & G2) end. rewrite E. cbn [bind]. eexists. split; [reflexivity|]. split.
    + intros k v H L. unfold Has. rewrite !dget_dset. cbn [late In] in L. destruct (String.eqb_spec k "default_bottom_boundary_condition") as [->|]; [tauto|].
      destruct (String.eqb_spec k "default_surface_boundary_condition") as [->|]; [tauto|]. now apply G1.
    + intros a k d H Ha. exists (arg kw k d). split; [apply arg_value|]. unfold Has. cbn [settings sigma_settings In] in H. cbn [late In] in Ha.
      each H; rewrite !dget_dset; cbn [String.eqb Ascii.eqb Bool.eqb]; try reflexivity; (rewrite G2 by (intros X; apply Ha in X; intuition discriminate));
        rewrite ?dget_dset; cbn [String.eqb Ascii.eqb Bool.eqb base_new dget]; rewrite ?ET; try reflexivity; rewrite arg_drop by (cbn; intuition discriminate); reflexivity.
Qed.
Print Assumptions c95_settings_partial.
(** What the constructors refuse: no terms, terms that are not a dict, a term
    under the name of a property. *)
Theorem c95_refused :
  forall c kw, c <> CBase -> NoDup (map fst kw) ->
  (Value kw "terms" VNone VNone -> depth_new c kw = Err ValueError) /\
  (forall v, Value kw "terms" VNone v -> v <> VNone -> (forall d, v <> VDict d) -> depth_new c kw = Err AttributeError) /\
  (forall d k, Value kw "terms" VNone (VDict d) -> In k (map fst d) -> Blocked c k -> depth_new c kw = Err AttributeError).
Proof.
  intros c kw Hc N.
  assert (A : forall v, Value kw "terms" VNone v -> arg kw "terms" VNone = v).
  { intros v [H|[H ->]]; unfold arg; [now rewrite (dget_iff _ _ _ N H)|]. apply dget_none in H. now rewrite H. }
  split; [|split].
  - intros H. apply A in H. destruct c; [congruence|..]; cbn [depth_new]; unfold level_new, sigma_new; rewrite H; reflexivity.
  - intros v H N1 N2. apply A in H. destruct c; [congruence|..]; cbn [depth_new]; unfold level_new, sigma_new; rewrite H; destruct v; try congruence; reflexivity.
  - intros d k H Hk B. apply A in H. destruct c; [congruence|..]; cbn [depth_new]; unfold level_new, sigma_new; rewrite H; cbn [take_terms]; cbv zeta; rewrite set_terms_blocked by eauto; reflexivity.
Qed.
Print Assumptions c95_refused.

(** Sizes and ends: of levels, of ROMS and of FVCOM coordinates. *)
Theorem c95_level_ends :
  forall o l, Has o "depth_levels" (VNums l) ->
  num_levels CLevel o = Ok (Z.of_nat (length l)) /\ num_layers CLevel o = Ok (Z.of_nat (length l) - 1)%Z /\
  (l = [] -> surface_index CLevel o = Err ValueError /\ bottom_index CLevel o = Err ValueError) /\
  (l <> [] -> exists i j, surface_index CLevel o = Ok (VInt (Z.of_nat i)) /\ FirstLeast l i /\ bottom_index CLevel o = Ok (VInt (Z.of_nat j)) /\ FirstGreatest l j).
Proof.
  intros o l H. unfold Has in H. unfold num_layers, num_levels, surface_index, bottom_index, nums. rewrite H. cbn [bind]. split; [reflexivity|]. split; [reflexivity|]. split.
  - intros ->. split; reflexivity.
  - intros Ne. destruct (argmin_first l Ne) as (i & Ei & Hi). destruct (argmax_first l Ne) as (j & Ej & Hj). exists i, j. unfold as_index. rewrite Ei, Ej. auto.
Qed.
Print Assumptions c95_level_ends.
(** Any condition but "mask" extrapolates. *)
Theorem c95_other_conditions o dl (s : string) c ds : s <> "mask" ->
  level_alphas o dl (VStr s) c ds = level_alphas o dl (VStr "extrapolate") c ds /\
  level_alphas o dl c (VStr s) ds = level_alphas o dl c (VStr "extrapolate") ds.
Proof.
  intros H. apply String.eqb_neq in H.
  assert (E : bmask (bc_of (VStr s)) = false) by (cbn [bc_of]; rewrite H; destruct (String.eqb s "extrapolate"); reflexivity).
  unfold level_alphas. cbn [condition bind]. split.
  - destruct (condition o "default_bottom_boundary_condition" c); [|reflexivity]. cbn [bind]. destruct (nums o "depth_levels"); [|reflexivity]. cbn [bind].
    destruct (bc_of (VStr s)); [discriminate|reflexivity|reflexivity].
  - destruct (condition o "default_surface_boundary_condition" c); [|reflexivity]. cbn [bind]. destruct (nums o "depth_levels"); [|reflexivity]. cbn [bind].
    destruct (bc_of (VStr s)); [discriminate|reflexivity|reflexivity].
Qed.
Print Assumptions c95_other_conditions.
Theorem c95_roms_ends :
  forall o sw sr, Has o "s_w" (VNums sw) -> Has o "s_rho" (VNums sr) ->
  num_levels CRoms o = Ok (Z.of_nat (length sw)) /\ num_layers CRoms o = Ok (Z.of_nat (length sr)) /\ depth_len CRoms o = num_levels CRoms o /\
  (sw <> [] -> exists i j, surface_index CRoms o = Ok (VInt (Z.of_nat i)) /\ FirstGreatest sw i /\ bottom_index CRoms o = Ok (VInt (Z.of_nat j)) /\ FirstLeast sw j).
Proof.
  intros o sw sr H H2. unfold Has in *. unfold depth_len, num_layers, num_levels, surface_index, bottom_index, nums. rewrite H, H2. cbn [bind]. split; [reflexivity|]. split; [reflexivity|]. split; [reflexivity|].
  intros Ne. destruct (argmax_first sw Ne) as (i & Ei & Hi). destruct (argmin_first sw Ne) as (j & Ej & Hj). exists i, j. unfold as_index. rewrite Ei, Ej. auto.
Qed.
Print Assumptions c95_roms_ends.
Theorem c95_fvcom_ends :
  forall o lev lay col, Has o "siglev" (VRows lev) -> Has o "siglay" (VRows lay) -> Forall2 (fun r x => nth_error r 0 = Some x) lev col ->
  num_levels CFvcom o = Ok (Z.of_nat (length lev)) /\ num_layers CFvcom o = Ok (Z.of_nat (length lay)) /\ depth_len CFvcom o = num_levels CFvcom o /\
  (lev <> [] -> exists i j, surface_index CFvcom o = Ok (VInt (Z.of_nat i)) /\ FirstGreatest col i /\ bottom_index CFvcom o = Ok (VInt (Z.of_nat j)) /\ FirstLeast col j).
Proof.
  intros o lev lay col H H2 F. unfold Has in *. unfold depth_len, num_layers, num_levels, surface_index, bottom_index, rows. rewrite H, H2. cbn [bind]. split; [reflexivity|]. split; [reflexivity|]. split; [reflexivity|].
  intros Ne. assert (E : first_column lev = Ok col).
  { clear - F. unfold first_column. induction F as [|r x lev col Hr _ IH]; [reflexivity|]. cbn [mapM]. destruct r as [|y r]; [discriminate|]. cbn in Hr. injection Hr as ->. cbn [py_get]. rewrite IH. reflexivity. }
  assert (Nc : col <> []) by (intros ->; inversion F; congruence).
  rewrite E. cbn [bind]. destruct (argmax_first col Nc) as (i & Ei & Hi). destruct (argmin_first col Nc) as (j & Ej & Hj). exists i, j. unfold as_index. rewrite Ei, Ej. auto.
Qed.
Print Assumptions c95_fvcom_ends.
(** The abstract sigma class answers nothing; the two simple classes have no length. *)
Theorem c95_abstract :
  forall o, surface_index CSigma o = Err NotImplementedError /\ bottom_index CSigma o = Err NotImplementedError /\ num_levels CSigma o = Err NotImplementedError /\
  num_layers CSigma o = Err NotImplementedError /\ depth_len CSigma o = Err NotImplementedError /\ depth_len CBase o = Err TypeError /\ depth_len CLevel o = Err TypeError /\
  num_levels CBase o = Err AttributeError /\ num_layers CBase o = Err AttributeError.
Proof. repeat split; reflexivity. Qed.
Print Assumptions c95_abstract.

(** The bottom condition of the simple classes cannot be set under its own name:
    whatever is passed, points below the last level stay masked. *)
Theorem c95_bottom_condition_refuted :
  (forall kw, ~ In "default_bottom_boundary_conditon" (map fst kw) -> forall o,
     depth_new CBase kw = Ok o -> Has o "default_bottom_boundary_condition" (VStr "mask")) /\
  exists kw o, In ("default_bottom_boundary_condition", VStr "extrapolate") kw /\ In ("bottom_boundary_condition", VStr "extrapolate") kw /\
    depth_new CLevel kw = Ok o /\ level_alphas o None VNone VNone [20%Q] = Ok [(None, None)] /\
    level_alphas o None VNone (VStr "extrapolate") [20%Q] = Ok [(Some 1%Z, Some 0%Q)].
Proof.
  split.
  - intros kw N o H. injection H as <-. unfold Has, base_new. cbn [dget String.eqb Ascii.eqb Bool.eqb]. unfold arg. apply dget_none in N. now rewrite N.
  - exists [("terms", VDict [("depth_levels", VNums [0; 10]%Q)]); ("default_bottom_boundary_condition", VStr "extrapolate"); ("bottom_boundary_condition", VStr "extrapolate")]. eexists.
    split; [right; left; reflexivity|]. split; [right; right; left; reflexivity|]. split; [reflexivity|]. split; vm_compute; reflexivity.
Qed.
Print Assumptions c95_bottom_condition_refuted.
(** The two families disagree about the keywords; the other's are dropped
    without a word. *)
Theorem c95_keywords_refuted :
  (exists kw o, In ("surface_boundary_condition", VStr "mask") kw /\ depth_new CLevel kw = Ok o /\ Has o "default_surface_boundary_condition" (VStr "extrapolate")) /\
  (exists kw o, In ("default_surface_boundary_condition", VStr "mask") kw /\ depth_new CRoms kw = Ok o /\ Has o "default_surface_boundary_condition" (VStr "extrapolate")).
Proof.
  split.
  - exists [("terms", VDict []); ("surface_boundary_condition", VStr "mask")]. eexists. split; [right; left; reflexivity|]. split; reflexivity.
  - exists [("terms", VDict []); ("default_surface_boundary_condition", VStr "mask")]. eexists. split; [right; left; reflexivity|]. split; reflexivity.
Qed.
Print Assumptions c95_keywords_refuted.
(** The warning of the factory asks to set surface_index, which has no setter. *)
Theorem c95_set_surface_refuted : forall c o v, set_attr c o "surface_index" v = Err AttributeError.
Proof. destruct c; reflexivity. Qed.
Print Assumptions c95_set_surface_refuted.
(** A surface index given to a level or sigma object is not its surface index;
    a term may replace any other setting. *)
Theorem c95_replaced_refuted :
  (exists kw o, In ("surface_index", VInt 7) kw /\ depth_new CLevel kw = Ok o /\ surface_index CLevel o = Ok (VInt 0)) /\
  (exists kw o, In ("name", VStr "mine") kw /\ depth_new CRoms kw = Ok o /\ Has o "name" (VObj 3)).
Proof.
  split.
  - exists [("terms", VDict [("depth_levels", VNums [0; 10]%Q)]); ("surface_index", VInt 7)]. eexists. split; [right; left; reflexivity|]. split; reflexivity.
  - exists [("terms", VDict [("name", VObj 3)]); ("name", VStr "mine")]. eexists. split; [right; left; reflexivity|]. split; reflexivity.
Qed.
Print Assumptions c95_replaced_refuted.

(** The name search looks at the keys of the tables only.  With its own tables a
    level depth is found exactly when a variable is called depth_levels. *)
Theorem c95_names :
  (forall f, gen_varname CLevel f None None = if isin "depth_levels" (map dv_name f) then Ok "depth_levels" else Err KeyError) /\
  (forall c f names std n, gen_varname c f (Some names) std = Ok n -> In n (map dv_name f)) /\
  (forall c f pre n post std, In n (map dv_name f) -> (forall m, In m pre -> ~ In m (map dv_name f)) -> gen_varname c f (Some (pre ++ n :: post)) (Some std) = Ok n) /\
  (forall f std, gen_varname CBase f None std = Err AttributeError /\ gen_varname CSigma f None std = Err AttributeError).
Proof.
  assert (L : forall f n, existsb (fun v => dv_labelled v && String.eqb (dv_name v) n) f = true -> In n (map dv_name f)).
  { intros f n H. apply existsb_exists in H. destruct H as (v & Hv & E). apply andb_prop in E. destruct E as [_ E]. apply String.eqb_eq in E. subst. now apply in_map. }
  split; [|split; [|split]].
  - intros f. unfold gen_varname. cbn [name_keys bind find]. destruct (isin "depth_levels" (map dv_name f)) eqn:E; [reflexivity|].
    destruct (existsb _ f) eqn:X; [|reflexivity]. apply L in X. apply isin_iff in X. congruence.
  - intros c f names std n. unfold gen_varname. cbn [bind]. destruct std as [std|]; [|destruct (name_keys c) as [std|]]; cbn [bind]; try discriminate;
      (destruct (find _ names) as [m|] eqn:E; [intros H; injection H as <-; apply find_some in E; now apply isin_iff|]);
      (destruct (find _ std) as [m|] eqn:E2; [|discriminate]); intros H; injection H as <-; apply find_some in E2; now apply L.
  - intros c f pre n post std Hn Hp. unfold gen_varname. cbn [bind].
    assert (find (fun n => isin n (map dv_name f)) (pre ++ n :: post) = Some n) as ->; [|reflexivity].
    apply isin_iff in Hn. induction pre as [|m pre IH]; cbn [app find]; [now rewrite Hn|]. destruct (isin m (map dv_name f)) eqn:E.
    + apply isin_iff in E. exfalso. apply (Hp m); [now left|auto].
    + apply IH. intros x Hx. apply Hp. now right.
  - intros f std. split; reflexivity.
Qed.
Print Assumptions c95_names.
(** So none of the documented default names, and no standard name, is found. *)
Theorem c95_names_refuted :
  gen_varname CLevel [mkDVar "depth" true; mkDVar "Depth" true] None None = Err KeyError /\
  gen_varname CRoms [mkDVar "h" true] None None = Err KeyError /\
  find_required CLevel = Err TypeError.
Proof. repeat split; reflexivity. Qed.
Print Assumptions c95_names_refuted.

Example c95_example :
  let kw := [("terms", VDict [("s_w", VNums [-1; -(1 # 2); 0]%Q); ("s_rho", VNums [-(3 # 4); -(1 # 4)]%Q)]); ("zeta", VObj 1); ("bottom_boundary_condition", VStr "extrapolate")] in
  exists o, depth_new CRoms kw = Ok o /\ NoDup (map fst kw) /\ Has o "zeta" (VObj 1) /\ Has o "vtransform" (VInt 2) /\ Has o "default_bottom_boundary_condition" (VStr "extrapolate") /\
    surface_index CRoms o = Ok (VInt 2) /\ bottom_index CRoms o = Ok (VInt 0) /\ depth_len CRoms o = Ok 3%Z /\ num_layers CRoms o = Ok 2%Z.
Proof.
  eexists. split; [reflexivity|]. split; [|repeat split; reflexivity].
  repeat (constructor; [cbn; intuition discriminate|]). constructor.
Qed.
Example c95_level_example :
  exists o, depth_new CLevel [("terms", VDict [("depth_levels", VNums [10; 5; 0; 0]%Q)])] = Ok o /\ surface_index CLevel o = Ok (VInt 2) /\ bottom_index CLevel o = Ok (VInt 0) /\ num_layers CLevel o = Ok 3%Z.
Proof. eexists. repeat split; reflexivity. Qed.
