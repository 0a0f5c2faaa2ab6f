(** C85: loading a vector variable. *)
From Coq Require Import String.
From Verif Require Import Common CommonProofs TimeModel GridTypeModel VariableModel VariableSpec VariableProofs VariableProps TFileModel TFileProps LoadModel LoadSpec LoadProofs LoadProps
  VLoadModel VLoadSpec VLoadProofs.
Open Scope string_scope.
Open Scope list_scope.
Open Scope nat_scope.

(** The components are the variables of these names, in this order, all with the
    vector's time. *)
Theorem c85_components :
  forall dateutil cftime depth now g f cls comps count c a r, load_vector dateutil cftime depth now g f cls comps count c a = Ok r -> vg_vars a = None ->
  exists names l, Asked f comps a names /\ Present names l /\ length (ve_comps r) = length l /\ 2 <= length l /\ length comps <= length l /\
  forall i n, nth_error l i = Some n -> exists x w, nth_error (ve_comps r) i = Some x /\ dget (lf_vars f) n = Some w /\
    va_varname x = n /\ va_attrs x = lv_attrs w /\ va_shape x = lv_shape w /\ va_name x = default_name (c + i) /\
    va_time x = TimeGiven (time_value now (ve_time r)) /\ ValidLocation (va_loc x) /\
    (forall u, vg_units a = Some u -> va_units x = Some u) /\ (vg_units a = None -> va_units x = dget (lv_attrs w) "units").
Proof.
  intros dateutil cftime depth now g f cls comps count c a r H Hv.
  destruct (vector_parts _ _ _ _ _ _ _ _ _ _ _ _ H) as (names & n & v & t & b & d & vars & u & x & rest & A & _ & _ & _ & _ & Hc & _ & _ & L2 & Lc & ->).
  rewrite Hv in Hc. destruct (present_ex names) as (l & P). destruct (comps_ok _ _ _ _ _ _ _ _ _ _ P _ _ Hc) as [L N].
  cbn [ve_comps ve_time]. exists names, l. repeat split; auto; try lia. intros i m Hm. destruct (N i m Hm) as (y & Hy & E).
  destruct (c77_fields _ _ _ _ _ _ _ _ E) as (w & Ew & F1 & F2 & F3 & _ & F5 & F6 & F7). cbn [comp_args la_varname la_name la_units] in *.
  destruct (c77_location _ _ _ _ _ _ _ _ E) as (_ & _ & V & _).
  destruct (c77_time _ _ _ _ _ _ _ _ E) as (_ & _ & T & _).
  exists y, w. repeat split; auto.
Qed.
Print Assumptions c85_components.
(** When the names are looked up, every component of the class was found: the
    i-th is the variable found for the i-th. *)
Theorem c85_order :
  forall dateutil cftime depth now g f cls comps count c a r, load_vector dateutil cftime depth now g f cls comps count c a = Ok r ->
  vg_vars a = None -> vg_names a = None ->
  length (ve_comps r) = length comps /\
  forall i k, nth_error comps i = Some k -> exists x, nth_error (ve_comps r) i = Some x /\
    gen_varnames_comp (nc_vars f) (fst k) (snd k) = Some (va_varname x).
Proof.
  intros dateutil cftime depth now g f cls comps count c a r H Hv Hn.
  destruct (c85_components _ _ _ _ _ _ _ _ _ _ _ _ H Hv) as (names & l & [A|(_ & A & _)] & P & L & _ & Lc & N); [congruence|].
  assert (Ln : length names = length comps) by (subst; unfold gen_varnames; apply map_length).
  pose proof (present_length _ _ P) as Lp. pose proof (present_all _ _ P ltac:(lia)) as E. split; [lia|].
  intros i k Hk. assert (X : nth_error names i = Some (gen_varnames_comp (nc_vars f) (fst k) (snd k))).
  { rewrite A. unfold gen_varnames. rewrite nth_error_map, Hk. reflexivity. }
  rewrite E, nth_error_map in X. destruct (nth_error l i) as [n|] eqn:El; [|discriminate]. injection X as X.
  destruct (N i n El) as (x & w & Hx & _ & V & _). exists x. split; auto. now rewrite <- X, V.
Qed.
Print Assumptions c85_order.
(** The time is the given one, else that of the first variable. *)
Theorem c85_time :
  forall dateutil cftime depth now g f cls comps count c a r, load_vector dateutil cftime depth now g f cls comps count c a = Ok r ->
  exists names n v, Asked f comps a names /\ hd_error names = Some (Some n) /\ dget (lf_vars f) n = Some v /\
  (forall t, vg_time a = Some t -> ve_time r = TimeGiven t) /\
  (vg_time a = None -> exists b, load_time dateutil cftime f v (mkLargs n None None None (vg_tz a) (vg_origin a) (vg_disp a) false None) = Ok (ve_time r, b)).
Proof.
  intros dateutil cftime depth now g f cls comps count c a r H.
  destruct (vector_parts _ _ _ _ _ _ _ _ _ _ _ _ H) as (names & n & v & t & b & d & vars & u & x & rest & A & Hh & Hv & Ht & _ & _ & _ & _ & _ & _ & ->).
  exists names, n, v. cbn [ve_time]. unfold load_time in *. cbn [first_args la_time la_tz la_origin la_disp] in *. repeat split; auto.
  - intros t' E. rewrite E in Ht. congruence.
  - intros E. exists b. now rewrite E in Ht.
Qed.
Print Assumptions c85_time.
(** The name; the units: the given ones, else those all components have, else
    the list of theirs. *)
Theorem c85_units :
  forall dateutil cftime depth now g f cls comps count c a r, load_vector dateutil cftime depth now g f cls comps count c a = Ok r ->
  (forall n, vg_name a = Some n -> ve_name r = n) /\ (vg_name a = None -> ve_name r = vector_name cls count) /\
  (forall l, vg_vars a = Some l -> ve_comps r = l) /\
  (forall u, vg_units a = Some u -> ve_units r = OneUnit u) /\
  (vg_units a = None ->
    (forall u, (forall x, In x (ve_comps r) -> va_units x = Some u) -> ve_units r = OneUnit u) /\
    ((forall x, In x (ve_comps r) -> va_units x = None) -> ve_units r = NoUnits) /\
    (forall x y, In x (ve_comps r) -> In y (ve_comps r) -> va_units x <> va_units y -> ve_units r = Units (map va_units (ve_comps r)))).
Proof.
  intros dateutil cftime depth now g f cls comps count c a r H.
  destruct (vector_parts _ _ _ _ _ _ _ _ _ _ _ _ H) as (names & n & v & t & b & d & vars & u & x & rest & _ & _ & _ & _ & _ & Hc & Hu & E & _ & _ & ->).
  cbn [ve_name ve_comps ve_units]. split; [intros m ->; auto|]. split; [intros ->; auto|]. split; [intros l El; now rewrite El in Hc|].
  unfold units_of in Hu. split.
  - intros w Ew. rewrite Ew in Hu. congruence.
  - intros Ew. rewrite Ew in Hu. subst vars.
    assert (X : forall w, (forall y, In y (x :: rest) -> va_units y = w) -> u = match w with Some s => OneUnit s | None => NoUnits end).
    { intros w W. destruct (forallb _ (x :: rest)) eqn:F.
      - rewrite (W x) in Hu by now left. congruence.
      - exfalso. enough (forallb (fun y => opt_eqb (va_units y) (va_units x)) (x :: rest) = true) by congruence.
        apply forallb_forall. intros y Hy. apply opt_eqb_iff. rewrite !W; auto. now left. }
    split; [intros w W; now apply (X (Some w))|]. split; [now apply X|].
    intros p q Hp Hq N. destruct (forallb _ (x :: rest)) eqn:F; [|congruence]. exfalso. rewrite forallb_forall in F.
    apply N. transitivity (va_units x); [apply opt_eqb_iff; auto|]. symmetry. apply opt_eqb_iff. auto.
Qed.
Print Assumptions c85_units.

(** A component alike the first variable is what the file gives when it is
    loaded by itself. *)
Theorem c85_alone_partial :
  forall dateutil cftime depth now g f cls comps count c a r names l n v i m w, load_vector dateutil cftime depth now g f cls comps count c a = Ok r ->
  vg_vars a = None -> vg_time a = None -> vg_depth a = false -> length (t_data now) = 1 ->
  Asked f comps a names -> Present names l -> nth_error l 0 = Some n -> dget (lf_vars f) n = Some v ->
  nth_error l i = Some m -> dget (lf_vars f) m = Some w -> Alike f v w ->
  ((forall k, ~ TimeAxisOf f w k) -> length (lv_shape w) <> GridDimensions (ga_kind g) + 2) ->
  exists x y, nth_error (ve_comps r) i = Some x /\
    load_variable dateutil cftime depth g f (c + i) (mkLargs m None (vg_units a) None (vg_tz a) (vg_origin a) (vg_disp a) false None) = Ok y /\
    va_name y = va_name x /\ va_units y = va_units x /\ va_loc y = va_loc x /\ va_varname y = va_varname x /\ va_attrs y = va_attrs x /\
    va_shape y = va_shape x /\ time_value now (va_time y) = time_value now (va_time x) /\ (va_depth y = DepthNone <-> va_depth x = DepthNone).
Proof.
  intros dateutil cftime depth now g f cls comps count c a r names l n v i m w H Hv Ht Hd Hnow A P Hn Dv Hm Dw (K1 & K2 & K3 & K4) Hno.
  destruct (vector_parts _ _ _ _ _ _ _ _ _ _ _ _ H) as (names' & n' & v' & t & b & d & vars & u & x0 & rest & A' & Hh & Dv' & Et & Ed & Hc & _ & _ & _ & _ & ->).
  assert (names' = names).
  { destruct A as [A|(A & B & _)], A' as [A'|(A' & B' & _)]; congruence. } subst names'.
  rewrite Hv in Hc. destruct (comps_ok _ _ _ _ _ _ _ _ _ _ P _ _ Hc) as [L N].
  assert (n' = n). { destruct P as [|? ? P|? ? ? P]; cbn in Hh, Hn; congruence. } subst n'. assert (v' = v) by congruence. subst v'.
  destruct (N i m Hm) as (x & Hx & E). cbn [ve_comps]. exists x.
  destruct (load_parts _ _ _ _ _ _ _ _ E) as (w' & t' & b' & d' & loc & Ew & Et' & Ed' & El & Ex). cbn [comp_args la_varname la_name la_units la_loc] in *.
  assert (w' = w) by congruence. subst w'.
  unfold load_time in Et'. cbn [comp_args la_time] in Et'. injection Et' as <- <-.
  unfold load_time in Et. cbn [first_args la_time la_tz la_origin la_disp] in Et. rewrite Ht in Et.
  (* both locate the same axis *)
  assert (Loc : locate_time (tfile_of f) (tvar_of w) = locate_time (tfile_of f) (tvar_of v)).
  { destruct (locate_iff f v) as (V1 & V2 & V3), (locate_iff f w) as (W1 & W2 & W3).
    destruct (locate_time (tfile_of f) (tvar_of v)) as [[k|]|e] eqn:Ek.
    - apply W1, K1, V1. reflexivity.
    - apply W2; auto. intros k Hk. apply K1 in Hk. now apply (V3 eq_refl k).
    - cbn [bind] in Et. discriminate. }
  assert (Ty : load_time dateutil cftime f w (mkLargs m None (vg_units a) None (vg_tz a) (vg_origin a) (vg_disp a) false None) = Ok (t, b)).
  { unfold load_time. cbn [la_time la_tz la_origin la_disp]. rewrite Loc. exact Et. }
  assert (Tn : times t = times (TimeGiven (time_value now t))) by (destruct t; cbn; auto).
  assert (B : b = false -> forall k, ~ TimeAxisOf f w k).
  { intros -> k Hk. apply (proj1 (locate_iff f w)) in Hk. rewrite Loc in Hk. rewrite Hk in Et. cbn [bind] in Et.
    destruct (time_from_netCDF _ _ _ _ _ _ _ _ _ _) as [[|]|]; cbn [bind] in Et; try discriminate; congruence. }
  assert (GD : horizontal (ga_kind g) = GridDimensions (ga_kind g)) by (destruct (ga_kind g); reflexivity).
  unfold load_depth in Ed. cbn [first_args la_depth] in Ed. rewrite Hd in Ed.
  assert (D : exists dy, load_depth depth g w b (mkLargs m None (vg_units a) None (vg_tz a) (vg_origin a) (vg_disp a) false None) = Ok dy /\ (dy = DepthNone <-> d' = DepthNone)).
  { unfold load_depth in *. cbn [la_depth comp_args] in *. rewrite <- K2.
    destruct (Nat.eqb_spec (length (lv_shape v)) (horizontal (ga_kind g) + 1 + (if b then 1 else 0))) as [Q|Q].
    - destruct depth as [[]|]; cbn [bind] in Ed; [|discriminate]. injection Ed as <-. cbn [no_depth negb] in Ed'. injection Ed' as <-.
      cbn [bind]. eexists. split; [reflexivity|]. split; discriminate.
    - injection Ed as <-. cbn [no_depth negb] in Ed'. eexists. split; [reflexivity|].
      destruct (Nat.eqb_spec (length (lv_shape w)) (horizontal (ga_kind g) + 1 + 1)) as [Q'|Q']; [|split; congruence].
      exfalso. destruct b; [apply Q; lia|]. apply (Hno (B eq_refl)). rewrite <- GD. lia. }
  destruct D as (dy & Edy & Di).
  assert (Ly : construct g (dget (lv_attrs w) "location") (lv_shape w) (dget (lv_attrs w) "location") t = Ok loc).
  { unfold construct in *. rewrite Tn. exact El. }
  eexists. split; [exact Hx|]. split.
  - unfold load_variable. cbn [la_varname la_name la_units la_loc]. rewrite Dw. cbv zeta. rewrite Ty. cbn [bind fst snd]. rewrite Edy. cbn [bind].
    rewrite Ly. cbn [bind]. reflexivity.
  - subst x. cbn [va_name va_units va_loc va_varname va_attrs va_shape va_time va_depth]. repeat split; auto; apply Di.
Qed.
Print Assumptions c85_alone_partial.

Definition demo_now : time_obj := mkTime [7%Z] None None.
Definition demo_vfile : lfile := mkLfile ["time"; "time2"; "s"; "y"; "x"]
  [("time", mkLvar ["time"] [2] [("units", "hours since 2024-01-01T00:00:00")] [1; 2]%Z);
   ("time2", mkLvar ["time2"] [2] [("units", "hours since 2024-01-01T00:00:00")] [5; 6]%Z);
   ("u", mkLvar ["time"; "y"; "x"] [2; 3; 4] [("units", "m/s")] []);
   ("v", mkLvar ["time"; "y"; "x"] [2; 3; 4] [("units", "m/s"); ("standard_name", "northward")] []);
   ("late", mkLvar ["time2"; "y"; "x"] [2; 3; 4] [("units", "m/s")] []);
   ("deep", mkLvar ["time"; "s"; "y"; "x"] [2; 5; 3; 4] [("units", "cm/s")] [])].
Definition demo_vargs (names : option (list (option string))) : vargs := mkVargs names None None None TzNone None None false None.
Definition uv : list (list string * list string) := [(["u"], []); ([], ["northward"])].
Definition demo_load (a : vargs) : result vector := load_vector demo_dateutil demo_cftime (Ok tt) demo_now demo_s demo_vfile "VelocityUV" uv 3 10 a.
Example c85_demo : exists r x y, demo_load (demo_vargs None) = Ok r /\ ve_comps r = [x; y] /\ va_varname x = "u" /\ va_varname y = "v" /\
  ve_units r = OneUnit "m/s" /\ ve_name r = "VelocityUV_3" /\ ve_depth r = DepthNone /\ va_name y = "Variable_11" /\ va_loc y = "node" /\
  va_time x = va_time y /\ times (va_time y) = 2.
Proof. eexists _, _, _. split; [vm_compute; reflexivity|]. repeat split. Qed.
Example c85_units_demo : exists r, demo_load (demo_vargs (Some [Some "u"; Some "deep"])) = Ok r /\ ve_units r = Units [Some "m/s"; Some "cm/s"].
Proof. eexists. split; [vm_compute; reflexivity|reflexivity]. Qed.
Example c85_alone_demo : exists r x y, demo_load (demo_vargs (Some [Some "u"; Some "v"])) = Ok r /\ nth_error (ve_comps r) 1 = Some x /\
  load_variable demo_dateutil demo_cftime (Ok tt) demo_s demo_vfile 11 (demo_args "v" None) = Ok y /\
  time_value demo_now (va_time y) = time_value demo_now (va_time x).
Proof. eexists _, _, _. split; [vm_compute; reflexivity|]. split; [reflexivity|]. split; [vm_compute; reflexivity|reflexivity]. Qed.

(** Which variable is found for a component: the last of its default names that
    the file has; failing that, for the last of its standard names that any
    variable carries as standard_name or long_name, the first such variable. *)
Definition CarriesName (s : string) (kv : string * lvar) : Prop :=
  dget (lv_attrs (snd kv)) "standard_name" = Some s \/ dget (lv_attrs (snd kv)) "long_name" = Some s.
Theorem c85_found :
  forall f comps i names stds, nth_error comps i = Some (names, stds) ->
  exists o, nth_error (gen_varnames f comps) i = Some o /\
  match o with
  | Some n => LastWith (fun m => exists v, In (m, v) (lf_vars f)) names n \/
      NoneWith (fun m => exists v, In (m, v) (lf_vars f)) names /\
      exists s w, LastWith (fun s => exists kv, In kv (lf_vars f) /\ CarriesName s kv) stds s /\ FirstWith (CarriesName s) (lf_vars f) (n, w)
  | None => NoneWith (fun m => exists v, In (m, v) (lf_vars f)) names /\ NoneWith (fun s => exists kv, In kv (lf_vars f) /\ CarriesName s kv) stds
  end.
Proof.
  intros f comps i names stds H. exists (gen_varnames_comp (nc_vars f) names stds). split; [unfold gen_varnames; rewrite nth_error_map, H; reflexivity|].
  pose proof (c16_vector_last_candidate (nc_vars f) names stds) as T.
  assert (A : forall m, InFile (nc_vars f) m <-> exists v, In (m, v) (lf_vars f)).
  { intros m. unfold InFile, nc_vars. split.
    - intros (x & Hx & <-). apply in_map_iff in Hx as ([k w] & <- & Hx). exists w. exact Hx.
    - intros (w & Hw). eexists. split; [apply in_map_iff; exists (m, w); split; [reflexivity|exact Hw]|reflexivity]. }
  assert (B : forall s, (exists v, In v (nc_vars f) /\ Labelled s v) <-> exists kv, In kv (lf_vars f) /\ CarriesName s kv).
  { intros s. unfold nc_vars, Labelled, CarriesName. split.
    - intros (x & Hx & L). apply in_map_iff in Hx as (kv & <- & Hx). exists kv. split; auto.
    - intros (kv & Hx & L). eexists. split; [apply in_map_iff; exists kv; split; [reflexivity|exact Hx]|exact L]. }
  assert (N1 : NoneWith (InFile (nc_vars f)) names -> NoneWith (fun m => exists v, In (m, v) (lf_vars f)) names).
  { intros N y Hy X. apply (N y Hy), A, X. }
  destruct (gen_varnames_comp (nc_vars f) names stds) as [n|].
  - destruct T as [(pre & post & -> & L & N)|(N & s & v & (pre & post & -> & L & N2) & (p1 & p2 & E2 & L2 & N3) & <-)].
    + left. exists pre, post. split; auto. split; [now apply A|]. intros y Hy X. apply (N y Hy), A, X.
    + right. split; [auto|]. unfold nc_vars in E2.
      apply map_eq_app in E2 as (q1 & q2 & F & E1 & E2). apply map_eq_cons in E2 as (kv & q3 & -> & E2 & _). subst v p1. destruct kv as [k w].
      exists s, w. split.
      * exists pre, post. split; auto. split; [now apply B|]. intros y Hy X. apply (N2 y Hy), B, X.
      * exists q1, q3. split; [exact F|]. split; [exact L2|]. intros y Hy X. apply (N3 (mkNC (fst y) (dget (lv_attrs (snd y)) "standard_name") (dget (lv_attrs (snd y)) "long_name"))); [|exact X].
        apply in_map_iff. eauto.
  - destruct T as [N N2]. split; auto. intros y Hy X. apply (N2 y Hy), B, X.
Qed.
Print Assumptions c85_found.
Example c85_found_demo :
  let f := mkLfile [] [("a", mkLvar [] [] [("long_name", "north")] []); ("b", mkLvar [] [] [("standard_name", "north")] []); ("u", mkLvar [] [] [] [])] in
  gen_varnames f [(["u"; "water_u"], []); (["v"], ["northward"; "north"]); (["w"], [])] = [Some "u"; Some "a"; None].
Proof. reflexivity. Qed.
(** Components not named, after the first, are as if they were not mentioned. *)
Definition naming (a : vargs) (names : list (option string)) : vargs :=
  mkVargs (Some names) (vg_name a) (vg_units a) (vg_time a) (vg_tz a) (vg_origin a) (vg_disp a) (vg_depth a) (vg_vars a).
Theorem c85_missing :
  forall dateutil cftime depth now g f cls comps count c a n names l, Present names l ->
  load_vector dateutil cftime depth now g f cls comps count c (naming a (Some n :: names)) =
  load_vector dateutil cftime depth now g f cls comps count c (naming a (map Some (n :: l))).
Proof.
  intros dateutil cftime depth now g f cls comps count c a n names l P.
  assert (C : forall a' t d k, load_comps dateutil cftime depth g f t d a' k names = load_comps dateutil cftime depth g f t d a' k (map Some l)).
  { clear a c. induction P as [|r l P IH|m r l P IH]; intros a t d k; cbn [load_comps map]; auto. destruct (load_variable _ _ _ _ _ _ _); cbn [bind]; auto.
    now rewrite IH. }
  assert (D : forall x y t d m k, load_comps dateutil cftime depth g f t d (naming a x) k m = load_comps dateutil cftime depth g f t d (naming a y) k m).
  { intros x y t d. induction m as [|[q|] m IH]; intros k; cbn [load_comps]; auto. change (comp_args q t d (naming a y)) with (comp_args q t d (naming a x)).
    destruct (load_variable _ _ _ _ _ _ _); cbn [bind]; auto. now rewrite IH. }
  unfold load_vector, names_of. cbn [naming vg_names bind map first_var]. destruct (dget (lf_vars f) n) as [v|]; [|reflexivity]. cbn [bind].
  change (first_args (naming a (Some n :: map Some l))) with (first_args (naming a (Some n :: names))).
  destruct (load_time _ _ _ _ _) as [t|]; [|reflexivity]. cbn [bind]. destruct (load_depth _ _ _ _ _) as [d|]; [|reflexivity]. cbn [bind].
  cbn [vg_vars vg_units vg_name naming]. destruct (vg_vars a) as [vs|]; [reflexivity|].
  match goal with |- bind ?x _ = bind ?y _ => replace y with x; [reflexivity|] end.
  cbn [load_comps]. rewrite (D (Some n :: names) (Some n :: map Some l)), C. reflexivity.
Qed.
Print Assumptions c85_missing.
Example c85_missing_demo : exists r, load_vector demo_dateutil demo_cftime (Ok tt) demo_now demo_s demo_vfile "VelocityUV" uv 3 10 (demo_vargs (Some [Some "u"; None; Some "v"])) = Ok r /\
  map va_varname (ve_comps r) = ["u"; "v"].
Proof. eexists. split; [vm_compute; reflexivity|reflexivity]. Qed.

(** A component on another time axis gets the times of the first one. *)
Theorem c85_times_refuted :
  exists r x y, demo_load (demo_vargs (Some [Some "u"; Some "late"])) = Ok r /\ nth_error (ve_comps r) 1 = Some x /\
    load_variable demo_dateutil demo_cftime (Ok tt) demo_s demo_vfile 11 (demo_args "late" None) = Ok y /\
    time_value demo_now (va_time x) <> time_value demo_now (va_time y).
Proof.
  eexists _, _, _. split; [vm_compute; reflexivity|]. split; [reflexivity|]. split; [vm_compute; reflexivity|].
  cbn [va_time time_value]. intros H. apply (f_equal t_data) in H. discriminate.
Qed.
Print Assumptions c85_times_refuted.
(** The first variable decides on depth: a second one without gets it, and the
    vector of a first one without has none, though its second has. *)
Theorem c85_depth_refuted :
  (exists r x y, demo_load (demo_vargs (Some [Some "deep"; Some "v"])) = Ok r /\ nth_error (ve_comps r) 1 = Some x /\
    load_variable demo_dateutil demo_cftime (Ok tt) demo_s demo_vfile 11 (demo_args "v" None) = Ok y /\
    va_depth x = DepthGiven /\ va_depth y = DepthNone) /\
  (exists r x, demo_load (demo_vargs (Some [Some "u"; Some "deep"])) = Ok r /\ nth_error (ve_comps r) 1 = Some x /\
    ve_depth r = DepthNone /\ va_depth x = DepthRead).
Proof.
  split.
  - eexists _, _, _. split; [vm_compute; reflexivity|]. split; [reflexivity|]. split; [vm_compute; reflexivity|]. split; reflexivity.
  - eexists _, _. split; [vm_compute; reflexivity|]. split; [reflexivity|]. split; reflexivity.
Qed.
Print Assumptions c85_depth_refuted.
(** Four-dimensional data without a time axis: by itself without depth, as a
    component with one. *)
Theorem c85_no_axis_refuted :
  exists f r x y, load_vector demo_dateutil demo_cftime (Ok tt) demo_now demo_s f "VelocityUV" uv 0 0 (demo_vargs (Some [Some "u"; Some "v"])) = Ok r /\
    nth_error (ve_comps r) 1 = Some x /\ load_variable demo_dateutil demo_cftime (Ok tt) demo_s f 1 (demo_args "v" None) = Ok y /\
    va_depth x = DepthRead /\ va_depth y = DepthNone.
Proof.
  exists (mkLfile ["run"; "s"; "y"; "x"] [("u", mkLvar ["run"; "s"; "y"; "x"] [1; 5; 3; 4] [] []); ("v", mkLvar ["run"; "s"; "y"; "x"] [1; 5; 3; 4] [] [])]).
  eexists _, _, _. split; [vm_compute; reflexivity|]. split; [reflexivity|]. split; [vm_compute; reflexivity|]. split; reflexivity.
Qed.
Print Assumptions c85_no_axis_refuted.

(** Refusals. *)
Theorem c85_errors :
  forall dateutil cftime depth now g f cls comps count c a,
  let load := load_vector dateutil cftime depth now g f cls comps count c a in
  (vg_names a = None -> (forall n, ~ In (Some n) (gen_varnames f comps)) -> load = Err ValueError) /\
  (vg_names a = Some [] -> load = Err IndexError) /\
  (forall r, vg_names a = Some (None :: r) -> load = Err TypeError) /\
  (forall n r, vg_names a = Some (Some n :: r) -> dget (lf_vars f) n = None -> load = Err IndexError) /\
  (forall r, vg_names a = None -> gen_varnames f comps = None :: r -> (exists n, In (Some n) r) -> load = Err TypeError) /\
  (forall names n v t b d, Asked f comps a names -> hd_error names = Some (Some n) -> dget (lf_vars f) n = Some v ->
     load_time dateutil cftime f v (first_args a) = Ok (t, b) -> load_depth depth g v b (first_args a) = Ok d ->
     (forall x, vg_vars a = Some [x] -> load = Err ValueError) /\
     (vg_vars a = Some [] -> load = Err (match vg_units a with Some _ => ValueError | None => IndexError end)) /\
     (forall x y l, vg_vars a = Some (x :: y :: l) -> S (S (length l)) < length comps -> load = Err IndexError)).
Proof.
  intros dateutil cftime depth now g f cls comps count c a load. unfold load, load_vector.
  assert (F : forall l : list (option string), (exists n, In (Some n) l) -> forallb is_none l = false).
  { intros l (n & Hn). destruct (forallb is_none l) eqn:E; auto. rewrite forallb_forall in E. apply E in Hn. discriminate. }
  repeat apply conj.
  - intros E N. unfold names_of. rewrite E. cbv zeta. destruct (forallb is_none (gen_varnames f comps)) eqn:X; [reflexivity|].
    exfalso. revert N X. clear. induction (gen_varnames f comps) as [|[n|] l IH]; intros N X; try discriminate.
    + apply (N n). now left.
    + apply IH; auto. intros n Hn. apply (N n). now right.
  - intros E. unfold names_of. rewrite E. reflexivity.
  - intros r E. unfold names_of. rewrite E. reflexivity.
  - intros n r E D. unfold names_of. rewrite E. cbn [bind first_var]. now rewrite D.
  - intros r E G X. unfold names_of. rewrite E, G. cbn [forallb is_none andb]. rewrite F by auto. reflexivity.
  - intros names n v t b d A Hh Dv Et Ed.
    assert (N : names_of f comps a = Ok names).
    { unfold names_of. destruct A as [->|(-> & -> & X)]; auto. cbv zeta. now rewrite F. }
    rewrite N. cbn [bind]. destruct names as [|[m|] names]; try discriminate. cbn in Hh. injection Hh as ->. cbn [first_var]. rewrite Dv. cbn [bind].
    rewrite Et. cbn [bind fst snd]. rewrite Ed. cbn [bind].
    repeat split.
    + intros x ->. cbn [bind]. unfold units_of. destruct (vg_units a); [reflexivity|]. destruct (forallb _ [x]); reflexivity.
    + intros ->. cbn [bind]. unfold units_of. destruct (vg_units a); reflexivity.
    + intros x y l -> L. cbn [bind]. assert (U : exists u, units_of (vg_units a) (x :: y :: l) = Ok u).
      { unfold units_of. destruct (vg_units a); [eauto|]. destruct (forallb _ (x :: y :: l)); eauto. }
      destruct U as (u & ->). cbn [bind length]. destruct (Nat.ltb_spec (S (S (length l))) 2); [lia|].
      destruct (Nat.ltb_spec (S (S (length l))) (length comps)); [reflexivity|lia].
Qed.
Print Assumptions c85_errors.
Example c85_errors_demo : demo_load (demo_vargs (Some [None; Some "v"])) = Err TypeError /\ demo_load (demo_vargs (Some [Some "u"])) = Err ValueError /\
  demo_load (demo_vargs (Some [Some "w"; Some "v"])) = Err IndexError /\ demo_load (demo_vargs (Some [Some "u"; Some "w"])) = Err KeyError.
Proof. repeat split; vm_compute; reflexivity. Qed.
