(** Theorems about loading variables (C77) and datasets (C78). *)
From Coq Require Import String Ascii.
From Verif Require Import Common CommonProofs TimeModel TimeSpec GridTypeModel GridTypeSpec GridTypeProofs MaskModel MaskSpec MaskProofs
  SGridModel UGridModel RGridModel TFileModel TFileSpec TFileProofs TFileProps LoadModel LoadSpec LoadProofs.
Open Scope string_scope.
Open Scope list_scope.
Open Scope nat_scope.

(** ** C77: one variable *)
(** A loaded variable has a valid location: the given one, else that of the
    file, else the one the grid infers; its first dimension fits its times. *)
Theorem c77_location :
  forall dateutil cftime depth g f c a r, load_variable dateutil cftime depth g f c a = Ok r ->
  exists v, dget (lf_vars f) (la_varname a) = Some v /\ ValidLocation (va_loc r) /\
  (forall l, la_loc a = Some l -> va_loc r = l) /\
  (la_loc a = None -> forall l, dget (lv_attrs v) "location" = Some l -> va_loc r = l) /\
  (la_loc a = None -> dget (lv_attrs v) "location" = None -> ga_infer g None (lv_shape v) = Ok (Some (va_loc r))) /\
  exists d rest, lv_shape v = d :: rest /\ (times (va_time r) <= 1 \/ times (va_time r) = d).
Proof.
  intros dateutil cftime depth g f c a r H.
  destruct (load_parts _ _ _ _ _ _ _ _ H) as (v & t & b & d & l & Ev & Et & Ed & El & ->).
  apply construct_ok in El. destruct El as (V & A & B & D). exists v. cbn [va_loc va_time].
  split; [exact Ev|]. split; [exact V|]. split; [|split; [|split; [|exact D]]].
  - intros m E. rewrite E in A. apply A. reflexivity.
  - intros E m Em. rewrite E, Em in A. apply A. reflexivity.
  - intros E En. rewrite E, En in B. apply B. reflexivity.
Qed.
Print Assumptions c77_location.
(** Name, units, attributes and shape. *)
Theorem c77_fields :
  forall dateutil cftime depth g f c a r, load_variable dateutil cftime depth g f c a = Ok r ->
  exists v, dget (lf_vars f) (la_varname a) = Some v /\ va_varname r = la_varname a /\
  va_attrs r = lv_attrs v /\ va_shape r = lv_shape v /\
  (forall n, la_name a = Some n -> va_name r = n) /\ (la_name a = None -> va_name r = default_name c) /\
  (forall u, la_units a = Some u -> va_units r = Some u) /\ (la_units a = None -> va_units r = dget (lv_attrs v) "units").
Proof.
  intros dateutil cftime depth g f c a r H.
  destruct (load_parts _ _ _ _ _ _ _ _ H) as (v & t & b & d & l & Ev & _ & _ & _ & ->). exists v. cbn.
  repeat split; auto; intros; rewrite ?H0; auto.
Qed.
Print Assumptions c77_fields.
(** The time: the given one, else the one read from the axis of the variable,
    else the present. *)
Theorem c77_time :
  forall dateutil cftime depth g f c a r, load_variable dateutil cftime depth g f c a = Ok r ->
  exists v, dget (lf_vars f) (la_varname a) = Some v /\
  (forall t, la_time a = Some t -> va_time r = TimeGiven t) /\
  (la_time a = None ->
    (forall n, TimeAxisOf f v n -> exists t nm,
       time_from_netCDF dateutil cftime (tfile_of f) (Some n) DVNone (la_tz a) None None (la_origin a) (la_disp a) = Ok (Axis t nm) /\
       va_time r = TimeRead t nm) /\
    ((forall n, ~ TimeAxisOf f v n) -> va_time r = TimeNow)).
Proof.
  intros dateutil cftime depth g f c a r H.
  destruct (load_parts _ _ _ _ _ _ _ _ H) as (v & t & b & d & l & Ev & Et & _ & _ & ->). exists v. cbn [va_time].
  split; [exact Ev|]. unfold load_time in Et. destruct (locate_iff f v) as (L1 & _ & _). split.
  - intros t' E. rewrite E in Et. congruence.
  - intros E. rewrite E in Et.
    destruct (locate_time (tfile_of f) (tvar_of v)) as [[n|]|e] eqn:Eloc; cbn [bind] in Et; try discriminate.
    + assert (T : TimeAxisOf f v n) by (apply L1; reflexivity). split; [|intros N; exfalso; apply (N n T)].
      intros m Tm. apply L1 in Tm. injection Tm as <-.
      destruct (time_from_netCDF dateutil cftime (tfile_of f) (Some n) DVNone (la_tz a) None None (la_origin a) (la_disp a)) as [[|t' nm]|e] eqn:Er;
        cbn [bind] in Et; try discriminate.
      * exfalso. unfold time_from_netCDF in Er. cbn [bind] in Er.
        destruct (dget (tf_vars (tfile_of f)) n) as [tv|]; [|discriminate]. unfold read_axis in Er.
        destruct (tz_of dateutil tv (la_tz a)) as [p|]; [|discriminate]. cbn [bind] in Er. destruct (tv_units tv) as [u|]; [|discriminate].
        destruct (num2date cftime u (tv_vals tv)) as [da|]; [|discriminate]. cbn [bind] in Er.
        destruct (time_init da (fst p) None (la_origin a) (la_disp a)); discriminate.
      * injection Et as <- _. exists t', nm. auto.
    + split; [intros n T; apply L1 in T; discriminate|]. intros _. congruence.
Qed.
Print Assumptions c77_time.
(** With axes whose units are in UTC (C75), these are the instants in the file. *)
Theorem c77_time_instants_partial :
  forall dateutil cftime depth g f c a r v n w l,
  load_variable dateutil cftime depth g f c a = Ok r ->
  la_time a = None -> la_tz a = TzNone -> la_origin a = None -> la_disp a = None ->
  dget (lf_vars f) (la_varname a) = Some v -> TimeAxisOf f v n -> dget (lf_vars f) n = Some w ->
  let axis := mkTvar (lv_dims w) None (dget (lv_attrs w) "units") (lv_vals w) in
  FileInstants cftime axis l -> SameOffset dateutil cftime axis 0 -> StrictlyIncreasing l ->
  exists t nm, va_time r = TimeRead t nm /\ Denotes t l.
Proof.
  intros dateutil cftime depth g f c a r v n w l H Ht Hz Ho Hd Hv Ha Hw axis HI HS Hl.
  destruct (c77_time _ _ _ _ _ _ _ _ H) as (v' & Hv' & _ & K). assert (v' = v) by congruence. subst v'.
  destruct (K Ht) as [K1 _]. destruct (K1 n Ha) as (t & nm & E & R). exists t, nm. split; [exact R|].
  rewrite Hz, Ho, Hd in E. unfold time_from_netCDF in E. cbn [bind tfile_of tf_vars] in E.
  assert (M : dget (map (fun kv : string * lvar => (fst kv, tvar_of (snd kv))) (lf_vars f)) n = Some (tvar_of w)).
  { clear - Hw. induction (lf_vars f) as [|[k x] vs IH]; [discriminate|]. cbn [map fst snd dget] in *. destruct (String.eqb _ _); [congruence|auto]. }
  rewrite M in E.
  destruct (c75_instants_partial dateutil cftime (tvar_of w) None None l HI HS Hl) as (t' & n' & E' & D).
  rewrite E' in E. injection E as <- _. exact D.
Qed.
Print Assumptions c77_time_instants_partial.
(** The data of the axis are the instants in the file (UTC), whatever zone its
    units are written in; only the offset is recorded on top (C75). *)
Lemma since_axis dateutil cftime v u l : FileInstants cftime v l -> tv_units v = Some u -> Mentions "since" u -> StrictlyIncreasing l ->
  exists t n, read_axis dateutil cftime v TzNone None None None None = Ok (Axis t n) /\ t_data t = l.
Proof.
  intros FI Hu Hs SI. assert (P : exists p, tz_of dateutil v TzNone = Ok p).
  { assert (T : exists t, since_part u = Ok t).
    { unfold since_part. destruct (cut "since" u) as [[a b]|] eqn:E; [|apply cut_none in E; contradiction]. destruct (cut "since" b) as [[? ?]|]; eauto. }
    destruct T as (t & Ht). rewrite (c75_names dateutil v u t Hu Ht). eauto. }
  destruct P as (p & Hp). destruct (c75_axis dateutil cftime v TzNone None None None None l p FI Hp) as [A _]; [congruence|congruence|].
  destruct (A SI) as (t & Et & Hm & _). exists t. eexists. split; [exact Et|].
  apply moved_map in Hm. revert Hm. unfold requested_move. destruct (fst p); generalize (t_data t); clear; intros l' Hm; (induction Hm as [|x y xs ys E _ IH]; [reflexivity|]; f_equal; [lia|exact IH]).
Qed.
Theorem c77_time_data :
  forall dateutil cftime depth g f c a r v n w l u,
  load_variable dateutil cftime depth g f c a = Ok r ->
  la_time a = None -> la_tz a = TzNone -> la_origin a = None -> la_disp a = None ->
  dget (lf_vars f) (la_varname a) = Some v -> TimeAxisOf f v n -> dget (lf_vars f) n = Some w ->
  let axis := mkTvar (lv_dims w) None (dget (lv_attrs w) "units") (lv_vals w) in
  FileInstants cftime axis l -> tv_units axis = Some u -> Mentions "since" u -> StrictlyIncreasing l ->
  exists t nm, va_time r = TimeRead t nm /\ t_data t = l.
Proof.
  intros dateutil cftime depth g f c a r v n w l u H Ht Hz Ho Hd Hv Ha Hw axis HI Hu HS Hl.
  destruct (c77_time _ _ _ _ _ _ _ _ H) as (v' & Hv' & _ & K). assert (v' = v) by congruence. subst v'.
  destruct (K Ht) as [K1 _]. destruct (K1 n Ha) as (t & nm & E & R). exists t, nm. split; [exact R|].
  rewrite Hz, Ho, Hd in E. unfold time_from_netCDF in E. cbn [bind tfile_of tf_vars] in E.
  assert (M : dget (map (fun kv : string * lvar => (fst kv, tvar_of (snd kv))) (lf_vars f)) n = Some (tvar_of w)).
  { clear - Hw. induction (lf_vars f) as [|[k x] vs IH]; [discriminate|]. cbn [map fst snd dget] in *. destruct (String.eqb _ _); [congruence|auto]. }
  rewrite M in E.
  destruct (since_axis dateutil cftime (tvar_of w) u l HI Hu HS Hl) as (t' & n' & E' & D).
  rewrite E' in E. injection E as <- _. exact D.
Qed.
Print Assumptions c77_time_data.
(** Depth, with no time given: read exactly when there is a dimension besides
    those of the grid and of time.  Missing: a given time. *)
Theorem c77_depth_partial :
  forall dateutil cftime depth g f c a r, load_variable dateutil cftime depth g f c a = Ok r -> la_time a = None ->
  exists v, dget (lf_vars f) (la_varname a) = Some v /\
  (la_depth a = true -> va_depth r = DepthGiven) /\
  (la_depth a = false ->
    (forall n, TimeAxisOf f v n -> (va_depth r = DepthRead <-> length (lv_shape v) = GridDimensions (ga_kind g) + 2)) /\
    ((forall n, ~ TimeAxisOf f v n) -> (va_depth r = DepthRead <-> length (lv_shape v) = GridDimensions (ga_kind g) + 1)) /\
    (va_depth r <> DepthRead -> va_depth r = DepthNone)).
Proof.
  intros dateutil cftime depth g f c a r H Hn.
  destruct (load_parts _ _ _ _ _ _ _ _ H) as (v & t & b & d & l & Ev & Et & Ed & _ & ->). exists v. cbn [va_depth].
  split; [exact Ev|]. unfold load_depth in Ed. destruct (locate_iff f v) as (L1 & _ & _).
  assert (B : (forall n, TimeAxisOf f v n -> b = true) /\ ((forall n, ~ TimeAxisOf f v n) -> b = false)).
  { unfold load_time in Et. rewrite Hn in Et.
    destruct (locate_time (tfile_of f) (tvar_of v)) as [[n|]|e]; cbn [bind] in Et; try discriminate.
    - split.
      + intros _ _. destruct (time_from_netCDF _ _ _ _ _ _ _ _ _ _) as [[|]|]; cbn [bind] in Et; try discriminate; congruence.
      + intros N. exfalso. apply (N n). apply L1. reflexivity.
    - split; [intros n T; apply L1 in T; discriminate|]. congruence. }
  destruct B as [B1 B2]. split.
  - intros E. rewrite E in Ed. congruence.
  - intros E. rewrite E in Ed.
    assert (K : d = DepthRead <-> length (lv_shape v) = horizontal (ga_kind g) + 1 + (if b then 1 else 0)).
    { destruct (Nat.eqb_spec (length (lv_shape v)) (horizontal (ga_kind g) + 1 + (if b then 1 else 0))) as [Q|Q].
      - destruct depth; cbn [bind] in Ed; [|discriminate]. split; congruence.
      - split; [congruence|contradiction]. }
    assert (GD : horizontal (ga_kind g) = GridDimensions (ga_kind g)) by (destruct (ga_kind g); reflexivity). rewrite GD in K.
    split; [|split].
    + intros n T. rewrite K, (B1 n T). lia.
    + intros N. rewrite K, (B2 N). lia.
    + intros N. destruct (Nat.eqb _ _) in Ed; [destruct depth; cbn [bind] in Ed; [|discriminate]|]; congruence.
Qed.
Print Assumptions c77_depth_partial.
(** When the time is given, a time dimension is assumed: three-dimensional data
    without one loses its depth. *)
Definition demo_s : grid_api := mkGrid KS (s_infer (3, 4) true true true) [("node_lon", "lon"); ("node_lat", "lat")].
Definition demo_file : lfile := mkLfile ["ocean_time"; "s"; "y"; "x"]
  [("ocean_time", mkLvar ["ocean_time"] [2] [("units", "hours since 2024-01-01T00:00:00")] [1; 2]%Z);
   ("temp", mkLvar ["s"; "y"; "x"] [5; 3; 4] [("units", "C")] []);
   ("salt", mkLvar ["ocean_time"; "y"; "x"] [2; 2; 3] [("long_name", "salinity")] []);
   ("lon", mkLvar ["y"; "x"] [3; 4] [] [])].
Definition demo_args (n : string) (t : option time_obj) : largs := mkLargs n None None t TzNone None None false None.
Theorem c77_depth_refuted :
  exists g f (a : option time_obj -> largs) t r r', load_variable demo_dateutil demo_cftime (Ok tt) g f 0 (a None) = Ok r /\
    load_variable demo_dateutil demo_cftime (Ok tt) g f 0 (a (Some t)) = Ok r' /\ times (va_time r') = times (va_time r) /\
    va_depth r = DepthRead /\ va_depth r' = DepthNone.
Proof.
  exists demo_s, demo_file, (demo_args "temp"), (mkTime [7%Z] None None). eexists _, _.
  split; [vm_compute; reflexivity|]. split; [vm_compute; reflexivity|]. repeat split.
Qed.
Print Assumptions c77_depth_refuted.
(** Exactly when loading succeeds. *)
Theorem c77_accept :
  forall dateutil cftime depth g f c a,
  (exists r, load_variable dateutil cftime depth g f c a = Ok r) <->
  exists v t b d l n rest, dget (lf_vars f) (la_varname a) = Some v /\
    load_time dateutil cftime f v a = Ok (t, b) /\ load_depth depth g v b a = Ok d /\
    lv_shape v = n :: rest /\ (times t <= 1 \/ times t = n) /\ ValidLocation l /\
    match la_loc a, dget (lv_attrs v) "location" with
    | Some m, _ | None, Some m => l = m
    | None, None => ga_infer g None (lv_shape v) = Ok (Some l)
    end.
Proof.
  intros dateutil cftime depth g f c a. split.
  - intros [r H]. destruct (load_parts _ _ _ _ _ _ _ _ H) as (v & t & b & d & l & Ev & Et & Ed & El & _).
    apply construct_ok in El. destruct El as (V & A & B & (n & rest & S & T)).
    exists v, t, b, d, l, n, rest. repeat split; auto.
    destruct (la_loc a) as [m|]; [apply A; reflexivity|]. destruct (dget (lv_attrs v) "location") as [m|]; auto.
  - intros (v & t & b & d & l & n & rest & Ev & Et & Ed & Es & T & V & L). unfold load_variable. rewrite Ev, Et. cbn [bind snd fst].
    rewrite Ed. cbn [bind].
    assert (K : construct g (dget (lv_attrs v) "location") (lv_shape v)
       (match la_loc a with Some l0 => Some l0 | None => dget (lv_attrs v) "location" end) t = Ok l).
    { assert (F : (if negb (times t =? n) && (1 <? times t) then Err ValueError else Ok l) = Ok l).
      { destruct (Nat.eqb_spec (times t) n); cbn [negb andb]; auto. destruct (Nat.ltb_spec 1 (times t)); auto. lia. }
      apply valid_iff in V. unfold construct. rewrite Es in *.
      destruct (la_loc a) as [m|]; [subst m|destruct (dget (lv_attrs v) "location") as [m|]; [subst m|]]; cbn [check_location bind].
      - rewrite V. cbn [bind]. exact F.
      - rewrite V. cbn [bind]. exact F.
      - rewrite L. cbn [bind check_location]. rewrite V. cbn [bind]. exact F. }
    rewrite K. cbn [bind]. eauto.
Qed.
Print Assumptions c77_accept.
Theorem c77_errors :
  forall dateutil cftime depth g f c a,
  (dget (lf_vars f) (la_varname a) = None -> load_variable dateutil cftime depth g f c a = Err KeyError) /\
  (forall v t b d l, dget (lf_vars f) (la_varname a) = Some v -> load_time dateutil cftime f v a = Ok (t, b) ->
     load_depth depth g v b a = Ok d -> la_loc a = Some l -> ~ ValidLocation l ->
     load_variable dateutil cftime depth g f c a = Err ValueError).
Proof.
  intros dateutil cftime depth g f c a. split.
  - intros H. unfold load_variable. now rewrite H.
  - intros v t b d l Hv Ht Hd Hl Hn. unfold load_variable. rewrite Hv, Ht. cbn [bind snd fst]. rewrite Hd. cbn [bind].
    rewrite Hl. unfold construct. cbn [check_location]. destruct (isin l valid_locations) eqn:V; [|reflexivity].
    apply valid_iff in V. contradiction.
Qed.
Print Assumptions c77_errors.
(** Default names are never given twice. *)
Theorem c77_default_names :
  forall l c i j, nth_error l i = Some None -> nth_error l j = Some None -> i <> j ->
  nth_error (given_names c l) i <> nth_error (given_names c l) j.
Proof.
  assert (G : forall l c i, nth_error l i = Some None -> exists n, c <= n /\ nth_error (given_names c l) i = Some (default_name n)).
  { induction l as [|[n|] l IH]; intros c [|i] H; try discriminate.
    - apply (IH c i H).
    - exists c. auto.
    - destruct (IH (S c) i H) as (n & Hn & E). exists n. split; [lia|exact E]. }
  induction l as [|[n|] l IH]; intros c [|i] [|j] Hi Hj Hd; try discriminate; try congruence; cbn [given_names nth_error].
  - apply IH; auto.
  - destruct (G l (S c) j Hj) as (n & Hn & ->). intros E. apply (f_equal (fun o => match o with Some s => s | None => "" end)) in E. apply default_name_inj in E. lia.
  - destruct (G l (S c) i Hi) as (n & Hn & ->). intros E. apply (f_equal (fun o => match o with Some s => s | None => "" end)) in E. apply default_name_inj in E. lia.
  - apply IH; auto.
Qed.
Print Assumptions c77_default_names.
Example c77_example :
  exists r, load_variable demo_dateutil demo_cftime (Ok tt) demo_s demo_file 4 (demo_args "salt" None) = Ok r /\
    va_loc r = "center" /\ va_name r = "Variable_4" /\ va_depth r = DepthNone /\ times (va_time r) = 2 /\
    (exists w, load_variable demo_dateutil demo_cftime (Ok tt) demo_s demo_file 4 (demo_args "temp" None) = Ok w /\
       va_depth w = DepthRead /\ va_units w = Some "C" /\ va_time w = TimeNow) /\
    load_variable demo_dateutil demo_cftime (Ok tt) demo_s demo_file 4 (demo_args "ocean_time" None) = Err ValueError.
Proof. eexists. split; [vm_compute; reflexivity|]. repeat split. eexists. split; [vm_compute; reflexivity|]. repeat split. Qed.

(** ** C78: a dataset *)
Section Dataset.
  Context (dateutil : string -> dparse) (cftime : string -> option (Z * Z * Z)) (depth : result unit).
  Definition LoadedAs (g : grid_api) (f : lfile) (k : string) (v : lvar) (l : string) (x : variable) : Prop :=
    exists a, load_variable dateutil cftime depth g f 0 a = Ok x /\
      la_varname a = k /\ la_loc a = Some l /\ la_time a = None /\ la_tz a = TzNone /\ la_depth a = false /\ la_units a = None /\
      la_origin a = None /\ la_disp a = None /\
      la_name a = Some (match dget (lv_attrs v) "long_name" with Some n => n | None => k end).
  Lemma load_each_loads g f vs xs : load_each dateutil cftime depth g f vs = Ok xs -> Loads (LoadedAs g f) g vs xs.
  Proof.
    revert xs. induction vs as [|[k v] r IH]; intros xs H; cbn [load_each] in H.
    - injection H as <-. constructor.
    - destruct (is_grid_name g k) eqn:Eg.
      + apply Loads_grid; auto. now apply grid_name_iff.
      + destruct (find_location g v) as [[l|]|e] eqn:El; cbn [bind] in H; [| |discriminate].
        * destruct (load_variable dateutil cftime depth g f 0 (plain_args k v l)) as [x|e] eqn:Ex; cbn [bind] in H; [|discriminate].
          destruct (load_each dateutil cftime depth g f r) as [ys|e]; cbn [bind] in H; [|discriminate]. injection H as <-.
          apply (Loads_take _ _ _ _ l); auto.
          -- intros G. apply grid_name_iff in G. congruence.
          -- now apply find_location_iff.
          -- eexists. split; [exact Ex|]. cbn. repeat split.
        * apply Loads_nowhere; auto. intros l L. apply find_location_iff in L. congruence.
  Qed.
End Dataset.
(** A dataset holds exactly the variables of the file that are not of the grid
    and have a location, under their names and in the order of the file. *)
Theorem c78_loaded :
  forall dateutil cftime depth g f xs, load_variables dateutil cftime depth g f = Ok xs ->
  Loads (LoadedAs dateutil cftime depth g f) g (lf_vars f) xs.
Proof. intros. now apply load_each_loads. Qed.
Print Assumptions c78_loaded.
(** So each is at a valid place, and none is of the grid. *)
Theorem c78_entries :
  forall dateutil cftime depth g f xs k x, load_variables dateutil cftime depth g f = Ok xs -> In (k, x) xs ->
  ~ GridName g k /\ va_varname x = k /\ ValidLocation (va_loc x) /\
  exists v, In (k, v) (lf_vars f) /\ LocationOf g v (va_loc x) /\
    va_name x = (match dget (lv_attrs v) "long_name" with Some n => n | None => k end).
Proof.
  intros dateutil cftime depth g f xs k x H Hin. apply c78_loaded in H.
  induction H as [|k' v r vs _ _ IH|k' v r vs _ _ IH|k' v l y r vs Hg Hl Hy _ IH]; cbn [In] in *; try contradiction.
  - destruct (IH Hin) as (A & B & C & w & D & E). repeat split; auto. exists w. auto.
  - destruct (IH Hin) as (A & B & C & w & D & E). repeat split; auto. exists w. auto.
  - destruct Hin as [Hin|Hin].
    + injection Hin as -> ->. destruct Hy as (a & Ha & En & El & _ & _ & _ & _ & _ & _ & Em).
      destruct (c77_location _ _ _ _ _ _ _ _ Ha) as (w & Hw & V & L & _).
      destruct (c77_fields _ _ _ _ _ _ _ _ Ha) as (w' & Hw' & Fn & _ & _ & Nm & _).
      rewrite (L l El) in *. repeat split; auto; [congruence|]. exists v. split; [auto|]. split; [exact Hl|]. apply Nm. exact Em.
    + destruct (IH Hin) as (A & B & C & w & D & E). repeat split; auto. exists w. auto.
Qed.
Print Assumptions c78_entries.
(** And nothing else is left out. *)
Theorem c78_complete :
  forall dateutil cftime depth g f xs k v l, load_variables dateutil cftime depth g f = Ok xs ->
  In (k, v) (lf_vars f) -> ~ GridName g k -> LocationOf g v l -> exists x, In (k, x) xs /\ va_loc x = l.
Proof.
  intros dateutil cftime depth g f xs k v l H Hin Hg Hl. apply c78_loaded in H.
  induction H as [|k' w r vs G _ IH|k' w r vs N _ IH|k' w m y r vs G L Hy _ IH]; cbn [In] in *; try contradiction.
  - destruct Hin as [E|Hin]; [injection E as -> ->; contradiction|auto].
  - destruct Hin as [E|Hin]; [injection E as -> ->; exfalso; apply (N l Hl)|auto].
  - destruct Hin as [E|Hin].
    + injection E as -> ->. exists y. split; auto. destruct Hy as (a & Ha & _ & El & _).
      destruct (c77_location _ _ _ _ _ _ _ _ Ha) as (_ & _ & _ & Q & _). rewrite (Q m El).
      apply find_location_iff in L, Hl. congruence.
    + destruct (IH Hin) as (x & A & B). exists x. auto.
Qed.
Print Assumptions c78_complete.
(** All or nothing: loading fails exactly when the grid raises for, or loading
    fails for, one of the variables that are not of the grid. *)
Theorem c78_all_or_nothing :
  forall dateutil cftime depth g f,
  (exists e, load_variables dateutil cftime depth g f = Err e) <->
  exists k v e, In (k, v) (lf_vars f) /\ ~ GridName g k /\
    (((forall l, dget (lv_attrs v) "location" = Some l -> ~ ValidLocation l) /\
      ga_infer g (dget (lv_attrs v) "location") (lv_shape v) = Err e) \/
     exists l, LocationOf g v l /\ load_variable dateutil cftime depth g f 0 (plain_args k v l) = Err e).
Proof.
  intros dateutil cftime depth g f. unfold load_variables. generalize (lf_vars f) as vs.
  assert (F : forall v e, find_location g v = Err e <->
     (forall l, dget (lv_attrs v) "location" = Some l -> ~ ValidLocation l) /\
      ga_infer g (dget (lv_attrs v) "location") (lv_shape v) = Err e).
  { intros v e. unfold find_location. destruct (dget (lv_attrs v) "location") as [a|].
    - destruct (isin a valid_locations) eqn:E.
      + apply valid_iff in E. split; [discriminate|]. intros [H _]. exfalso. apply (H a); auto.
      + split; [|tauto]. intros H. split; auto. intros l Hl V. injection Hl as ->. apply valid_iff in V. congruence.
    - split; [|tauto]. intros H. split; auto. discriminate. }
  induction vs as [|[k v] r IH]; cbn [load_each].
  - split; [intros [e H]; discriminate|]. intros (k & v & e & [] & _).
  - destruct (is_grid_name g k) eqn:Eg.
    + rewrite IH. apply grid_name_iff in Eg. split.
      * intros (k' & v' & e & Hin & R). exists k', v', e. split; [right; auto|auto].
      * intros (k' & v' & e & [E|Hin] & N & R); [injection E as -> ->; contradiction|]. exists k', v', e. auto.
    + assert (G : ~ GridName g k). { intros G. apply grid_name_iff in G. congruence. }
      destruct (find_location g v) as [[l|]|e] eqn:El; cbn [bind].
      * destruct (load_variable dateutil cftime depth g f 0 (plain_args k v l)) as [x|e] eqn:Ex; cbn [bind].
        -- assert (Q : (exists e, (do xs <- load_each dateutil cftime depth g f r; Ok ((k, x) :: xs)) = Err e) <->
                       exists e, load_each dateutil cftime depth g f r = Err e).
           { destruct (load_each dateutil cftime depth g f r); cbn [bind]; split; intros [e2 H]; try discriminate; eauto. }
           rewrite Q, IH. split.
           ++ intros (k' & v' & e & Hin & R). exists k', v', e. split; [right; auto|auto].
           ++ intros (k' & v' & e & [E|Hin] & N & R); [|exists k', v', e; auto]. injection E as <- <-. exfalso.
              destruct R as [R|(l' & Hl' & R)].
              ** apply F in R. congruence.
              ** apply find_location_iff in Hl'. congruence.
        -- split; [|eauto]. intros _. exists k, v, e. split; [left; auto|]. split; auto. right. exists l. split; auto.
           now apply find_location_iff.
      * rewrite IH. split.
        -- intros (k' & v' & e & Hin & R). exists k', v', e. split; [right; auto|auto].
        -- intros (k' & v' & e & [E|Hin] & N & R); [|exists k', v', e; auto]. injection E as <- <-. exfalso.
           destruct R as [R|(l' & Hl' & R)].
           ++ apply F in R. congruence.
           ++ apply find_location_iff in Hl'. congruence.
      * split; [|eauto]. intros _. exists k, v, e. split; [left; auto|]. split; auto. left. apply F. exact El.
Qed.
Print Assumptions c78_all_or_nothing.
(** Staggered and unstructured grids never raise and infer only valid places;
    so an unusable location attribute does no harm there. *)
Theorem c78_infer_total :
  (forall node hc h1 h2 a shape, exists o, s_infer node hc h1 h2 a shape = Ok o /\ (forall l, o = Some l -> ValidLocation l)) /\
  (forall n nf nb a shape, exists o, u_infer n nf nb a shape = Ok o /\ (forall l, o = Some l -> ValidLocation l)).
Proof.
  split; intros; eexists; (split; [reflexivity|]); intros l H; unfold ValidLocation.
  - destruct (infer_location node hc h1 h2 (Some shape)) as [[]|]; cbn in H; try discriminate; injection H as <-; auto 10.
  - destruct (u_infer_location n nf nb shape) as [[]|]; cbn in H; try discriminate; injection H as <-; auto 10.
Qed.
Print Assumptions c78_infer_total.
(** A rectilinear grid raises for a scalar variable (such as a CF grid mapping)
    and hands on a location it does not know: the whole dataset cannot be loaded. *)
Definition demo_r : grid_api := mkGrid KR (r_infer (rg_new [0; 1; 2]%Q [0; 1]%Q None)) [("node_lon", "lon"); ("node_lat", "lat")].
Definition demo_rvars : dict lvar :=
  [("lon", mkLvar ["lon"] [3] [] []); ("lat", mkLvar ["lat"] [2] [] []); ("u", mkLvar ["lat"; "lon"] [2; 3] [] [])].
Theorem c78_unrelated_variable_refuted :
  exists g ds vs k v v', ~ In k (map fst vs) /\
  (exists xs, load_variables demo_dateutil demo_cftime (Ok tt) g (mkLfile ds vs) = Ok xs /\ In "u" (map fst xs)) /\
  load_variables demo_dateutil demo_cftime (Ok tt) g (mkLfile ds (vs ++ [(k, v)])) = Err ValueError /\
  load_variables demo_dateutil demo_cftime (Ok tt) g (mkLfile ds (vs ++ [(k, v')])) = Err ValueError.
Proof.
  exists demo_r, ["lat"; "lon"], demo_rvars, "crs", (mkLvar [] [] [] []), (mkLvar ["lat"; "lon"] [2; 3] [("location", "nodes")] []).
  split; [cbn; intuition discriminate|]. split; [eexists; split; [vm_compute; reflexivity|cbn; auto]|].
  split; vm_compute; reflexivity.
Qed.
Print Assumptions c78_unrelated_variable_refuted.
(** Any word of any attribute of the mesh variable counts as a name of the grid:
    a variable "data" is lost because the long name that UGrid.save writes is
    "Topology data of 2D unstructured mesh". *)
Theorem c78_data_lost_refuted :
  exists g f k v, In (k, v) (lf_vars f) /\ dget (lv_attrs v) "location" = Some "node" /\
  ga_topology g = [("cf_role", "mesh_topology"); ("long_name", "Topology data of 2D unstructured mesh");
                   ("topology_dimension", "2"); ("node_coordinates", "mesh_node_lon mesh_node_lat")] /\
  load_variables demo_dateutil demo_cftime (Ok tt) g f = Ok [].
Proof.
  exists (mkGrid KU (u_infer 3 None None) [("cf_role", "mesh_topology"); ("long_name", "Topology data of 2D unstructured mesh");
                   ("topology_dimension", "2"); ("node_coordinates", "mesh_node_lon mesh_node_lat")]).
  exists (mkLfile ["mesh_num_node"] [("data", mkLvar ["mesh_num_node"] [3] [("location", "node")] [])]), "data", (mkLvar ["mesh_num_node"] [3] [("location", "node")] []).
  repeat split; cbn; auto.
Qed.
Print Assumptions c78_data_lost_refuted.
(** Search by attribute. *)
Theorem c78_by_attribute :
  forall vs attr value x,
  (In x (by_attribute vs attr value) <-> (exists k, In (k, x) vs) /\ dget (va_attrs x) attr = Some value) /\
  (Forall (fun kv => dget (va_attrs (snd kv)) attr = Some value) vs -> by_attribute vs attr value = map snd vs) /\
  (forall us, by_attribute (us ++ vs) attr value = by_attribute us attr value ++ by_attribute vs attr value).
Proof.
  intros vs attr value x. split; [|split].
  - unfold by_attribute. rewrite filter_In, in_map_iff. split.
    + intros [([k y] & E & H) Q]. cbn in E. subst y. destruct (dget (va_attrs x) attr) as [z|]; [|discriminate].
      apply String.eqb_eq in Q. subst z. eauto.
    + intros [[k H] Q]. rewrite Q, String.eqb_refl. split; auto. exists (k, x). auto.
  - unfold by_attribute. induction 1 as [|[k y] r E _ IH]; auto. cbn [map snd filter] in *. rewrite E, String.eqb_refl. now f_equal.
  - intros us. unfold by_attribute. now rewrite map_app, filter_app.
Qed.
Print Assumptions c78_by_attribute.
Example c78_example :
  (exists xs, load_variables demo_dateutil demo_cftime (Ok tt) demo_s demo_file = Ok xs /\ map fst xs = ["temp"; "salt"] /\
     map (fun kv => (va_name (snd kv), va_loc (snd kv))) xs = [("temp", "node"); ("salinity", "center")] /\
     map va_varname (by_attribute xs "units" "C") = ["temp"]) /\
  load_variables demo_dateutil demo_cftime (Err ValueError) demo_s demo_file = Err ValueError.
Proof. split; [eexists; split; [vm_compute; reflexivity|]; repeat split|vm_compute; reflexivity]. Qed.
