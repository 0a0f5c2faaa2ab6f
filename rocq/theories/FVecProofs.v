From Coq Require Import String Reals.
From Verif Require Import Common CommonProofs TimeModel GridTypeModel DepthModel DepthProofs TFileModel LoadModel LoadSpec LoadProofs LoadProps VLoadModel VLoadSpec VLoadProofs
  FMeshModel FMeshSpec FVecModel FVecSpec.
Open Scope string_scope.
Open Scope list_scope.
Open Scope nat_scope.

Lemma columns_of {K V} (ask : K -> result V) ks : ColumnsOf ask ks (mapM ask ks).
Proof.
  induction ks as [|k ks IH]; cbn [mapM]; [constructor; constructor|]. destruct (ask k) as [c|e] eqn:E; cbn [bind].
  - destruct IH as [ks cs F|ks1 k' ks2 cs e F E']; cbn [bind]; [constructor; constructor; auto|].
    apply (FirstFailure ask (k :: ks1) k' ks2 (c :: cs) e); auto.
  - apply (FirstFailure ask [] k ks [] e); auto.
Qed.
Lemma mapM_same {A B C} (f : A -> result C) (g : B -> result C) l m : Forall2 (fun a b => f a = g b) l m -> mapM f l = mapM g m.
Proof. induction 1 as [|a b l m E _ IH]; [reflexivity|]. cbn [mapM]. rewrite E, IH. reflexivity. Qed.

(** As far as answers go, the same variable. *)
Definition same (now : time_obj) (x v : variable) : Prop :=
  va_varname x = va_varname v /\ va_shape x = va_shape v /\ va_loc x = va_loc v /\ va_depth x = va_depth v /\ time_value now (va_time x) = time_value now (va_time v).

Section Load.
  Context (dateutil : string -> dparse) (cftime : string -> option (Z * Z * Z)) (now : time_obj) (g : grid_api) (f : lfile).
  (** Loading one after the other, each as [ld] does. *)
  Lemma each_got (each : dict lvar -> result (dict variable)) (ld : string -> lvar -> string -> result variable) :
    (forall vars, each vars = match vars with
      | [] => Ok []
      | (k, v) :: r => if is_grid_name g k then each r else do l <- find_location g v;
          match l with None => each r | Some l => do x <- ld k v l; do xs <- each r; Ok ((k, x) :: xs) end
      end) ->
    forall vars vs k x, each vars = Ok vs -> dget vs k = Some x ->
    exists w l, In (k, w) vars /\ find_location g w = Ok (Some l) /\ ld k w l = Ok x.
  Proof.
    intros Eq vars. induction vars as [|[k' w] vars IH]; intros vs k x H D; rewrite Eq in H; [injection H as <-; discriminate|].
    destruct (is_grid_name g k'). { destruct (IH _ _ _ H D) as (w' & l & I & K). exists w', l. split; [now right|exact K]. }
    apply bind_ok in H as ([l|] & E & H). 2: { destruct (IH _ _ _ H D) as (w' & l & I & K). exists w', l. split; [now right|exact K]. }
    apply bind_ok in H as (y & Ey & H). apply bind_ok in H as (ys & Es & H). injection H as <-. cbn [dget] in D. destruct (String.eqb_spec k k') as [<-|N].
    - injection D as <-. exists w, l. split; [now left|auto].
    - destruct (IH _ _ _ Es D) as (w' & l' & I & K). exists w', l'. split; [now right|exact K].
  Qed.
  Lemma load_time_same v w a b : la_time a = None -> la_time b = None -> la_tz a = la_tz b -> la_origin a = la_origin b -> la_disp a = la_disp b ->
    locate_time (tfile_of f) (tvar_of v) = locate_time (tfile_of f) (tvar_of w) -> load_time dateutil cftime f v a = load_time dateutil cftime f w b.
  Proof. intros A B C D E L. unfold load_time. rewrite A, B, C, D, E, L. reflexivity. Qed.
  Lemma axis_flag v a t b : la_time a = None -> load_time dateutil cftime f v a = Ok (t, b) -> b = false -> forall n, ~ TimeAxisOf f v n.
  Proof.
    unfold load_time. intros -> H -> n T. apply (proj1 (locate_iff f v)) in T. rewrite T in H. cbn [bind] in H.
    destruct (time_from_netCDF _ _ _ _ _ _ _ _ _ _) as [[|]|]; cbn [bind] in H; discriminate.
  Qed.
  Lemma alike_locate v w r : Alike f v w -> locate_time (tfile_of f) (tvar_of v) = Ok r -> locate_time (tfile_of f) (tvar_of w) = Ok r.
  Proof.
    intros (A & _ & Dv & Dw) H. destruct (locate_iff f v) as (V1 & V2 & V3), (locate_iff f w) as (W1 & W2 & W3). destruct r as [k|].
    - apply W1, A, V1, H.
    - apply W2; auto. intros n T. apply A in T. exact (V3 H n T).
  Qed.
  (** One component. *)
  Context (One : length (t_data now) = 1).
  Lemma component rd rdv w0 w k l v t b d a c : load_variable dateutil cftime rdv g f 0 (plain_args k w l) = Ok v -> dget (lf_vars f) k = Some w -> find_location g w = Ok (Some l) ->
    load_time dateutil cftime f w0 (plain_args "" w0 "") = Ok (t, b) -> load_depth rd g w0 b (plain_args "" w0 "") = Ok d -> Alike f w0 w ->
    (forall l', dget (lv_attrs w) "location" = Some l' -> ValidLocation l') ->
    ((forall n, ~ TimeAxisOf f w0 n) -> length (lv_shape w0) <> GridDimensions (ga_kind g) + 2) ->
    exists x, load_variable dateutil cftime rd g f c (comp_args k (time_value now t) (negb (no_depth d)) a) = Ok x /\ same now (own_depth x) v.
  Proof.
    intros Lv Dw Fl Et Ed Al Va NT.
    destruct (load_parts _ _ _ _ _ _ _ _ Lv) as (w' & t' & b' & d' & l' & Dw' & Et' & Ed' & Ec & ->). cbn [plain_args la_varname la_loc la_name la_units] in *.
    assert (w' = w) by congruence. subst w'.
    assert (Q : (t', b') = (t, b)).
    { assert (X : load_time dateutil cftime f w (plain_args k w l) = Ok (t, b)); [|congruence]. rewrite <- Et. apply load_time_same; auto.
      unfold load_time in Et. cbn [plain_args la_time] in Et. apply bind_ok in Et as (r & Er & _). rewrite Er. exact (alike_locate _ _ _ Al Er). }
    injection Q as -> ->.
    assert (GD : LoadModel.horizontal (ga_kind g) = GridDimensions (ga_kind g)) by (destruct (ga_kind g); reflexivity).
    destruct Al as (_ & Len & _). unfold load_depth in Ed, Ed'. cbn [plain_args la_depth] in Ed, Ed'. rewrite <- Len in Ed'.
    assert (d' = d).
    { destruct (length (lv_shape w0) =? LoadModel.horizontal (ga_kind g) + 1 + (if b then 1 else 0)); [|congruence].
      apply bind_ok in Ed as (? & _ & Ed). apply bind_ok in Ed' as (? & _ & Ed'). congruence. }
    subst d'.
    assert (Dp : exists dx, load_depth rd g w true (comp_args k (time_value now t) (negb (no_depth d)) a) = Ok dx /\ match dx with DepthGiven => DepthRead | e => e end = d).
    { unfold load_depth. cbn [comp_args la_depth]. destruct (Nat.eqb_spec (length (lv_shape w0)) (LoadModel.horizontal (ga_kind g) + 1 + (if b then 1 else 0))) as [E|E].
      - apply bind_ok in Ed as (u & _ & Ed). injection Ed as <-. cbn [no_depth negb]. eauto.
      - injection Ed as <-. cbn [no_depth negb]. destruct (Nat.eqb_spec (length (lv_shape w)) (LoadModel.horizontal (ga_kind g) + 1 + 1)) as [E'|E'].
        + exfalso. destruct b; [congruence|]. apply (NT (axis_flag w0 (plain_args "" w0 "") t false eq_refl Et eq_refl)). rewrite <- GD. lia.
        + exists DepthNone. auto. }
    destruct Dp as (dx & Edx & Dd). destruct (construct_ok _ _ _ _ _ _ Ec) as (Vl & Ll & _ & (n0 & rest & Sh & Tm)). specialize (Ll l eq_refl). subst l'.
    assert (C : construct g (dget (lv_attrs w) "location") (lv_shape w) (dget (lv_attrs w) "location") (TimeGiven (time_value now t)) = Ok l).
    { unfold construct. assert (Tn : times (TimeGiven (time_value now t)) = times t) by (destruct t; cbn; auto).
      unfold find_location in Fl. rewrite Sh, Tn in *. destruct (dget (lv_attrs w) "location") as [l0|].
      - specialize (Va l0 eq_refl). apply valid_iff in Va. rewrite Va in Fl. injection Fl as ->. cbn [check_location]. rewrite Va. cbn [bind].
        destruct (Nat.eqb_spec (times t) n0); cbn [negb andb]; [reflexivity|]. destruct (Nat.ltb_spec 1 (times t)); [lia|reflexivity].
      - cbn [check_location bind]. rewrite Fl. cbn [bind check_location]. rewrite (proj2 (valid_iff l) Vl). cbn [bind].
        destruct (Nat.eqb_spec (times t) n0); cbn [negb andb]; [reflexivity|]. destruct (Nat.ltb_spec 1 (times t)); [lia|reflexivity]. }
    assert (LT : load_time dateutil cftime f w (comp_args k (time_value now t) (negb (no_depth d)) a) = Ok (TimeGiven (time_value now t), true)) by reflexivity.
    unfold load_variable. change (la_varname (comp_args k (time_value now t) (negb (no_depth d)) a)) with k. rewrite Dw, LT. cbn [bind fst snd].
    rewrite Edx. cbn [bind comp_args la_loc]. rewrite C. cbn [bind]. eexists. split; [reflexivity|].
    unfold same, own_depth. cbn [va_varname va_shape va_loc va_depth va_time time_value]. repeat split. destruct dx; exact Dd.
  Qed.
End Load.

Section Read.
  Context (dateutil : string -> dparse) (cftime : string -> option (Z * Z * Z)) (now : time_obj) (One : length (t_data now) = 1).
  Context (g : grid_api) (f : file) (U : UniqueNames f) (rd : lvar -> result unit) (vs : dict variable).
  Context (Got : forall k x, dget vs k = Some x -> exists w l, In (k, w) (lf_vars (as_load f)) /\ find_location g w = Ok (Some l) /\
    load_variable dateutil cftime (rd w) g (as_load f) 0 (plain_args k w l) = Ok x).
  Lemma as_load_get k w : In (k, w) (fi_vars f) -> dget (lf_vars (as_load f)) k = Some (to_load w).
  Proof.
    intros I. unfold as_load. cbn [lf_vars]. unfold UniqueNames in U. induction (fi_vars f) as [|[k' w'] l IH]; [destruct I|]. cbn [map fst snd dget] in *. inversion U as [|? ? N N']; subst.
    destruct (String.eqb_spec k k') as [<-|E].
    - destruct I as [I|I]; [congruence|]. exfalso. apply N. apply in_map_iff. exists (k, w). auto.
    - destruct I as [I|I]; [congruence|]. auto.
  Qed.
  Lemma dget_in_keys {A} (d : dict A) k : In k (map fst d) -> exists x, dget d k = Some x.
  Proof. induction d as [|[k' x] d IH]; [intros []|]. cbn [map fst dget In]. destruct (String.eqb_spec k k'); [eauto|]. intros [E|I]; [congruence|auto]. Qed.
  Lemma vector_made cls comps count c a ks : AsksFor (as_load f) comps a ks -> Together (GridDimensions (ga_kind g)) f vs ks ->
    exists w0 ve, first_var (as_load f) (map Some ks) = Ok w0 /\ names_of (as_load f) comps a = Ok (map Some ks) /\ load_vector dateutil cftime (rd w0) now g (as_load f) cls comps count c a = Ok ve /\
      Forall2 (fun k x => exists v, dget vs k = Some v /\ same now (own_depth x) v) ks (ve_comps ve).
  Proof.
    intros (As & L2 & Lc & At & Az & Ao & Ad & Adp & Av) (w0 & (k0 & r0 & Ek & I0) & Each & NT).
    assert (Dat : forall k, In k ks -> exists w v l, dget (lf_vars (as_load f)) k = Some (to_load w) /\ Alike (as_load f) (to_load w0) (to_load w) /\
      (forall l', dget (fm_attrs w) "location" = Some l' -> ValidLocation l') /\ dget vs k = Some v /\ find_location g (to_load w) = Ok (Some l) /\
      load_variable dateutil cftime (rd (to_load w)) g (as_load f) 0 (plain_args k (to_load w) l) = Ok v).
    { intros k Ik. destruct (Each k Ik) as (w & Iw & Iv & Al & Va). destruct (dget_in_keys vs k Iv) as (v & Dv).
      destruct (Got k v Dv) as (lw & l & Il & Fl & Ll).
      assert (lw = to_load w) as ->.
      { unfold as_load in Il. cbn [lf_vars] in Il. apply in_map_iff in Il. destruct Il as ([k' w'] & E & Il). cbn [fst snd] in E. injection E as -> <-. f_equal.
        clear - U Iw Il. unfold UniqueNames in U. induction (fi_vars f) as [|[n x] l IH]; [destruct Iw|]. cbn [map fst] in U. inversion U as [|? ? N N']; subst.
        destruct Iw as [E1|I1], Il as [E2|I2]; [congruence| | |auto]; exfalso; apply N; apply in_map_iff.
        - injection E1 as -> ->. exists (k, w'). auto.
        - injection E2 as -> ->. exists (k, w). auto. }
      exists w, v, l. split; [exact (as_load_get k w Iw)|]. auto 10. }
    destruct (Dat k0 ltac:(rewrite Ek; now left)) as (w0' & v0 & l0 & D0 & _ & _ & _ & _ & Ld0). rewrite (as_load_get k0 w0 I0) in D0.
    assert (Ew : to_load w0' = to_load w0) by congruence. rewrite Ew in Ld0. clear D0 Ew.
    destruct (load_parts _ _ _ _ _ _ _ _ Ld0) as (w0'' & t & b & d & l' & D0' & Et & Ed & _). cbn [plain_args la_varname] in D0'. rewrite (as_load_get k0 w0 I0) in D0'. injection D0' as <-.
    assert (Et0 : load_time dateutil cftime (as_load f) (to_load w0) (plain_args "" (to_load w0) "") = Ok (t, b)) by exact Et.
    assert (Ed0 : load_depth (rd (to_load w0)) g (to_load w0) b (plain_args "" (to_load w0) "") = Ok d) by exact Ed.
    assert (Cs : forall l c', (forall k, In k l -> In k ks) -> exists xs, load_comps dateutil cftime (rd (to_load w0)) g (as_load f) (time_value now t) (negb (no_depth d)) a c' (map Some l) = Ok xs /\
      Forall2 (fun k x => exists v, dget vs k = Some v /\ same now (own_depth x) v) l xs).
    { induction l as [|k l IH]; intros c' Sub; cbn [map load_comps]; [exists []; split; [reflexivity|constructor]|].
      destruct (Dat k (Sub k (or_introl eq_refl))) as (w & v & lo & Dw & Al & Va & Dv & Fl & Ll).
      destruct (component dateutil cftime now g (as_load f) One (rd (to_load w0)) (rd (to_load w)) (to_load w0) (to_load w) k lo v t b d a c' Ll Dw Fl Et0 Ed0 Al Va NT) as (x & Ex & Sx). rewrite Ex. cbn [bind].
      destruct (IH (S c')) as (xs & Exs & F); [intros k' I; apply Sub; now right|]. rewrite Exs. cbn [bind]. eexists. split; [reflexivity|]. constructor; eauto. }
    destruct (Cs ks c (fun k I => I)) as (xs & Exs & F).
    assert (En : names_of (as_load f) comps a = Ok (map Some ks)).
    { unfold names_of. destruct As as [-> |(-> & E & (n & Hn))]; [reflexivity|]. cbv zeta. rewrite <- E. destruct ks; [destruct Hn|]. reflexivity. }
    exists (to_load w0). assert (Ef : first_var (as_load f) (map Some ks) = Ok (to_load w0)) by (rewrite Ek; cbn [map first_var]; rewrite (as_load_get k0 w0 I0); reflexivity).
    unfold load_vector. rewrite En. cbn [bind]. cbv zeta. rewrite Ef. cbn [bind].
    rewrite (load_time_same dateutil cftime (as_load f) (to_load w0) (to_load w0) (first_args a) (plain_args "" (to_load w0) "")), Et0; auto. cbn [bind fst snd].
    assert (Edf : load_depth (rd (to_load w0)) g (to_load w0) b (first_args a) = Ok d) by (unfold load_depth; cbn [first_args la_depth]; rewrite Adp; exact Ed0).
    rewrite Edf. cbn [bind]. rewrite Av. rewrite Exs. cbn [bind].
    assert (Lx : length xs = length ks) by (clear - F; induction F; cbn; congruence).
    destruct xs as [|x xs]; [cbn in Lx; lia|].
    assert (Eu : exists u, units_of (vg_units a) (x :: xs) = Ok u). { unfold units_of. destruct (vg_units a); [eauto|]. destruct (forallb _ _); eauto. }
    destruct Eu as (u & Eu). rewrite Eu. cbn [bind].
    destruct (Nat.ltb_spec (length (x :: xs)) 2); [lia|]. destruct (Nat.ltb_spec (length (x :: xs)) (length comps)); [lia|].
    eexists. split; [reflexivity|]. split; [reflexivity|]. split; [reflexivity|]. exact F.
  Qed.
End Read.

Section Datasets.
  Context (dateutil : string -> dparse) (cftime : string -> option (Z * Z * Z)) (now : time_obj) (One : length (t_data now) = 1).
  Lemma got_plain g f rd vs : load_variables dateutil cftime rd g (as_load f) = Ok vs -> forall k x, dget vs k = Some x ->
    exists w l, In (k, w) (lf_vars (as_load f)) /\ find_location g w = Ok (Some l) /\ load_variable dateutil cftime ((fun _ => rd) w) g (as_load f) 0 (plain_args k w l) = Ok x.
  Proof.
    intros H k x D. exact (each_got g (load_each dateutil cftime rd g (as_load f)) (fun k w l => load_variable dateutil cftime rd g (as_load f) 0 (plain_args k w l))
      ltac:(intros [|[? ?] ?]; reflexivity) _ _ _ _ H D).
  Qed.
  Lemma made_plain g f rd vs cls comps a ks : UniqueNames f -> load_variables dateutil cftime rd g (as_load f) = Ok vs ->
    AsksFor (as_load f) comps a ks -> Together (GridDimensions (ga_kind g)) f vs ks ->
    exists ve, load_vector dateutil cftime rd now g (as_load f) cls comps 0 0 a = Ok ve /\ Forall2 (fun k x => exists v, dget vs k = Some v /\ same now (own_depth x) v) ks (ve_comps ve).
  Proof.
    intros U H As To. destruct (vector_made dateutil cftime now One g f U (fun _ => rd) vs (got_plain g f rd vs H) cls comps 0 0 a ks As To) as (w0 & ve & _ & _ & E & F). eauto.
  Qed.
  (** With a depth read for the time of each variable. *)
  Definition rd_for (read : time_obj -> result unit) (f : file) (w : lvar) : result unit :=
    do t <- load_time dateutil cftime (as_load f) w (plain_args "" w ""); read (time_value now (fst t)).
  Lemma made_timed g f read vs cls comps a ks : UniqueNames f ->
    (forall k x, dget vs k = Some x -> exists w l, In (k, w) (lf_vars (as_load f)) /\ find_location g w = Ok (Some l) /\
       load_variable dateutil cftime (rd_for read f w) g (as_load f) 0 (plain_args k w l) = Ok x) ->
    AsksFor (as_load f) comps a ks -> Together (GridDimensions (ga_kind g)) f vs ks ->
    exists ve, load_vector dateutil cftime (for_first dateutil cftime now read (as_load f) comps a) now g (as_load f) cls comps 0 0 a = Ok ve /\
      Forall2 (fun k x => exists v, dget vs k = Some v /\ same now (own_depth x) v) ks (ve_comps ve).
  Proof.
    intros U H As To. destruct (vector_made dateutil cftime now One g f U (rd_for read f) vs H cls comps 0 0 a ks As To) as (w0 & ve & Fv & Nm & E & F). exists ve. split; [|exact F].
    assert (X : for_first dateutil cftime now read (as_load f) comps a = rd_for read f w0); [|rewrite X; exact E].
    destruct As as (_ & _ & _ & At & Az & Ao & Ad & _). unfold for_first, rd_for. rewrite Nm. cbn [bind]. rewrite Fv. cbn [bind].
    rewrite (load_time_same dateutil cftime (as_load f) w0 w0 (first_args a) (plain_args "" w0 "")); auto.
  Qed.
End Datasets.
