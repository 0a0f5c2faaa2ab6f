(** C55, C56: finding variables for roles, and choosing the file objects. *)
From Coq Require Import String.
From Verif Require Import Common GridTypeModel GridTypeProofs SearchModel SearchSpec SearchProofs.
Open Scope list_scope.

(** C55: every role of either table gets the answer of highest precedence. *)
Theorem c55_precedence : forall def cf ds dg k qdef qcf, NoDup (map fst def) -> NoDup (map fst cf) ->
  IsRole cf k \/ IsRole def k -> Listed def k qdef -> Listed cf k qcf ->
  exists r, dget (search_vars def cf ds dg) k = Some r /\ Best ds dg qcf qdef r.
Proof.
  intros def cf ds dg k qdef qcf N1 N2 HR HD HC.
  rewrite !is_role_get in HR.
  apply listed_get in HD; [|exact N1]. apply listed_get in HC; [|exact N2].
  unfold search_vars.
  pose proof (long_role ds qcf) as A1. pose proof (name_role ds qdef) as A2.
  pose proof (long_role dg qcf) as A3. pose proof (name_role dg qdef) as A4.
  destruct (Nat.eqb_spec (f_id ds) (f_id dg)) as [E|E].
  - rewrite merge_get by apply search_nodup. unfold by_longname, by_varname. rewrite !search_get by assumption.
    destruct HD as [HD|[HD ->]], HC as [HC|[HC ->]]; rewrite HD, HC in *; cbn [option_map prefer first_query] in *.
    + destruct (first_query (fun q => head_opt _) qcf); [eexists; split; [reflexivity|]; cbn; auto|].
      eexists; split; [reflexivity|].
      destruct (first_query (by_name ds) qdef); cbn; [right; split; auto|]. repeat split; auto; contradiction.
    + eexists; split; [reflexivity|]. destruct (first_query (by_name ds) qdef); cbn; [right; split; auto|].
      repeat split; auto; contradiction.
    + destruct (first_query (fun q => head_opt _) qcf); (eexists; split; [reflexivity|]); cbn; auto.
      repeat split; auto; contradiction.
    + destruct HR; congruence.
  - rewrite !merge_get by (try apply merge_nodup; apply search_nodup). unfold by_longname, by_varname. rewrite !search_get by assumption.
    destruct HD as [HD|[HD ->]], HC as [HC|[HC ->]]; rewrite HD, HC in *; cbn [option_map prefer first_query] in *.
    + destruct (first_query (fun q => head_opt (by_long ds q ++ _)) qcf); [eexists; split; [reflexivity|]; cbn; auto|].
      cbn [prefer].
      destruct (first_query (by_name ds) qdef); cbn [prefer]; [eexists; split; [reflexivity|]; cbn; auto 10|].
      destruct (first_query (fun q => head_opt (by_long dg q ++ _)) qcf); cbn [prefer]; [eexists; split; [reflexivity|]; cbn; auto 10|].
      eexists; split; [reflexivity|]. destruct (first_query (by_name dg) qdef); cbn; auto 12.
    + destruct (first_query (by_name ds) qdef); cbn [prefer]; [eexists; split; [reflexivity|]; cbn; auto 10|].
      eexists; split; [reflexivity|]. destruct (first_query (by_name dg) qdef); cbn; auto 12.
    + destruct (first_query (fun q => head_opt (by_long ds q ++ _)) qcf); cbn [prefer]; [eexists; split; [reflexivity|]; cbn; auto|].
      destruct (first_query (fun q => head_opt (by_long dg q ++ _)) qcf); (eexists; split; [reflexivity|]); cbn; auto 12.
    + destruct HR; congruence.
Qed.
Print Assumptions c55_precedence.

(** The precedence rule leaves no choice. *)
Theorem c55_precedence_unique : forall ds dg qcf qdef r1 r2,
  Best ds dg qcf qdef r1 -> Best ds dg qcf qdef r2 -> r1 = r2.
Proof.
  intros ds dg qcf qdef r1 r2.
  assert (U : forall (ans : string -> nvar -> Prop) qs v w, (forall q v w, ans q v -> ans q w -> v = w) ->
            RoleAnswer ans qs v -> RoleAnswer ans qs w -> v = w).
  { intros ans qs v w Ha (q1 & F1 & A1) (q2 & F2 & A2).
    assert (q1 = q2) by (eapply first_unique'; eauto). subst. eauto. }
  assert (X : forall (ans : string -> nvar -> Prop) qs v, RoleAnswer ans qs v -> NoAnswer ans qs -> False).
  { intros ans qs v (q & (pre & post & -> & _ & _) & A) N. apply (N q) in A; auto. apply in_or_app. cbn. auto. }
  assert (UL : forall f q v w, LongAnswer f q v -> LongAnswer f q w -> v = w).
  { intros f q v w [H|[N H]] [H'|[N' H']];
      first [exact (first_unique' _ _ _ _ _ H H') | exfalso; exact (first_none _ _ _ _ H N') | exfalso; exact (first_none _ _ _ _ H' N)]. }
  assert (UN : forall f q v w, NameAnswer f q v -> NameAnswer f q w -> v = w).
  { intros f q v w H H'. exact (first_unique' _ _ _ _ _ H H'). }
  destruct r1 as [v|], r2 as [w|]; cbn; intros H1 H2; auto.
  - f_equal.
    destruct H1 as [H1|(N1 & [H1|(N2 & D & [H1|(N3 & H1)])])]; destruct H2 as [H2|(M1 & [H2|(M2 & D' & [H2|(M3 & H2)])])];
      first [refine (U _ _ _ _ _ H1 H2); solve [exact (UL ds) | exact (UN ds) | exact (UL dg) | exact (UN dg)]
            | exfalso; match goal with A : RoleAnswer _ _ _, B : NoAnswer _ _ |- _ => exact (X _ _ _ A B) end].
  - exfalso. destruct H2 as (M1 & M2 & M3).
    destruct H1 as [H1|(N1 & [H1|(N2 & D & [H1|(N3 & H1)])])]; try destruct (M3 D);
      match goal with A : RoleAnswer _ _ _, B : NoAnswer _ _ |- _ => exact (X _ _ _ A B) end.
  - exfalso. destruct H1 as (M1 & M2 & M3).
    destruct H2 as [H2|(N1 & [H2|(N2 & D & [H2|(N3 & H2)])])]; try destruct (M3 D);
      match goal with A : RoleAnswer _ _ _, B : NoAnswer _ _ |- _ => exact (X _ _ _ A B) end.
Qed.
Print Assumptions c55_precedence_unique.

(** C55: the answer has exactly the wanted roles, each once. *)
Theorem c55_roles : forall def cf ds dg, NoDup (map fst def) -> NoDup (map fst cf) ->
  NoDup (map fst (search_vars def cf ds dg)) /\
  forall k, In k (map fst (search_vars def cf ds dg)) <-> IsRole cf k \/ IsRole def k.
Proof.
  intros def cf ds dg N1 N2. split; [apply search_vars_nodup|].
  intros k. rewrite !is_role_get. fold (keys (search_vars def cf ds dg)). rewrite <- dget_key.
  assert (G : dget (search_vars def cf ds dg) k <> None <-> dget cf k <> None \/ dget def k <> None).
  { unfold search_vars. destruct (Nat.eqb _ _).
    - rewrite merge_get by apply search_nodup. unfold by_longname, by_varname. rewrite !search_get by assumption.
      destruct (dget cf k), (dget def k); cbn; try (destruct (first_query _ _)); cbn;
        split; intros H; try congruence; try (left; congruence); try (right; congruence); try (destruct H; congruence).
    - rewrite !merge_get by (try apply merge_nodup; apply search_nodup). unfold by_longname, by_varname. rewrite !search_get by assumption.
      destruct (dget cf k), (dget def k); cbn;
        repeat (match goal with |- context [first_query ?f ?l] => destruct (first_query f l) end; cbn);
        split; intros H; try congruence; try (left; congruence); try (right; congruence); try (destruct H; congruence). }
  exact G.
Qed.
Print Assumptions c55_roles.

(** C55: can_create_class says whether every role of the two tables is filled. *)
Theorem c55_can_create : forall def cf ds dg, NoDup (map fst def) -> NoDup (map fst cf) ->
  can_create def cf ds dg = true <->
  forall k qdef qcf, IsRole cf k \/ IsRole def k -> Listed def k qdef -> Listed cf k qcf ->
    exists v, Best ds dg qcf qdef (Some v).
Proof.
  intros def cf ds dg N1 N2. unfold can_create. rewrite forallb_forall. split.
  - intros H k qdef qcf HR HD HC.
    destruct (c55_precedence def cf ds dg k qdef qcf N1 N2 HR HD HC) as (r & Hr & B).
    apply dget_in in Hr. apply H in Hr. cbn in Hr. destruct r; [eauto|discriminate].
  - intros H [k r] I. cbn. destruct r as [v|]; auto. exfalso.
    assert (HR : IsRole cf k \/ IsRole def k).
    { apply (c55_roles def cf ds dg N1 N2). apply (in_map fst) in I. exact I. }
    assert (L : forall t : roles, exists qs, Listed t k qs).
    { intros t. destruct (dget t k) as [l|] eqn:E.
      - exists l. left. now apply dget_in.
      - exists []. right. split; auto. intros C. apply is_role_get in C. congruence. }
    destruct (L def) as [qdef HD]. destruct (L cf) as [qcf HC].
    destruct (c55_precedence def cf ds dg k qdef qcf N1 N2 HR HD HC) as (r & Hr & B).
    apply in_dget in I; [|apply search_vars_nodup]. rewrite I in Hr. injection Hr as <-.
    destruct (H k qdef qcf HR HD HC) as [v Hv].
    pose proof (c55_precedence_unique _ _ _ _ _ _ B Hv). discriminate.
Qed.
Print Assumptions c55_can_create.

(** C55: search_dataset_for_any_long_name: all answers to the first name that has
    any: those by long name before those by standard name, in file order. *)
Theorem c55_any_long_name : forall f names,
  match any_long_name f names with
  | Some l => exists pre n post, names = pre ++ n :: post /\ l <> [] /\
      (forall q v, In q pre -> In v (f_vars f) -> v_long v <> Some q /\ v_std v <> Some q) /\
      exists ls ss, l = ls ++ ss /\
        (forall v, In v ls <-> In v (f_vars f) /\ v_long v = Some n) /\
        (forall v, In v ss <-> In v (f_vars f) /\ v_std v = Some n)
  | None => forall q v, In q names -> In v (f_vars f) -> v_long v <> Some q /\ v_std v <> Some q
  end.
Proof.
  intros f names.
  assert (IL : forall q v, In v (by_long f q) <-> In v (f_vars f) /\ v_long v = Some q).
  { intros. unfold by_long. rewrite filter_In, attr_is_iff. tauto. }
  assert (IS : forall q v, In v (by_std f q) <-> In v (f_vars f) /\ v_std v = Some q).
  { intros. unfold by_std. rewrite filter_In, attr_is_iff. tauto. }
  induction names as [|n r IH]; cbn [any_long_name]; [intros q v []|].
  destruct (by_long f n ++ by_std f n) as [|a l] eqn:E.
  - apply app_eq_nil in E. destruct E as [E1 E2].
    assert (Z0 : forall v, In v (f_vars f) -> v_long v <> Some n /\ v_std v <> Some n).
    { intros v I. split; intros C; [specialize (IL n v); rewrite E1 in IL|specialize (IS n v); rewrite E2 in IS]; cbn in *; tauto. }
    destruct (any_long_name f r).
    + destruct IH as (pre & m & post & -> & H0 & H1 & H2). exists (n :: pre), m, post.
      repeat split; auto; destruct H as [<-|H]; try (apply Z0; assumption); now apply (H1 q v).
    + intros q v [<-|I] Iv; auto.
  - exists [], n, r. split; [reflexivity|]. split; [discriminate|]. split; [intros q v []|].
    exists (by_long f n), (by_std f n). split; [congruence|]. split; [apply IL|apply IS].
Qed.
Print Assumptions c55_any_long_name.

Local Open Scope string_scope.
Definition ex_ds := mkNfile 1 [mkNvar "u" (Some "Eastward") None; mkNvar "v" None (Some "north"); mkNvar "lon" None None].
Definition ex_dg := mkNfile 2 [mkNvar "depth" (Some "bathymetry") None; mkNvar "lon" (Some "node longitude") None].
Definition ex_def : roles := [("u", ["u"; "water_u"]); ("x", ["lon"]); ("h", ["h"])].
Definition ex_cf : roles := [("v", ["north"]); ("h", ["sea floor"; "bathymetry"])].
Example c55_example :
  NoDup (map fst ex_def) /\ NoDup (map fst ex_cf) /\
  dget (search_vars ex_def ex_cf ex_ds ex_dg) "h" = Some (Some (mkNvar "depth" (Some "bathymetry") None)) /\
  dget (search_vars ex_def ex_cf ex_ds ex_dg) "x" = Some (Some (mkNvar "lon" None None)) /\
  can_create ex_def ex_cf ex_ds ex_dg = true /\ can_create ex_def ex_cf ex_ds ex_ds = false.
Proof.
  split; [cbn; repeat constructor; cbn; intuition discriminate|].
  split; [cbn; repeat constructor; cbn; intuition discriminate|].
  repeat split; reflexivity.
Qed.
Local Close Scope string_scope.

(** C56: with a dataset, it is the data source; the grid source is what [filename]
    or else [grid_file] names, or else the same dataset. *)
Theorem c56_dataset : forall n filename o data_file grid_file,
  exists dg, parse_args n filename (Some o) data_file grid_file = Ok (Given o, dg) /\
    match filename, grid_file with
    | Some f, _ => Opens f dg
    | None, Some g => Opens g dg
    | None, None => dg = Given o
    end.
Proof.
  intros n filename o data_file grid_file. unfold parse_args, get_dataset.
  destruct filename as [[]|]; [..|destruct grid_file as [[]|]]; cbn [option_map fspath bind fst snd];
    try match goal with |- context [FList ?l] => destruct l as [|? []] end;
    cbn [bind fst snd]; eexists; (split; [reflexivity|]); cbn; eauto.
Qed.
Print Assumptions c56_dataset.

(** C56: without a dataset, one file name, or equal data and grid files: one object
    for both. *)
Theorem c56_same_object : forall n filename data_file grid_file f,
  filename = Some f \/ (filename = None /\ data_file = Some f /\ grid_file = Some f) ->
  exists d, parse_args n filename None data_file grid_file = Ok (d, d) /\ Opens f d.
Proof.
  intros n filename data_file grid_file f H.
  assert (R : forall g : fileref, fileref_eqb g g = true).
  { intros []; cbn; rewrite ?Nat.eqb_refl, ?String.eqb_refl; auto.
    unfold list_string_eqb. destruct (list_eq_dec string_dec paths paths); congruence. }
  unfold parse_args, get_dataset. destruct H as [->|(-> & -> & ->)]; cbn [arg_eqb]; rewrite R;
    destruct f as [| | |[|? []]]; cbn; eexists; (split; [reflexivity|]); cbn; eauto.
Qed.
Print Assumptions c56_same_object.

(** C56: without a dataset and with different data and grid files: two objects
    opened from the respective arguments, and different objects unless both
    arguments are open datasets. *)
Theorem c56_two_files : forall n df gf, fileref_eqb gf df = false ->
  exists d g, parse_args n None None (Some df) (Some gf) = Ok (d, g) /\ Opens df d /\ Opens gf g /\
    d <> g.
Proof.
  intros n df gf E. unfold parse_args. cbn [arg_eqb]. rewrite E. unfold get_dataset.
  destruct df as [| | |[|? []]], gf as [| | |[|? []]]; cbn in E |- *; eexists; eexists; (split; [reflexivity|]);
    cbn; (split; [eauto|]; split; [eauto|]); intros C; inversion C; subst; try lia.
  rewrite Nat.eqb_refl in E. discriminate.
Qed.
Print Assumptions c56_two_files.

(** C56: nothing given raises; a data file without a grid file (or the other way
    round) raises as well, because the missing one is opened too. *)
Theorem c56_missing : forall n df gf, df = None \/ gf = None -> parse_args n None None df gf = Err TypeError.
Proof.
  intros n df gf H. unfold parse_args, get_dataset.
  destruct df as [[| | |[|? []]]|], gf as [[| | |[|? []]]|]; cbn; auto; destruct H; discriminate.
Qed.
Print Assumptions c56_missing.

Example c56_example :
  parse_args 0 None (Some 7) (Some (FStr "a.nc"%string)) (Some (FStr "g.nc"%string)) = Ok (Given 7, Single "g.nc"%string 0) /\
  parse_args 0 None None (Some (FStr "a.nc"%string)) (Some (FPathLike "a.nc"%string)) =
    Ok (Single "a.nc"%string 0, Single "a.nc"%string 1).
Proof. split; reflexivity. Qed.
