(** Proofs about saved datasets opened again. *)
From Coq Require Import String Ascii.
From Verif Require Import Common CommonProofs TimeModel GridTypeModel GridTypeSpec GridTypeProofs MaskModel MaskSpec VariableModel UGridGeomModel UGridModel UFileModel UFileSpec LoadModel DSaveModel DSaveSpec DSaveProofs DSaveProps
  WholeModel FMeshModel FMeshSpec FMeshProofs FSaveModel.
Open Scope string_scope.
Open Scope list_scope.
Open Scope nat_scope.

Definition sget (f : list svar) (k : string) : option svar := find (fun s => String.eqb k (fv_name (sv_var s))) f.
Lemma sget_file dims f k : dget (fi_vars (to_file dims f)) k = option_map to_mvar (sget f k).
Proof. cbn [to_file fi_vars]. unfold sget. induction f as [|s f IH]; [reflexivity|]. cbn [map dget find]. destruct (String.eqb k (fv_name (sv_var s))); [reflexivity|exact IH]. Qed.
Lemma sget_load dims f k : dget (lf_vars (lfile_of dims f)) k = option_map lvar_of (sget f k).
Proof. cbn [lfile_of lf_vars]. unfold sget. induction f as [|s f IH]; [reflexivity|]. cbn [map dget find]. destruct (String.eqb k (fv_name (sv_var s))); [reflexivity|exact IH]. Qed.
Lemma sget_mesh f k : fget (map sv_var f) k = option_map sv_var (sget f k).
Proof. unfold fget, sget. induction f as [|s f IH]; [reflexivity|]. cbn [map find]. destruct (String.eqb k (fv_name (sv_var s))); [reflexivity|exact IH]. Qed.
Lemma sget_app f f' k : ~ In k (map (fun s => fv_name (sv_var s)) f) -> sget (f ++ f') k = sget f' k.
Proof.
  unfold sget. induction f as [|s f IH]; intros N; [reflexivity|]. cbn [map In] in N. cbn [app find].
  destruct (String.eqb_spec k (fv_name (sv_var s))) as [E|E]; [exfalso; apply N; left; now symmetry|apply IH; tauto].
Qed.
Lemma file_mesh dims f : as_mesh (to_file dims f) = map sv_var f.
Proof. unfold as_mesh. cbn [to_file fi_vars]. rewrite map_map. apply map_ext. intros [[] ds]. reflexivity. Qed.
Lemma file_load dims f : as_load (to_file dims f) = lfile_of dims f.
Proof. unfold as_load. cbn [to_file fi_vars fi_dims]. rewrite map_map. reflexivity. Qed.

(** What is written of a variable. *)
Definition WrittenAs (g : sgrid) (v : dvar) (s : svar) : Prop :=
  exists l dim c, d_loc v = Some l /\ DSaveModel.place g (d_loc v) = Ok (dim, length (d_vals v), c) /\ dget (d_attrs v) "_FillValue" = None /\
    s = mkSvar (mkFvar (d_name v) (attrs_of (s_mesh g) l c (d_attrs v)) None (d_vals v) [] None None) [(dim, length (d_vals v))].
Lemma save_var_written g used v s : save_var g used v = Ok s -> ~ In (d_name v) used /\ WrittenAs g v s.
Proof.
  unfold save_var. intros H. apply bind_ok in H. destruct H as ([[dim n] c] & P & H). destruct (isin (d_name v) used) eqn:I; [discriminate|].
  destruct (Nat.eqb_spec (length (d_vals v)) n) as [<-|]; [cbn [negb] in H|discriminate]. unfold has in H. destruct (dget (d_attrs v) "_FillValue") eqn:F; [discriminate|]. injection H as <-.
  split; [rewrite <- isin_in; congruence|]. destruct (d_loc v) as [l|] eqn:Hl; [|discriminate P]. exists l, dim, c. rewrite Hl. auto.
Qed.
Lemma save_vars_written g vs : forall used ss, save_vars g used vs = Ok ss ->
  Forall2 (WrittenAs g) vs ss /\ NoDup (map d_name vs) /\ forall v, In v vs -> ~ In (d_name v) used.
Proof.
  induction vs as [|v vs IH]; intros used ss H; cbn [save_vars] in H; [injection H as <-; repeat constructor; intros ? []|].
  apply bind_ok in H. destruct H as (s & Hs & H). apply bind_ok in H. destruct H as (ss' & Hss & H). injection H as <-.
  destruct (save_var_written _ _ _ _ Hs) as [N W]. destruct (IH _ _ Hss) as (F & Nd & Di). cbn [map]. split; [now constructor|]. split.
  - constructor; [|exact Nd]. intros I. apply in_map_iff in I. destruct I as (w & E & Iw). apply (Di w Iw). left. now symmetry.
  - intros w [<-|Iw]; [exact N|]. intros K. apply (Di w Iw). now right.
Qed.
Lemma written_get g vs ss : Forall2 (WrittenAs g) vs ss -> NoDup (map d_name vs) -> forall v, In v vs -> exists s, sget ss (d_name v) = Some s /\ WrittenAs g v s.
Proof.
  induction 1 as [|v s vs ss W F IH]; intros Nd w Iw; [destruct Iw|]. cbn [map] in Nd. inversion Nd as [|? ? Nh Nd']; subst.
  assert (E : fv_name (sv_var s) = d_name v) by (destruct W as (l & dim & c & _ & _ & _ & ->); reflexivity). unfold sget. cbn [find]. rewrite E. destruct Iw as [->|Iw].
  - rewrite String.eqb_refl. eauto.
  - destruct (String.eqb_spec (d_name w) (d_name v)) as [X|]; [|now apply IH]. exfalso. apply Nh. rewrite <- X. now apply in_map.
Qed.
Lemma saved_get d format f v : save_dataset d format = Ok f -> In v (map snd (ds_vars d)) -> exists s, sget f (d_name v) = Some s /\ WrittenAs (ds_grid d) v s.
Proof.
  unfold save_dataset. destruct (isin format ["netcdf3"; "netcdf4"]); [cbn [negb]|discriminate]. intros H Iv. apply bind_ok in H. destruct H as (fs & Hf & H).
  apply bind_ok in H. destruct H as (ss & Hs & H). injection H as <-. destruct (save_vars_written _ _ _ _ Hs) as (F & Nd & Di).
  rewrite sget_app; [|rewrite map_map; exact (Di v Iv)]. eapply written_get; eauto.
Qed.

(** Loading does not depend on a depth that is not there. *)
Lemma load_each_depth dateutil cftime e r g f : forall vs xs, load_each dateutil cftime (Err e) g f vs = Ok xs -> load_each dateutil cftime r g f vs = Ok xs.
Proof.
  induction vs as [|[k v] vs IH]; intros xs H; [exact H|]. cbn [load_each] in H |- *. destruct (is_grid_name g k); [auto|]. apply bind_ok in H. destruct H as (l & Hl & H). rewrite Hl. cbn [bind].
  destruct l as [l|]; [|auto]. apply bind_ok in H. destruct H as (x & Hx & H). apply bind_ok in H. destruct H as (xs' & Hxs & H). injection H as <-.
  assert (Hx' : load_variable dateutil cftime r g f 0 (plain_args k v l) = Ok x).
  { unfold load_variable in Hx |- *. destruct (dget (lf_vars f) (la_varname (plain_args k v l))) as [w|]; [|discriminate]. apply bind_ok in Hx. destruct Hx as (t & Ht & Hx). rewrite Ht. cbn [bind].
    apply bind_ok in Hx. destruct Hx as (dp & Hd & Hx). unfold load_depth in Hd |- *. cbn [plain_args la_depth] in Hd |- *. destruct (length (lv_shape w) =? horizontal (ga_kind g) + 1 + (if snd t then 1 else 0)); [discriminate|].
    injection Hd as <-. exact Hx. }
  rewrite Hx'. cbn [bind]. rewrite (IH _ Hxs). reflexivity.
Qed.
(** A loaded variable is the one of the file. *)
Lemma load_each_fields dateutil cftime r g f : forall vs xs, load_each dateutil cftime r g f vs = Ok xs -> forall k x, In (k, x) xs ->
  exists w, dget (lf_vars f) k = Some w /\ va_varname x = k /\ va_shape x = lv_shape w /\ va_attrs x = lv_attrs w.
Proof.
  induction vs as [|[k v] vs IH]; intros xs H; [injection H as <-; intros ? ? []|]. cbn [load_each] in H. destruct (is_grid_name g k); [exact (IH _ H)|]. apply bind_ok in H. destruct H as (l & Hl & H).
  destruct l as [l|]; [|exact (IH _ H)]. apply bind_ok in H. destruct H as (x & Hx & H). apply bind_ok in H. destruct H as (xs' & Hxs & H). injection H as <-.
  intros k' x' [E|I]; [injection E as <- <-|exact (IH _ Hxs k' x' I)]. unfold load_variable in Hx. cbn [plain_args la_varname] in Hx. destruct (dget (lf_vars f) k) as [w|]; [|discriminate]. exists w. split; [reflexivity|].
  apply bind_ok in Hx. destruct Hx as (t & Ht & Hx). apply bind_ok in Hx. destruct Hx as (dp & Hd & Hx). apply bind_ok in Hx. destruct Hx as (lo & _ & Hx). injection Hx as <-. auto.
Qed.

Lemma numbers_filled l : numbers (filled l) = Some l.
Proof. unfold numbers, filled. rewrite map_map, (map_ext _ Some); [apply all_some_map|]. intros [x y]. reflexivity. Qed.
Lemma again_filled l : again_coords (filled l) = l.
Proof. unfold again_coords. now rewrite numbers_filled. Qed.

(** The file begins with the mesh variable. *)
Lemma saved_head d format f : save_dataset d format = Ok f -> exists r, f = mkSvar (mesh_var (ds_grid d)) (grid_dims (ds_grid d) (s_mesh (ds_grid d))) :: r.
Proof.
  unfold save_dataset. destruct (isin format ["netcdf3"; "netcdf4"]); [cbn [negb]|discriminate]. intros H. apply bind_ok in H. destruct H as (fs & Hf & H).
  apply bind_ok in H. destruct H as (ss & Hs & H). injection H as <-. unfold save_grid in Hf. apply bind_ok in Hf. destruct Hf as (fc & _ & Hf). apply bind_ok in Hf. destruct Hf as (ec & _ & Hf).
  apply bind_ok in Hf. destruct Hf as (bc & _ & Hf). injection Hf as <-. eexists. reflexivity.
Qed.
(** It is taken for a mesh. *)
Lemma saved_factory d format f dims : save_dataset d format = Ok f ->
  exists tv, grid_from_netcdf (as_grid (to_file dims f)) None None = Ok (ReadWith Grid_U) /\ find_topology_var (as_grid (to_file dims f)) = Some tv /\
    topology_of (to_file dims f) tv = fv_attrs (mesh_var (ds_grid d)) ++ [("topology_dimension", "2")].
Proof.
  intros H. destruct (saved_head d format f H) as (r & ->). set (g := ds_grid d).
  set (h := mkSvar (mesh_var g) (grid_dims g (s_mesh g))).
  exists (to_grid (s_mesh g, to_mvar h)).
  assert (Ft : find_topology_var (as_grid (to_file dims (h :: r))) = Some (to_grid (s_mesh g, to_mvar h))) by reflexivity.
  split; [|split; [exact Ft|]].
  - unfold grid_from_netcdf, get_grid_type. rewrite Ft. cbn [bind]. 
    assert (Nd : has (fm_attrs (to_mvar h)) "node_dimensions" = false).
    { unfold has. cbn [to_mvar fm_attrs h sv_var mesh_var fv_attrs]. destruct (s_edges g), (s_edge_coords g), (s_faces g), (s_face_coords g), (s_face_edge g), (s_face_face g), (s_bounds g); reflexivity. }
    cbn [as_grid to_file gf_grid_type fi_grid_type to_grid gv_node_coordinates gv_node_dimensions snd]. rewrite Nd. reflexivity.
  - unfold topology_of. rewrite sget_file. unfold sget. cbn [find to_grid gv_name fst h sv_var fv_name mesh_var]. rewrite String.eqb_refl. reflexivity.
Qed.

Section Again.
  Context (d : dataset) (format : string) (dateutil : string -> TFileModel.dparse) (cftime : string -> option (Z * Z * Z)) (f : list svar) (u : ugrid) (xs : dict (variable * list Q)) (faces : list (list Z)).
  Context (Sv : save_dataset d format = Ok f) (Ld : load_dataset dateutil cftime (dims_made (ds_grid d)) f = Ok (u, xs)).
  Context (Un : ug_nodes u = filled (s_nodes (ds_grid d))) (Uf : ug_faces u = Some (map (map Some) faces)) (Um : ug_mesh u = s_mesh (ds_grid d)).
  Let F := to_file (dims_made (ds_grid d)) f.
  Definition reopened : mesh :=
    mkMesh (s_nodes (ds_grid d)) faces (option_map (@length _) (ug_bounds u)) (fv_attrs (mesh_var (ds_grid d)) ++ [("topology_dimension", "2")]).
  Lemma again_parts : exists vs, load_grid (map sv_var f) None = Ok u /\ load_variables dateutil cftime (Err ValueError) (api_of u (mesh_var (ds_grid d))) (lfile_of (dims_made (ds_grid d)) f) = Ok vs /\
    xs = map (fun kx => (fst kx, (snd kx, match fget (map sv_var f) (fst kx) with Some v => fv_values v | None => [] end))) vs.
  Proof.
    pose proof Ld as H. unfold load_dataset in H. cbv zeta in H. apply bind_ok in H. destruct H as (u' & Hu & H).
    destruct (fget (map sv_var f) (ug_mesh u')) as [mesh|] eqn:Fm; [|discriminate]. apply bind_ok in H. destruct H as (vs & Hv & H). injection H as -> <-.
    assert (mesh = mesh_var (ds_grid d)) as ->.
    { rewrite Um, sget_mesh in Fm. destruct (saved_head d format f Sv) as (r & ->). unfold sget in Fm. cbn [find sv_var fv_name mesh_var] in Fm. rewrite String.eqb_refl in Fm. cbn [option_map sv_var] in Fm. congruence. }
    exists vs. auto.
  Qed.
  Lemma again_opened vs : load_variables dateutil cftime (Err ValueError) (api_of u (mesh_var (ds_grid d))) (lfile_of (dims_made (ds_grid d)) f) = Ok vs -> load_grid (map sv_var f) None = Ok u ->
    open_dataset dateutil cftime F = Ok (reopened, vs).
  Proof.
    intros Hv Hu. unfold open_dataset, open_mesh. destruct (saved_factory d format f (dims_made (ds_grid d)) Sv) as (tv & E1 & E2 & E3). fold F in E1, E2, E3. rewrite E1, E2. cbn [bind].
    unfold F at 1. rewrite file_mesh, Hu. cbn [bind]. rewrite Un, Uf, numbers_filled, plain_of, E3. cbn [bind].
    assert (Ea : api reopened = api_of u (mesh_var (ds_grid d))).
    { unfold api, api_of, reopened. cbn [me_nodes me_faces me_bounds me_topology]. rewrite Un, Uf. cbn [option_map]. unfold filled. now rewrite !map_length. }
    fold reopened. rewrite Ea. unfold F at 2. rewrite file_load. unfold load_variables in Hv |- *. rewrite (load_each_depth _ _ _ _ _ _ _ _ Hv). reflexivity.
  Qed.
  Lemma again_asked now tree hist v x q ex pts time hd dv : In v (map snd (ds_vars d)) -> dget xs (d_name v) = Some x ->
    Some (va_loc (fst x)) = d_loc v -> va_depth (fst x) = DepthNone ->
    ask_file dateutil cftime now tree hist F (d_name v) q ex pts = ask_variable tree hist (s_nodes (ds_grid d)) faces v time hd dv q ex pts.
  Proof.
    intros Iv Gx Lx Dx. destruct again_parts as (vs & Hu & Hv & ->). rewrite <- (map_id vs) in Gx at 1.
    assert (Gv : dget vs (d_name v) = Some (fst x)).
    { revert Gx. rewrite map_id. clear. induction vs as [|[k y] vs IH]; [discriminate|]. cbn [map dget fst snd]. destruct (String.eqb (d_name v) k); [intros H; injection H as <-; reflexivity|exact IH]. }
    unfold ask_file. rewrite (again_opened vs Hv Hu). cbn [bind fst snd]. rewrite Gv. unfold answer.
    destruct (load_each_fields _ _ _ _ _ _ _ Hv (d_name v) (fst x)) as (w & Gw & Vn & Vs & _); [now apply SearchProofs.dget_in|].
    rewrite Vn. unfold F. rewrite sget_file. rewrite sget_load in Gw. destruct (saved_get d format f v Sv Iv) as (s & Gs & (l & dim & c & Hl & _ & _ & ->)). rewrite Gs in Gw |- *. cbn [option_map] in Gw |- *. injection Gw as <-.
    unfold depth_of. rewrite Dx. cbn [bind fst snd]. rewrite Vs. cbn [lvar_of lv_shape sv_dims map snd length].
    unfold ask_variable. rewrite Hl in Lx. injection Lx as ->. rewrite Hl. cbn [length to_mvar fm_part sv_var fv_values reopened me_nodes me_faces]. destruct time; reflexivity.
  Qed.
End Again.

(** ** Saving what was opened *)
Lemma dset_new (P : dict string) k v : ~ In k (map fst P) -> dset P k v = P ++ [(k, v)].
Proof. induction P as [|[a b] P IH]; intros N; [reflexivity|]. cbn [map fst In] in N. cbn [dset app]. destruct (String.eqb_spec k a) as [E|_]; [exfalso; apply N; left; now symmetry|]. rewrite IH; [reflexivity|tauto]. Qed.
Lemma dset_at (P : dict string) k v w R : ~ In k (map fst P) -> dset (P ++ (k, w) :: R) k v = P ++ (k, v) :: R.
Proof. induction P as [|[a b] P IH]; intros N; cbn [app dset]; [now rewrite String.eqb_refl|]. cbn [map fst In] in N. destruct (String.eqb_spec k a) as [E|_]; [exfalso; apply N; left; now symmetry|]. rewrite IH; [reflexivity|tauto]. Qed.
Lemma fold_new (E : dict string) : forall P, NoDup (map fst (P ++ E)) -> fold_left (fun d kv => dset d (fst kv) (snd kv)) E P = P ++ E.
Proof.
  induction E as [|[k v] E IH]; intros P N; [now rewrite app_nil_r|]. cbn [fold_left fst snd]. rewrite dset_new.
  - rewrite IH; rewrite <- app_assoc; [reflexivity|exact N].
  - rewrite map_app in N. cbn [map fst] in N. apply NoDup_remove_2 in N. intros I. apply N. apply in_app_iff. now left.
Qed.
Lemma fold_same (E : dict string) : forall P B, map fst E = map fst B -> NoDup (map fst (P ++ E)) -> fold_left (fun d kv => dset d (fst kv) (snd kv)) E (P ++ B) = P ++ E.
Proof.
  induction E as [|[k v] E IH]; intros P B M N; destruct B as [|[k' w] B]; try discriminate; [reflexivity|]. cbn [map fst] in M. injection M as <- M. cbn [fold_left fst snd].
  rewrite dset_at.
  - change (P ++ (k, v) :: B) with (P ++ [(k, v)] ++ B). rewrite app_assoc. rewrite IH; [now rewrite <- app_assoc|exact M|rewrite <- app_assoc; exact N].
  - rewrite map_app in N. cbn [map fst] in N. apply NoDup_remove_2 in N. intros I. apply N. apply in_app_iff. now left.
Qed.
Lemma dset_keys (d : dict string) k v : map fst (dset d k v) = map fst d \/ (~ In k (map fst d) /\ map fst (dset d k v) = map fst d ++ [k]).
Proof.
  induction d as [|[a b] d IH]; [right; split; [intros []|reflexivity]|]. cbn [dset map fst]. destruct (String.eqb_spec k a) as [->|N]; [left; reflexivity|]. cbn [map fst].
  destruct IH as [E|[N' E]]; [left; now rewrite E|right; split; [intros [E'|I]; [now apply N|now apply N']|now rewrite E]].
Qed.
Lemma fold_keys (own : dict string) : forall d, NoDup (map fst d) -> exists X, map fst (fold_left (fun d kv => dset d (fst kv) (snd kv)) own d) = map fst d ++ X /\ NoDup (map fst d ++ X).
Proof.
  induction own as [|[k v] own IH]; intros d N; [exists []; rewrite app_nil_r; auto|]. cbn [fold_left fst snd]. destruct (dset_keys d k v) as [E|[N' E]].
  - destruct (IH (dset d k v)) as (X & A & B); [now rewrite E|]. exists X. rewrite A, E. rewrite E in B. auto.
  - destruct (IH (dset d k v)) as (X & A & B); [rewrite E|].
    + revert N N'. clear. induction (map fst d) as [|x l IH]; intros N N'; cbn [app]; [repeat constructor; auto|].
      inversion N; subst. constructor; [rewrite in_app_iff; intros [I|[<-|[]]]; [auto|apply N'; now left]|apply IH; [auto|intros I; apply N'; now right]].
    + exists (k :: X). rewrite A, E, <- app_assoc. rewrite E, <- app_assoc in B. auto.
Qed.
Lemma attrs_again m l c own : fold_left (fun d kv => dset d (fst kv) (snd kv)) (attrs_of m l c own) ([("location", l); ("mesh", m)] ++ match c with Some c => [("coordinates", c)] | None => [] end)
  = attrs_of m l c own.
Proof.
  set (B := [("location", l); ("mesh", m)] ++ match c with Some c => [("coordinates", c)] | None => [] end).
  assert (NB : NoDup (map fst B)) by (unfold B; destruct c; cbn; repeat constructor; cbn; intuition discriminate).
  destruct (fold_keys own B NB) as (X & A & N). change (fold_left _ own B) with (attrs_of m l c own) in A. set (E := attrs_of m l c own) in *.
  assert (Sp : exists E1 E2, E = E1 ++ E2 /\ map fst E1 = map fst B /\ map fst E2 = X).
  { clearbody E. revert A. clear. generalize (map fst B). intros K. revert E. induction K as [|k K IH]; intros E A; [exists [], E; auto|]. destruct E as [|[a b] E]; [discriminate|]. cbn [map fst app] in A. injection A as -> A.
    destruct (IH E A) as (E1 & E2 & -> & H1 & H2). exists ((k, b) :: E1), E2. cbn [map fst app]. now rewrite H1. }
  destruct Sp as (E1 & E2 & EE & K1 & K2). rewrite EE, fold_left_app. pose proof (fold_same E1 [] B K1) as Fs. cbn [app] in Fs. rewrite Fs.
  - apply fold_new. rewrite map_app, K1, K2. exact N.
  - rewrite K1. exact NB.
Qed.
Lemma save_again g used v s x vals : save_var g used v = Ok s -> NoDup (map fst (d_attrs v)) -> va_name x = d_name v -> Some (va_loc x) = d_loc v -> vals = d_vals v -> va_attrs x = fv_attrs (sv_var s) ->
  save_var g used (again_var x vals) = Ok s.
Proof.
  intros H Nd En El -> Ea. destruct (save_var_written _ _ _ _ H) as [N (l & dim & c & Hl & P & F & ->)]. cbn [sv_var fv_attrs] in Ea. rewrite Hl in El. injection El as El.
  unfold save_var, again_var. cbn [d_loc d_name d_vals d_attrs]. rewrite En, El. rewrite <- Hl, P. cbn [bind].
  destruct (isin (d_name v) used) eqn:I; [apply isin_in in I; contradiction|]. rewrite Nat.eqb_refl. cbn [negb].
  unfold has. rewrite Ea, attrs_other by (auto; reflexivity). rewrite F. unfold attrs_of at 1. now rewrite attrs_again.
Qed.
Lemma save_all_again g vs : forall used ss (xs : dict (variable * list Q)), save_vars g used vs = Ok ss -> Forall (fun v => NoDup (map fst (d_attrs v))) vs ->
  Forall2 SameVariable vs xs -> Forall2 (fun v x => va_name (fst (snd x)) = d_name v) vs xs ->
  Forall2 (fun s (x : string * (variable * list Q)) => va_attrs (fst (snd x)) = fv_attrs (sv_var s)) ss xs ->
  save_vars g used (map (fun x => again_var (fst (snd x)) (snd (snd x))) xs) = Ok ss.
Proof.
  induction vs as [|v vs IH]; intros used ss xs H Nd Sa Na At.
  - inversion Sa; subst. exact H.
  - cbn [save_vars] in H. apply bind_ok in H. destruct H as (s & Hs & H). apply bind_ok in H. destruct H as (ss' & Hss & H). injection H as <-.
    inversion Sa as [|? x ? xs' S1 S2]; subst. inversion Na; subst. inversion At; subst. inversion Nd; subst. destruct S1 as (_ & Lo & Va & _).
    cbn [map save_vars]. rewrite (save_again _ _ _ _ _ _ Hs); auto. cbn [bind]. cbn [again_var d_name].
    match goal with E : va_name _ = d_name v |- _ => rewrite E end. rewrite (IH _ _ _ Hss); auto.
Qed.
