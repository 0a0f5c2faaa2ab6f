(** C79: a saved dataset reads back. *)
From Coq Require Import String Ascii QArith.
From Verif Require Import Common CommonProofs GridTypeModel GridTypeSpec GridTypeProofs MaskModel MaskSpec MaskProofs VerdatModel
  UFileModel UFileSpec UFileProofs UFileProps UGridModel TimeModel TFileModel TFileProofs TFileProps LoadModel LoadSpec LoadProofs LoadProps
  DSaveModel DSaveSpec DSaveProofs.
Open Scope string_scope.
Open Scope list_scope.
Open Scope nat_scope.

(** What is saved is read again: the grid, and every variable under its name,
    with its place, its values, and its attributes. *)
Theorem c79_round_trip_partial : forall d format dateutil cftime, let g := ds_grid d in
  all_chars (fun c => ~ Blank c) (s_mesh g) -> ~ Mentions "time" (s_mesh g) ->
  (forall t, s_faces g = Some t -> ValidFaces (length (s_nodes g)) t) ->
  NotRows 3 (s_faces g) -> NotRows 2 (s_edges g) -> NotRows 2 (s_bounds g) ->
  Fit (s_faces g) (s_face_coords g) -> Fit (s_edges g) (s_edge_coords g) -> s_bound_coords g = None ->
  Forall (Writable g) (map snd (ds_vars d)) -> NoDup (map (fun kv => d_name (snd kv)) (ds_vars d)) ->
  format = "netcdf3" \/ format = "netcdf4" ->
  exists f xs, save_dataset d format = Ok f /\
    load_dataset dateutil cftime (dims_made g) f =
      Ok (mkUgrid (s_mesh g) (filled (s_nodes g)) (s_faces g) None (s_bounds g) (s_edges g)
            (option_map filled (s_face_coords g)) (option_map filled (s_edge_coords g)) None, xs) /\
    Forall2 SameVariable (map snd (ds_vars d)) xs.
Proof.
  intros d format dateutil cftime g Hm Ht VF NF NE NB FF FE Hb W ND Fm.
  destruct (c71_round_trip_partial g None) as (f & Sf & Lf); auto; [rewrite Hb; exact I|].
  set (vs := map snd (ds_vars d)) in *.
  assert (ND' : NoDup (map d_name vs)) by (unfold vs; rewrite map_map; exact ND).
  assert (Names : forall v, In v f -> v = mesh_var g \/ MeshWord g (fv_name v)) by (apply (saved_names g f); auto).
  assert (Disj : forall v, In v vs -> ~ In (d_name v) (map fv_name f)).
  { intros v Hv I. rewrite Forall_forall in W. destruct (w_name g v (W v Hv)) as [A B].
    apply in_map_iff in I. destruct I as (w & E & Hw). destruct (Names w Hw) as [->|K]; [apply B; now rewrite <- E|].
    apply A. now rewrite <- E. }
  destruct (save_vars_ok g vs (map fv_name f)) as (ss & Es & F); auto.
  set (file := map (fun v => mkSvar v (grid_dims g (fv_name v))) f ++ ss).
  assert (Sd : save_dataset d format = Ok file).
  { unfold save_dataset. destruct Fm as [-> | ->]; cbn [isin existsb String.eqb Ascii.eqb Bool.eqb orb negb]; fold g; rewrite Sf; cbn [bind]; fold vs; rewrite Es; reflexivity. }
  exists file. set (extra := map sv_var ss).
  assert (Ef : map sv_var file = f ++ extra).
  { unfold file, extra. rewrite map_app, map_map. cbn [sv_var]. now rewrite map_id. }
  assert (Xn : map fv_name extra = map d_name vs) by (unfold extra; rewrite map_map; now apply (saved_map g)).
  assert (Xin : forall w, In w extra -> exists v, In v vs /\ fv_name w = d_name v /\ is_mesh w = false).
  { intros w Hw. unfold extra in Hw. apply in_map_iff in Hw. destruct Hw as (s & <- & Hs).
    destruct (saved_in g vs ss s F Hs) as (v & Hv & (l & suf & c & _ & _ & _ & ->)). exists v. split; [exact Hv|]. split; [reflexivity|].
    unfold is_mesh. cbn [sv_var fv_attrs fv_topology_dimension]. destruct (dget _ "cf_role") as [r|]; auto. now destruct (String.eqb (strip r) "mesh_topology"). }
  assert (Xword : forall w, MeshWord g w -> fget extra w = None).
  { intros w Hw. apply fget_none. rewrite Xn. intros I. apply in_map_iff in I. destruct I as (v & E & Hv).
    rewrite Forall_forall in W. apply (proj1 (w_name g v (W v Hv))). now rewrite E. }
  assert (Fm' : fget f (s_mesh g) = Some (mesh_var g) /\ f = mesh_var g :: tl f).
  { unfold save_grid in Sf. destruct (save_coords (s_mesh g) "face" (s_faces g) (s_face_coords g)); [cbn [bind] in Sf|discriminate].
    destruct (save_coords (s_mesh g) "edge" (s_edges g) (s_edge_coords g)); [cbn [bind] in Sf|discriminate].
    destruct (save_coords (s_mesh g) "boundary" (s_bounds g) (s_bound_coords g)); [cbn [bind] in Sf|discriminate].
    injection Sf as <-. split; [|reflexivity]. unfold fget. cbn [find fv_name mesh_var]. now rewrite String.eqb_refl. }
  destruct Fm' as [Fmesh Fhd].
  assert (Mdget : forall role text, dget (fv_attrs (mesh_var g)) role = Some text -> In (role, text) (fv_attrs (mesh_var g))).
  { intros role text. generalize (fv_attrs (mesh_var g)). induction d0 as [|[k v] d0 IH]; [discriminate|]. cbn [dget].
    destruct (String.eqb_spec role k) as [->|]; intros H; [injection H as ->; now left|right; auto]. }
  assert (Lg : load_grid (f ++ extra) None = load_grid f None).
  { apply load_grid_app.
    - intros v Hv. destruct (Xin v Hv) as (_ & _ & _ & K). exact K.
    - intros w Hw. destruct (Xin w Hw) as (v & Hv & -> & _). now apply Disj.
    - intros n mesh role text Hn Hmesh Hr.
      assert (n = s_mesh g) by (unfold load_grid in Lf; rewrite Hn in Lf; cbn [bind] in Lf; rewrite Hmesh in Lf;
        repeat match type of Lf with bind ?x _ = _ => destruct x; [cbn [bind] in Lf|discriminate] end; injection Lf; auto).
      subst n. rewrite Fmesh in Hmesh. injection Hmesh as <-. split.
      + intros R. assert (Tx : exists s, text = (s_mesh g ++ s)%string /\ nonblankb s = true /\ s <> "").
        { destruct (mesh_attrs g) as (_ & _ & _ & _ & AF & AE & AB & AL).
          cbn [isin existsb] in R. rewrite !orb_true_iff, !String.eqb_eq in R.
          destruct R as [-> |[-> |[-> |[-> |R]]]]; [| | | |discriminate].
          - rewrite AF in Hr. destruct (s_faces g); [injection Hr as <-|discriminate]. eexists. split; [reflexivity|]. now split.
          - rewrite AL in Hr. destruct (s_face_face g); [injection Hr as <-|discriminate]. eexists. split; [reflexivity|]. now split.
          - rewrite AB in Hr. destruct (s_bounds g); [injection Hr as <-|discriminate]. eexists. split; [reflexivity|]. now split.
          - rewrite AE in Hr. destruct (s_edges g); [injection Hr as <-|discriminate]. eexists. split; [reflexivity|]. now split. }
        destruct Tx as (s & -> & Ns & Ne). apply Xword. right. exists role, (s_mesh g ++ s)%string, [(s_mesh g ++ s)%string].
        split; [now apply Mdget|]. split; [|now left].
        replace (Words (s_mesh g ++ s) [(s_mesh g ++ s)%string]) with (Words ("" ++ (s_mesh g ++ s) ++ "")%string [(s_mesh g ++ s)%string])
          by (cbn [append]; now rewrite str_nil_r).
        apply words_one; try exact I. split; [destruct (s_mesh g); [exact Ne|discriminate]|]. apply all_app. split; [exact Hm|now apply nonblank_text].
      + intros w Hw. apply Xword. right. exists role, text, (split text). split; [now apply Mdget|]. split; [apply split_words|exact Hw]. }
  assert (Fmesh' : fget (f ++ extra) (s_mesh g) = Some (mesh_var g)) by (rewrite fget_app, Fmesh; reflexivity).
  set (u := mkUgrid (s_mesh g) (filled (s_nodes g)) (s_faces g) None (s_bounds g) (s_edges g)
            (option_map filled (s_face_coords g)) (option_map filled (s_edge_coords g)) None) in *.
  set (api := api_of u (mesh_var g)).
  assert (GN : forall k, GridName api k <-> MeshWord g k).
  { intros k. unfold GridName, MeshWord, api, api_of. cbn [ga_topology fv_topology_dimension mesh_var]. fold (mesh_var g). split.
    - intros (role & text & words & I & Wd & K). apply in_app_iff in I. destruct I as [I|[I|[]]].
      + right. exists role, text, words. auto.
      + injection I as <- <-. left. assert (E : words = ["2"]) by (rewrite <- (split_unique _ _ Wd); reflexivity).
        subst words. destruct K as [K|[]]. now symmetry.
    - intros [->|(role & text & words & I & Wd & K)].
      + exists "topology_dimension", "2", ["2"]. split; [apply in_app_iff; right; now left|]. split; [|now left].
        change ["2"] with (split "2"). apply split_words.
      + exists role, text, words. split; [apply in_app_iff; now left|auto]. }
  destruct (load_saved dateutil cftime (Err ValueError) api g (lfile_of (dims_made g) file) vs ss) as (xs & Ex & Qx); auto.
  { intros v Hv K. apply GN in K. rewrite Forall_forall in W. exact (proj1 (w_name g v (W v Hv)) K). }
  { intros s Hs. unfold lfile_of. cbn [lf_vars]. unfold file. rewrite map_app.
    assert (Ns : ~ In (fv_name (sv_var s)) (map fv_name f)).
    { destruct (saved_in g vs ss s F Hs) as (v & Hv & (l & suf & c & _ & _ & _ & ->)). now apply Disj. }
    rewrite map_map. cbn [sv_var].
    assert (Sk : forall ys (zs : dict lvar), ~ In (fv_name (sv_var s)) (map fv_name ys) ->
       dget (map (fun x => (fv_name x, lvar_of (mkSvar x (grid_dims g (fv_name x))))) ys ++ zs) (fv_name (sv_var s)) = dget zs (fv_name (sv_var s))).
    { induction ys as [|y ys IH]; intros zs Ny; [reflexivity|]. cbn [map app dget].
      destruct (String.eqb_spec (fv_name (sv_var s)) (fv_name y)) as [E|E]; [exfalso; apply Ny; left; now symmetry|].
      apply IH. intros K. apply Ny. now right. }
    rewrite Sk by exact Ns. apply dget_nodup.
    - rewrite map_map. cbn [fst]. now rewrite (saved_map g vs ss F).
    - apply in_map_iff. exists s. auto. }
  exists (map (fun kx => (fst kx, (snd kx, match fget (f ++ extra) (fst kx) with Some v => fv_values v | None => [] end))) xs).
  split; [exact Sd|]. split.
  - unfold load_dataset. rewrite Ef, Lg, Lf. cbn [bind]. change (ug_mesh u) with (s_mesh g). rewrite Fmesh'. fold api.
    unfold load_variables. cbn [lf_vars lfile_of]. unfold file at 2. rewrite map_app, load_each_skip.
    + rewrite Ex. reflexivity.
    + intros k v Hkv. rewrite map_map in Hkv. apply in_map_iff in Hkv. destruct Hkv as (w & E & Hw). cbn [sv_var] in E.
      injection E as <- <-. destruct (Names w Hw) as [->|K]; [right|left; now apply GN].
      unfold find_location. cbn [lvar_of lv_attrs lv_shape sv_var sv_dims].
      assert (NL : dget (fv_attrs (mesh_var g)) "location" = None).
      { unfold mesh_var. cbn [fv_attrs]. rewrite !dget_app, !dget_given, !dget_app, !dget_given. cbn [dget String.eqb Ascii.eqb Bool.eqb].
        rewrite !opt_none. destruct (s_edges g), (s_edge_coords g), (s_faces g), (s_face_coords g); rewrite ?opt_none; reflexivity. }
      rewrite NL. assert (GD : grid_dims g (fv_name (mesh_var g)) = []).
      { unfold grid_dims. cbn [fv_name mesh_var].
        assert (Em : forall s, s <> "" -> String.eqb (s_mesh g) (s_mesh g ++ s) = false) by (intros s Hs; rewrite String.eqb_sym; now apply eqb_self).
        rewrite !Em by discriminate. reflexivity. }
      rewrite GD. reflexivity.
  - assert (Val : forall v, In v vs -> fget (f ++ extra) (d_name v) = fget extra (d_name v)).
    { intros v Hv. rewrite fget_app. now rewrite (proj2 (fget_none f (d_name v)) (Disj v Hv)). }
    assert (Fx : forall v s, In s ss -> Saved g v s -> fget extra (d_name v) = Some (sv_var s)).
    { intros v s Hs (l & suf & c & _ & _ & _ & ->). unfold extra.
      assert (NDs : NoDup (map (fun s => fv_name (sv_var s)) ss)) by (rewrite (saved_map g vs ss F); exact ND').
      clear - Hs NDs. induction ss as [|s0 ss IH]; [destruct Hs|]. cbn [map] in NDs. inversion NDs as [|? ? Nh NDt]; subst.
      unfold fget. cbn [map find]. destruct Hs as [->|Hs]; [cbn [sv_var fv_name]; now rewrite String.eqb_refl|].
      destruct (String.eqb_spec (d_name v) (fv_name (sv_var s0))) as [E|]; [|now apply IH].
      exfalso. apply Nh. apply in_map_iff. eexists. split; [|exact Hs]. cbn [sv_var fv_name]. exact E. }
    assert (G : forall (vs' : list dvar) ss' (xs' : dict variable), Forall2 (Saved g) vs' ss' ->
      Forall2 (fun v x => fst x = d_name v /\ Some (va_loc (snd x)) = d_loc v /\
        va_name (snd x) = (match dget (d_attrs v) "long_name" with Some n => n | None => d_name v end) /\
        va_time (snd x) = TimeNow /\ va_depth (snd x) = DepthNone /\
        forall k a, dget (d_attrs v) k = Some a -> dget (va_attrs (snd x)) k = Some a) vs' xs' ->
      (forall v, In v vs' -> In v vs) -> (forall s, In s ss' -> In s ss) ->
      Forall2 SameVariable vs' (map (fun kx => (fst kx, (snd kx, match fget (f ++ extra) (fst kx) with Some v => fv_values v | None => [] end))) xs')).
    { intros vs' ss' xs' Fs. revert xs'. induction Fs as [|v s vs' ss' S Fs IH]; intros xs' Q Iv Is; inversion Q as [|? x ? xs'' Qv Q']; subst; [constructor|].
      cbn [map]. constructor.
      - destruct Qv as (A & B & C & D & E & G). unfold SameVariable. cbn [fst snd]. split; [exact A|]. split; [exact B|]. split; [|tauto].
        rewrite A, (Val v (Iv v (or_introl eq_refl))), (Fx v s (Is s (or_introl eq_refl)) S).
        destruct S as (l & suf & c & _ & _ & _ & ->). reflexivity.
      - apply IH; auto; [intros; apply Iv; now right|intros; apply Is; now right]. }
    apply (G vs ss xs); auto.
Qed.
Print Assumptions c79_round_trip_partial.
(** A dataset of the kind the theorem is about: three triangles, a depth at the
    nodes and a speed at the faces. *)
Definition demo_sgrid : sgrid :=
  mkSgrid "mesh" [(0, 0); (1, 0); (1, 1); (0, 1); (2, 0); (2, 1)]%Q
    (Some [[Some 0; Some 1; Some 2]; [Some 0; Some 2; Some 3]; [Some 1; Some 4; Some 2]; [Some 4; Some 5; Some 2]]%Z) None None None None
    (Some [(1, 1); (1, 1); (1, 1); (1, 1)]%Q) None None.
Definition demo_depth : dvar := mkDvar "depth" (Some "node") [5; 6; 7; 8; 9; 10]%Q [("units", "m"); ("long_name", "water depth")].
Definition demo_speed : dvar := mkDvar "speed" (Some "face") [1; 2; 3; 4]%Q [("units", "m/s"); ("location", "face")].
Definition demo_dataset : dataset := mkDataset demo_sgrid [("d", demo_depth); ("s", demo_speed)] [("title", "demo")].
Example c79_round_trip_demo : exists f u xs, save_dataset demo_dataset "netcdf3" = Ok f /\
  load_dataset demo_dateutil demo_cftime (dims_made demo_sgrid) f = Ok (u, xs) /\
  map fst xs = ["depth"; "speed"] /\ map (fun x => snd (snd x)) xs = [[5; 6; 7; 8; 9; 10]; [1; 2; 3; 4]]%Q /\
  map (fun x => va_name (fst (snd x))) xs = ["water depth"; "speed"] /\ map (fun x => va_loc (fst (snd x))) xs = ["node"; "face"].
Proof. eexists _, _, _. split; [reflexivity|]. split; [vm_compute; reflexivity|]. repeat split. Qed.
Lemma demo_word w : MeshWord demo_sgrid w -> In w ["2"; "mesh_topology"; "Topology"; "data"; "of"; "2D"; "unstructured"; "mesh";
  "mesh_node_lon"; "mesh_node_lat"; "mesh_face_nodes"; "mesh_face_lon"; "mesh_face_lat"].
Proof.
  intros [->|(role & text & words & I & W & H)]; [now left|]. rewrite <- (split_unique _ _ W) in H. cbn in I.
  repeat destruct I as [I|I]; try contradiction; injection I as <- <-; vm_compute in H; cbn; intuition (subst; auto 20).
Qed.
Example c79_hypotheses_demo : all_chars (fun c => ~ Blank c) "mesh" /\ ~ Mentions "time" "mesh" /\
  Forall (Writable demo_sgrid) (map snd (ds_vars demo_dataset)) /\ NoDup (map (fun kv => d_name (snd kv)) (ds_vars demo_dataset)).
Proof.
  split; [now apply nonblank_text|]. split; [intros H; apply contains_spec in H; discriminate|]. split.
  - constructor; [|constructor; [|constructor]].
    + constructor; cbn [snd demo_depth d_loc d_name d_attrs d_vals].
      * exists "node". split; [reflexivity|]. split; [left; split; reflexivity|now left].
      * split; [|discriminate]. intros H. apply demo_word in H. cbn in H. repeat destruct H as [H|H]; try discriminate; contradiction.
      * split; [|reflexivity]. repeat constructor; cbn; intuition discriminate.
      * intros t H. discriminate.
    + constructor; cbn [snd demo_speed d_loc d_name d_attrs d_vals].
      * exists "face". split; [reflexivity|]. split; [right; left; split; [reflexivity|eexists; split; reflexivity]|now right].
      * split; [|discriminate]. intros H. apply demo_word in H. cbn in H. repeat destruct H as [H|H]; try discriminate; contradiction.
      * split; [|reflexivity]. repeat constructor; cbn; intuition discriminate.
      * intros t H. discriminate.
  - repeat constructor; cbn; intuition discriminate.
Qed.

(** When a variable can be written. *)
Theorem c79_accept : forall g used v,
  (exists s, save_var g used v = Ok s) <->
  ~ In (d_name v) used /\ dget (d_attrs v) "_FillValue" = None /\ exists l, d_loc v = Some l /\ ElementsAt g l (length (d_vals v)).
Proof.
  intros g used v. unfold save_var. split.
  - intros (s & H). destruct (place g (d_loc v)) as [[[dim n] c]|] eqn:P; [cbn [bind] in H|discriminate].
    destruct (isin (d_name v) used) eqn:I; [discriminate|].
    destruct (length (d_vals v) =? n) eqn:L; [cbn [negb] in H|discriminate]. apply Nat.eqb_eq in L.
    unfold has in H. destruct (dget (d_attrs v) "_FillValue"); [discriminate|]. split; [rewrite <- isin_in; congruence|]. split; [reflexivity|].
    unfold place in P. destruct (d_loc v) as [l|]; [|discriminate]. exists l. split; [reflexivity|]. rewrite L. clear H. cbn zeta in P. unfold ElementsAt.
    destruct (String.eqb_spec l "node") as [El|Nn]; [subst l; injection P as _ <- _; auto|].
    destruct (String.eqb_spec l "face") as [El|]; [subst l; destruct (s_faces g) as [t|]; [injection P as _ <- _; eauto 8|discriminate]|].
    destruct (String.eqb_spec l "edge") as [El|]; [subst l; destruct (s_edges g) as [t|]; [injection P as _ <- _; eauto 8|discriminate]|].
    destruct (String.eqb_spec l "boundary") as [El|]; [subst l; destruct (s_bounds g) as [t|]; [injection P as _ <- _; eauto 8|discriminate]|discriminate].
  - intros (U & F & l & Hl & E). rewrite Hl.
    assert (P : exists dim c, place g (Some l) = Ok (dim, length (d_vals v), c)).
    { unfold place. destruct E as [[-> E]|[[-> (t & Et & E)]|[[-> (t & Et & E)]|[-> (t & Et & E)]]]]; rewrite ?Et, E; eexists _, _; reflexivity. }
    destruct P as (dim & c & ->). cbn [bind].
    destruct (isin (d_name v) used) eqn:I; [apply isin_in in I; contradiction|]. rewrite Nat.eqb_refl. cbn [negb]. unfold has. rewrite F. eauto.
Qed.
Print Assumptions c79_accept.
Example c79_accept_demo : exists s, save_var demo_sgrid ["mesh"] demo_speed = Ok s.
Proof. apply c79_accept. split; [cbn; intuition discriminate|]. split; [reflexivity|]. exists "face". split; [reflexivity|]. right. left. split; [reflexivity|]. eexists. split; reflexivity. Qed.

(** What it is refused with. *)
Theorem c79_errors : forall g used v,
  (d_loc v = None -> save_var g used v = Err ValueError) /\
  (forall l, d_loc v = Some l -> ~ In l ["node"; "face"; "edge"; "boundary"] -> save_var g used v = Err ValueError) /\
  (d_loc v = Some "face" -> s_faces g = None -> save_var g used v = Err TypeError) /\
  (d_loc v = Some "edge" -> s_edges g = None -> save_var g used v = Err TypeError) /\
  (d_loc v = Some "boundary" -> s_bounds g = None -> save_var g used v = Err TypeError) /\
  (forall l n, d_loc v = Some l -> ElementsAt g l n ->
     (In (d_name v) used -> save_var g used v = Err RuntimeError) /\
     (~ In (d_name v) used -> n <> length (d_vals v) -> save_var g used v = Err ValueError) /\
     (~ In (d_name v) used -> n = length (d_vals v) -> dget (d_attrs v) "_FillValue" <> None -> save_var g used v = Err AttributeError)).
Proof.
  intros g used v. unfold save_var. split; [intros ->; reflexivity|]. split.
  { intros l -> N. unfold place. cbn [In] in N.
    destruct (String.eqb_spec l "node"); [exfalso; apply N; auto|]. destruct (String.eqb_spec l "face"); [exfalso; apply N; auto|].
    destruct (String.eqb_spec l "edge"); [exfalso; apply N; auto|]. destruct (String.eqb_spec l "boundary"); [exfalso; apply N; auto|]. reflexivity. }
  split; [intros -> H; unfold place; cbn; now rewrite H|]. split; [intros -> H; unfold place; cbn; now rewrite H|].
  split; [intros -> H; unfold place; cbn; now rewrite H|].
  intros l n -> E.
  assert (P : exists dim c, place g (Some l) = Ok (dim, n, c)).
  { unfold place. destruct E as [[-> E]|[[-> (t & Et & E)]|[[-> (t & Et & E)]|[-> (t & Et & E)]]]]; rewrite ?Et, E; eexists _, _; reflexivity. }
  destruct P as (dim & c & ->). cbn [bind]. split; [|split].
  - intros I. apply isin_in in I. now rewrite I.
  - intros I D. rewrite <- isin_in in I. destruct (isin (d_name v) used); [contradiction I; reflexivity|].
    destruct (Nat.eqb_spec (length (d_vals v)) n); [congruence|reflexivity].
  - intros I D F. rewrite <- isin_in in I. destruct (isin (d_name v) used); [contradiction I; reflexivity|].
    rewrite D, Nat.eqb_refl. cbn [negb]. unfold has. destruct (dget (d_attrs v) "_FillValue"); [reflexivity|congruence].
Qed.
Print Assumptions c79_errors.
(** The formats. *)
Theorem c79_format : forall d format,
  (format <> "netcdf3" -> format <> "netcdf4" -> save_dataset d format = Err ValueError) /\
  save_dataset d "netcdf3" = save_dataset d "netcdf4".
Proof.
  intros d format. split; [|reflexivity]. intros A B. unfold save_dataset, isin. cbn [existsb].
  destruct (String.eqb_spec format "netcdf3"); [contradiction|]. destruct (String.eqb_spec format "netcdf4"); [contradiction|]. reflexivity.
Qed.
Print Assumptions c79_format.
(** The dimensions of the file are those of the grid, and every variable fills
    the dimensions it is given. *)
Lemma save_var_dims g used v s : save_var g used v = Ok s ->
  exists dim n, sv_dims s = [(dim, n)] /\ DimOf g dim n /\ length (fv_values (sv_var s)) = n.
Proof.
  unfold save_var. intros H. destruct (place g (d_loc v)) as [[[dim n] c]|] eqn:P; [cbn [bind] in H|discriminate].
  destruct (isin (d_name v) used); [discriminate|]. destruct (length (d_vals v) =? n) eqn:L; [cbn [negb] in H|discriminate].
  apply Nat.eqb_eq in L. destruct (has (d_attrs v) "_FillValue"); [discriminate|]. injection H as <-.
  exists dim, n. split; [reflexivity|]. split; [|exact L]. unfold place in P. destruct (d_loc v) as [l|]; [|discriminate].
  unfold DimOf. destruct (String.eqb l "node"); [injection P as <- <- <-; auto|].
  destruct (String.eqb l "face"); [destruct (s_faces g) as [t|]; [cbn [count_of bind] in P; injection P as <- <- <-; eauto 9|discriminate]|].
  destruct (String.eqb l "edge"); [destruct (s_edges g) as [t|]; [cbn [count_of bind] in P; injection P as <- <- <-; eauto 9|discriminate]|].
  destruct (String.eqb l "boundary"); [destruct (s_bounds g) as [t|]; [cbn [count_of bind] in P; injection P as <- <- <-; eauto 9|discriminate]|].
  discriminate.
Qed.
Lemma save_vars_dims g vs : forall used ss, save_vars g used vs = Ok ss -> forall s, In s ss ->
  exists dim n, sv_dims s = [(dim, n)] /\ DimOf g dim n /\ length (fv_values (sv_var s)) = n.
Proof.
  induction vs as [|v r IH]; intros used ss H s Hs; cbn [save_vars] in H.
  - injection H as <-. destruct Hs.
  - destruct (save_var g used v) as [s0|] eqn:E; [cbn [bind] in H|discriminate].
    destruct (save_vars g (d_name v :: used) r) as [ss0|] eqn:E'; [cbn [bind] in H|discriminate]. injection H as <-.
    destruct Hs as [<-|Hs]; [now apply save_var_dims in E|eauto].
Qed.
Lemma app_inj_l (m a b : string) : (m ++ a)%string = (m ++ b)%string -> a = b.
Proof. induction m; cbn; [auto|]. intros H. injection H. auto. Qed.
Lemma eqb_suffix (m a b : string) : String.eqb (m ++ a) (m ++ b) = String.eqb a b.
Proof.
  destruct (String.eqb_spec a b) as [->|N]; [apply String.eqb_refl|].
  destruct (String.eqb_spec (m ++ a) (m ++ b)) as [E|]; [apply app_inj_l in E; contradiction|reflexivity].
Qed.
Lemma eqb_suffix0 (m a : string) : a <> "" -> String.eqb m (m ++ a) = false.
Proof.
  intros N. destruct (String.eqb_spec m (m ++ a)) as [E|]; [|reflexivity]. exfalso. apply N. clear N.
  induction m; cbn in E; [auto|]. injection E. auto.
Qed.
Theorem c79_dimensions : forall d format f, let g := ds_grid d in save_dataset d format = Ok f ->
  (forall dim, In dim (dims_made g) <-> exists n, DimOf g dim n) /\
  (forall x dim n, In x f -> In (dim, n) (sv_dims x) -> DimOf g dim n) /\
  (forall x, In x f -> fv_start_index (sv_var x) = None -> fv_topology_dimension (sv_var x) = None ->
     map snd (sv_dims x) = [length (fv_values (sv_var x))]) /\
  (forall t, s_faces g = Some t -> exists x, In x f /\ fv_name (sv_var x) = (s_mesh g ++ "_face_nodes")%string /\ fv_table (sv_var x) = t /\
     map snd (sv_dims x) = [length t; width t]) /\
  (forall t, s_edges g = Some t -> exists x, In x f /\ fv_name (sv_var x) = (s_mesh g ++ "_edge_nodes")%string /\ fv_table (sv_var x) = t /\
     map snd (sv_dims x) = [length t; 2]) /\
  (forall t, s_bounds g = Some t -> exists x, In x f /\ fv_name (sv_var x) = (s_mesh g ++ "_boundary_nodes")%string /\ fv_table (sv_var x) = t /\
     map snd (sv_dims x) = [length t; 2]).
Proof.
  intros d format f g H. unfold save_dataset in H. destruct (isin format ["netcdf3"; "netcdf4"]); [cbn [negb] in H|discriminate].
  fold g in H. destruct (save_grid g) as [fs|] eqn:G; [cbn [bind] in H|discriminate].
  destruct (save_vars g (map fv_name fs) (map snd (ds_vars d))) as [vs|] eqn:V; [cbn [bind] in H|discriminate]. injection H as <-.
  pose proof (save_vars_dims _ _ _ _ V) as SV.
  assert (GD : forall n, n <> "" -> grid_dims g (s_mesh g ++ n) =
    let len (t : option table) := match t with Some t => length t | None => 0 end in
    let m := s_mesh g in
    if String.eqb n "_face_nodes" then [((m ++ "_num_face")%string, len (s_faces g)); ((m ++ "_num_vertices")%string, match s_faces g with Some t => width t | None => 0 end)]
    else if String.eqb n "_edge_nodes" then [((m ++ "_num_edge")%string, len (s_edges g)); ("two", 2)]
    else if String.eqb n "_boundary_nodes" then [((m ++ "_num_boundary")%string, len (s_bounds g)); ("two", 2)]
    else if String.eqb n "_face_lat" || String.eqb n "_face_lon" then [((m ++ "_num_face")%string, len (s_faces g))]
    else if String.eqb n "_edge_lat" || String.eqb n "_edge_lon" then [((m ++ "_num_edge")%string, len (s_edges g))]
    else if String.eqb n "_boundary_lat" || String.eqb n "_boundary_lon" then [((m ++ "_num_boundary")%string, len (s_bounds g))]
    else if String.eqb n "_node_lon" || String.eqb n "_node_lat" then [((m ++ "_num_node")%string, length (s_nodes g))]
    else []).
  { intros n N. unfold grid_dims. now rewrite !eqb_suffix. }
  assert (GM : grid_dims g (s_mesh g) = []) by (unfold grid_dims; rewrite !eqb_suffix0 by discriminate; reflexivity).
  assert (Cases : forall v, In v fs -> v = mesh_var g \/
     (exists t, s_faces g = Some t /\ v = table_var (s_mesh g ++ "_face_nodes") "face_node_connectivity" t) \/
     (exists t, s_edges g = Some t /\ v = table_var (s_mesh g ++ "_edge_nodes") "edge_node_connectivity" t) \/
     (exists t, s_bounds g = Some t /\ v = table_var (s_mesh g ++ "_boundary_nodes") "boundary_node_connectivity" t) \/
     (exists t c e, s_faces g = Some t /\ length t = length c /\ (v = axis_var (s_mesh g ++ "_face_lat") e c \/ v = axis_var (s_mesh g ++ "_face_lon") e c)) \/
     (exists t c e, s_edges g = Some t /\ length t = length c /\ (v = axis_var (s_mesh g ++ "_edge_lat") e c \/ v = axis_var (s_mesh g ++ "_edge_lon") e c)) \/
     (exists t c e, s_bounds g = Some t /\ length t = length c /\ (v = axis_var (s_mesh g ++ "_boundary_lat") e c \/ v = axis_var (s_mesh g ++ "_boundary_lon") e c)) \/
     (exists e, v = axis_var (s_mesh g ++ "_node_lon") e (s_nodes g) \/ v = axis_var (s_mesh g ++ "_node_lat") e (s_nodes g))).
  { unfold save_grid in G.
    assert (SC : forall loc t c l, save_coords (s_mesh g) loc t c = Ok l -> forall v, In v l -> exists t0 c0 e, t = Some t0 /\ length t0 = length c0 /\
      (v = axis_var (s_mesh g ++ "_" ++ loc ++ "_lat")%string e c0 \/ v = axis_var (s_mesh g ++ "_" ++ loc ++ "_lon")%string e c0)).
    { intros loc t c l S v Hv. unfold save_coords in S. destruct c as [c|]; [|injection S as <-; destruct Hv].
      destruct t as [t|]; [|discriminate]. destruct (length t =? length c) eqn:L; [|discriminate]. apply Nat.eqb_eq in L. injection S as <-.
      destruct Hv as [<-|[<-|[]]]; eauto 9. }
    destruct (save_coords (s_mesh g) "face" (s_faces g) (s_face_coords g)) as [fc|] eqn:Ef; [cbn [bind] in G|discriminate].
    destruct (save_coords (s_mesh g) "edge" (s_edges g) (s_edge_coords g)) as [ec|] eqn:Ee; [cbn [bind] in G|discriminate].
    destruct (save_coords (s_mesh g) "boundary" (s_bounds g) (s_bound_coords g)) as [bc|] eqn:Eb; [cbn [bind] in G|discriminate].
    injection G as <-. intros v Hv. destruct Hv as [<-|Hv]; [now left|]. right.
    rewrite !in_app_iff in Hv.
    destruct Hv as [Hv|[Hv|[Hv|[Hv|[Hv|[Hv|Hv]]]]]].
    - left. unfold save_table in Hv. destruct (s_faces g) as [t|]; [destruct Hv as [<-|[]]; eauto|destruct Hv].
    - right; left. unfold save_table in Hv. destruct (s_edges g) as [t|]; [destruct Hv as [<-|[]]; eauto|destruct Hv].
    - do 2 right; left. unfold save_table in Hv. destruct (s_bounds g) as [t|]; [destruct Hv as [<-|[]]; eauto|destruct Hv].
    - do 3 right; left. exact (SC _ _ _ _ Ef _ Hv).
    - do 4 right; left. exact (SC _ _ _ _ Ee _ Hv).
    - do 5 right; left. exact (SC _ _ _ _ Eb _ Hv).
    - do 6 right. destruct Hv as [<-|[<-|[]]]; eauto. }
  assert (One : forall x, In x (map (fun v => mkSvar v (grid_dims g (fv_name v))) fs) ->
     (forall dim n, In (dim, n) (sv_dims x) -> DimOf g dim n) /\
     (fv_start_index (sv_var x) = None -> fv_topology_dimension (sv_var x) = None -> map snd (sv_dims x) = [length (fv_values (sv_var x))])).
  { intros x Hx. apply in_map_iff in Hx. destruct Hx as (v & <- & Hv). cbn [sv_dims sv_var].
    destruct (Cases v Hv) as [->|[(t & E & ->)|[(t & E & ->)|[(t & E & ->)|[(t & c & e & E & L & [->| ->])|[(t & c & e & E & L & [->| ->])|[(t & c & e & E & L & [->| ->])|(e & [->| ->])]]]]]]];
      cbn [mesh_var table_var axis_var fv_name fv_start_index fv_topology_dimension fv_values];
      [rewrite GM; split; [intros dim n []|discriminate]|..];
      rewrite GD by discriminate; cbn -[s_mesh DimOf append]; try rewrite E;
      (split; [intros dim n Hd; unfold DimOf; repeat (destruct Hd as [Hd|Hd]; [injection Hd as <- <-; eauto 12|]); destruct Hd
              |try discriminate; intros _ _; rewrite map_length; congruence]). }
  assert (InG : forall v, In v fs -> In (mkSvar v (grid_dims g (fv_name v))) (map (fun v => mkSvar v (grid_dims g (fv_name v))) fs ++ vs)).
  { intros v Hv. apply in_or_app. left. apply in_map_iff. eauto. }
  assert (Tab : forall n role t, (In (table_var n role t) fs) -> exists x, In x (map (fun v => mkSvar v (grid_dims g (fv_name v))) fs ++ vs) /\
     fv_name (sv_var x) = n /\ fv_table (sv_var x) = t /\ sv_dims x = grid_dims g n).
  { intros n role t Hi. eexists. split; [exact (InG _ Hi)|]. auto. }
  split; [|split; [|split; [|split; [|split]]]].
  - intros dim. unfold dims_made, DimOf. rewrite !in_app_iff. split.
    + intros [[<-|[]]|[Hd|[Hd|[Hd|[<-|[]]]]]]; [eauto 9| | | |eauto 9].
      * destruct (s_edges g) as [t|]; [destruct Hd as [<-|[]]; eauto 9|destruct Hd].
      * destruct (s_bounds g) as [t|]; [destruct Hd as [<-|[]]; eauto 9|destruct Hd].
      * destruct (s_faces g) as [t|]; [destruct Hd as [<-|[<-|[]]]; eauto 12|destruct Hd].
    + intros (n & [[-> _]|[(-> & t & -> & _)|[(-> & t & -> & _)|[(-> & t & -> & _)|[(-> & t & -> & _)|[-> _]]]]]]); cbn [In]; auto 9.
  - intros x dim n Hx Hd. apply in_app_or in Hx. destruct Hx as [Hx|Hx]; [now apply (One x Hx)|].
    destruct (SV x Hx) as (dim' & n' & E & D & _). rewrite E in Hd. destruct Hd as [Hd|[]]. now injection Hd as <- <-.
  - intros x Hx A B. apply in_app_or in Hx. destruct Hx as [Hx|Hx]; [now apply (One x Hx)|].
    destruct (SV x Hx) as (dim' & n' & E & D & L). rewrite E. cbn [map snd]. now rewrite L.
  - intros t E. destruct (Tab (s_mesh g ++ "_face_nodes")%string "face_node_connectivity" t) as (x & A & B & C & D).
    { unfold save_grid in G. destruct (save_coords _ "face" _ _); [cbn [bind] in G|discriminate]. destruct (save_coords _ "edge" _ _); [cbn [bind] in G|discriminate].
      destruct (save_coords _ "boundary" _ _); [cbn [bind] in G|discriminate]. injection G as <-. rewrite E. right. left. reflexivity. }
    exists x. repeat split; auto. rewrite D, GD by discriminate. cbn -[s_mesh append]. now rewrite E.
  - intros t E. destruct (Tab (s_mesh g ++ "_edge_nodes")%string "edge_node_connectivity" t) as (x & A & B & C & D).
    { unfold save_grid in G. destruct (save_coords _ "face" _ _); [cbn [bind] in G|discriminate]. destruct (save_coords _ "edge" _ _); [cbn [bind] in G|discriminate].
      destruct (save_coords _ "boundary" _ _); [cbn [bind] in G|discriminate]. injection G as <-. rewrite E. right. apply in_or_app. right. left. reflexivity. }
    exists x. repeat split; auto. rewrite D, GD by discriminate. cbn -[s_mesh append]. now rewrite E.
  - intros t E. destruct (Tab (s_mesh g ++ "_boundary_nodes")%string "boundary_node_connectivity" t) as (x & A & B & C & D).
    { unfold save_grid in G. destruct (save_coords _ "face" _ _); [cbn [bind] in G|discriminate]. destruct (save_coords _ "edge" _ _); [cbn [bind] in G|discriminate].
      destruct (save_coords _ "boundary" _ _); [cbn [bind] in G|discriminate]. injection G as <-. rewrite E. right. do 2 (apply in_or_app; right). left. reflexivity. }
    exists x. repeat split; auto. rewrite D, GD by discriminate. cbn -[s_mesh append]. now rewrite E.
Qed.
Print Assumptions c79_dimensions.
Example c79_dimensions_demo : exists f, save_dataset (mkDataset demo_sgrid [("a", demo_depth)] []) "netcdf4" = Ok f /\
  (forall x, In x f -> forall dim n, In (dim, n) (sv_dims x) -> In dim (dims_made demo_sgrid)) /\ ~ In "time" (dims_made demo_sgrid).
Proof.
  eexists. split; [reflexivity|]. split.
  - intros x Hx dim n Hd. eapply (c79_dimensions (mkDataset demo_sgrid [("a", demo_depth)] []) "netcdf4"); [reflexivity|].
    exists n. eapply (c79_dimensions (mkDataset demo_sgrid [("a", demo_depth)] []) "netcdf4"); [reflexivity|exact Hx|exact Hd].
  - vm_compute. intuition congruence.
Qed.

(** Keys and attributes of the dataset leave no trace in the file. *)
Theorem c79_keys_lost : forall g vs vs' a a' format, map snd vs = map snd vs' ->
  save_dataset (mkDataset g vs a) format = save_dataset (mkDataset g vs' a') format.
Proof. intros g vs vs' a a' format H. unfold save_dataset. cbn [ds_vars ds_grid]. now rewrite H. Qed.
Print Assumptions c79_keys_lost.
Example c79_keys_lost_demo :
  save_dataset (mkDataset demo_sgrid [("a", demo_depth)] []) "netcdf4" = save_dataset (mkDataset demo_sgrid [("b", demo_depth)] [("title", "x")]) "netcdf4".
Proof. now apply c79_keys_lost. Qed.

(** What was loaded, saved and loaded again is not always what it was: the
    variable is now called by its long name. *)
Definition as_saved (x : string * (variable * list Q)) : string * dvar :=
  (fst x, mkDvar (va_name (fst (snd x))) (Some (va_loc (fst (snd x)))) (snd (snd x)) (va_attrs (fst (snd x)))).
Theorem c79_resave_refuted :
  exists d f f' u u' xs xs', save_dataset d "netcdf4" = Ok f /\
    load_dataset demo_dateutil demo_cftime (dims_made (ds_grid d)) f = Ok (u, xs) /\ map fst xs = ["depth"] /\
    save_dataset (mkDataset (ds_grid d) (map as_saved xs) []) "netcdf4" = Ok f' /\
    load_dataset demo_dateutil demo_cftime (dims_made (ds_grid d)) f' = Ok (u', xs') /\ map fst xs' = ["water depth"].
Proof.
  exists (mkDataset demo_sgrid [("d", demo_depth)] []). eexists _, _, _, _, _, _.
  split; [reflexivity|]. split; [vm_compute; reflexivity|]. split; [reflexivity|]. split; [vm_compute; reflexivity|].
  split; [vm_compute; reflexivity|]. reflexivity.
Qed.
Print Assumptions c79_resave_refuted.
(** Nor can it always be saved: two variables of one long name, or a fill
    value. *)
Theorem c79_resave_fails_refuted :
  exists v w f u xs, save_dataset (mkDataset demo_sgrid [("v", v); ("w", w)] []) "netcdf4" = Ok f /\
    load_dataset demo_dateutil demo_cftime (dims_made demo_sgrid) f = Ok (u, xs) /\ map fst xs = [d_name v; d_name w] /\
    save_dataset (mkDataset demo_sgrid (map as_saved xs) []) "netcdf4" = Err RuntimeError /\
  exists x, save_dataset (mkDataset demo_sgrid [("x", x)] []) "netcdf4" = Err AttributeError /\
    d_attrs x = [("units", "m"); ("_FillValue", "-999")].
Proof.
  exists (mkDvar "u" (Some "face") [1; 2; 3; 4]%Q [("long_name", "velocity")]), (mkDvar "v" (Some "face") [5; 6; 7; 8]%Q [("long_name", "velocity")]).
  eexists _, _, _. split; [reflexivity|]. split; [vm_compute; reflexivity|]. split; [reflexivity|]. split; [vm_compute; reflexivity|].
  exists (mkDvar "x" (Some "face") [1; 2; 3; 4]%Q [("units", "m"); ("_FillValue", "-999")]). split; reflexivity.
Qed.
Print Assumptions c79_resave_fails_refuted.
(** Coordinates of boundaries come back as variables of the dataset. *)
Theorem c79_boundary_coordinates_refuted :
  exists g f u xs, s_bound_coords g = Some [(1, 2); (3, 4); (5, 6)]%Q /\ save_dataset (mkDataset g [] []) "netcdf4" = Ok f /\
    load_dataset demo_dateutil demo_cftime (dims_made g) f = Ok (u, xs) /\ ug_bound_coords u = None /\
    map (fun x => (fst x, snd (snd x))) xs = [("mesh_boundary_lat", [2; 4; 6]%Q); ("mesh_boundary_lon", [1; 3; 5]%Q)].
Proof.
  exists (mkSgrid "mesh" [(0, 0); (1, 0); (1, 1); (0, 1)]%Q (Some [[Some 0; Some 1; Some 2]; [Some 0; Some 2; Some 3]]%Z) None None
    (Some [[Some 0; Some 1]; [Some 1; Some 2]; [Some 2; Some 3]]%Z) None None None (Some [(1, 2); (3, 4); (5, 6)]%Q)).
  eexists _, _, _. split; [reflexivity|]. split; [reflexivity|]. split; [vm_compute; reflexivity|]. split; reflexivity.
Qed.
Print Assumptions c79_boundary_coordinates_refuted.
(** A mesh named after time makes a file that cannot be loaded; a mesh attribute
    kept from another file overrides that of the grid. *)
Theorem c79_names_refuted :
  (exists g f, s_mesh g = "timeslice_mesh" /\ save_dataset (mkDataset g [("d", demo_depth)] []) "netcdf4" = Ok f /\
     load_dataset demo_dateutil demo_cftime (dims_made g) f = Err KeyError) /\
  exists v f x, save_dataset (mkDataset demo_sgrid [("d", v)] []) "netcdf4" = Ok f /\ In x f /\ fv_name (sv_var x) = "depth" /\
    dget (fv_attrs (sv_var x)) "mesh" = Some "ocean" /\ fget (map sv_var f) "ocean" = None.
Proof.
  split.
  - exists (mkSgrid "timeslice_mesh" [(0, 0); (1, 0); (1, 1); (0, 1); (2, 0); (2, 1)]%Q None None None None None None None None). eexists.
    split; [reflexivity|]. split; [reflexivity|]. vm_compute. reflexivity.
  - exists (mkDvar "depth" (Some "node") [5; 6; 7; 8; 9; 10]%Q [("mesh", "ocean")]). eexists _, _. split; [reflexivity|].
    split; [apply in_app_iff; right; left; reflexivity|]. repeat split.
Qed.
Print Assumptions c79_names_refuted.
