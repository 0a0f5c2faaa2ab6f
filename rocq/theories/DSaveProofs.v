(** Lemmas about saved datasets. *)
From Coq Require Import String Ascii QArith.
From Verif Require Import Common CommonProofs GridTypeModel GridTypeSpec GridTypeProofs MaskModel MaskSpec MaskProofs VerdatModel
  UFileModel UFileSpec UFileProofs UFileProps UGridModel TimeModel TFileModel TFileProofs LoadModel LoadSpec LoadProofs LoadProps DSaveModel DSaveSpec.
Open Scope string_scope.
Open Scope list_scope.
Open Scope nat_scope.

(** "time" cannot straddle an underscore. *)
Lemma mentions_cons sub c s : Mentions sub (String c s) -> Mentions sub s \/ exists r, String c s = (sub ++ r)%string.
Proof.
  intros ([|d a] & b & E).
  - right. exists b. exact E.
  - left. cbn in E. injection E as -> ->. exists a, b. reflexivity.
Qed.
Lemma no_time_cat a b : ~ Mentions "time" a -> ~ Mentions "time" b -> ~ Mentions "time" (a ++ String "_" b).
Proof.
  intros Ha Hb. induction a as [|c a IH]; cbn [append].
  - intros H. apply mentions_cons in H. destruct H as [H|[r H]]; [contradiction|]. cbn in H. discriminate.
  - intros H. apply mentions_cons in H. destruct H as [H|[r H]].
    + apply IH; auto. intros (x & y & E). apply Ha. exists (String c x), y. cbn. now rewrite E.
    + cbn in H. injection H as -> H. apply Ha.
      destruct a as [|c2 a]; [discriminate|]. cbn in H. injection H as -> H.
      destruct a as [|c3 a]; [discriminate|]. cbn in H. injection H as -> H.
      destruct a as [|c4 a]; [discriminate|]. cbn in H. injection H as -> H.
      exists "", a. reflexivity.
Qed.
Lemma no_time_dim m s : ~ Mentions "time" m -> contains "time" s = false -> ~ Mentions "time" (m ++ String "_" s).
Proof. intros Hm Hs. apply no_time_cat; auto. intros H. apply contains_spec in H. congruence. Qed.

(** A file with more variables. *)
Lemma fget_none f n : fget f n = None <-> ~ In n (map fv_name f).
Proof.
  unfold fget. induction f as [|v f IH]; cbn; [tauto|]. destruct (String.eqb_spec n (fv_name v)) as [->|N].
  - split; [discriminate|]. intros H. exfalso. auto.
  - rewrite IH. intuition congruence.
Qed.
Lemma find_mesh_app f extra : (forall v, In v extra -> is_mesh v = false) ->
  (forall v, In v extra -> ~ In (fv_name v) (map fv_name f)) ->
  find_mesh_names (f ++ extra) = find_mesh_names f.
Proof.
  intros Hm Hd. unfold find_mesh_names. rewrite map_app, filter_app.
  assert (B : filter (is_valid_mesh (f ++ extra)) (map fv_name extra) = []).
  { assert (K : forall n, In n (map fv_name extra) -> is_valid_mesh (f ++ extra) n = false).
    { intros n Hn. apply in_map_iff in Hn. destruct Hn as (v & <- & Hv). unfold is_valid_mesh. rewrite fget_app.
      rewrite (proj2 (fget_none f (fv_name v)) (Hd v Hv)).
      destruct (fget extra (fv_name v)) as [w|] eqn:E; auto. apply fget_in in E. apply Hm. tauto. }
    induction (map fv_name extra) as [|n ns IH]; auto. cbn. rewrite (K n (or_introl eq_refl)). apply IH.
    intros k Hk. apply K. right. exact Hk. }
  rewrite B, app_nil_r. apply filter_ext_in. intros n Hn. unfold is_valid_mesh. rewrite fget_app.
  destruct (fget f n) eqn:E; auto. exfalso. apply fget_none in E. auto.
Qed.
Lemma mapM_res_ext {A B} (p q : A -> result B) l : (forall a, In a l -> p a = q a) -> mapM_res p l = mapM_res q l.
Proof. induction l as [|a l IH]; intros H; cbn; auto. rewrite (H a (or_introl eq_refl)), IH; auto. intros b Hb. apply H. now right. Qed.
Lemma load_grid_app f extra : (forall v, In v extra -> is_mesh v = false) ->
  (forall v, In v extra -> ~ In (fv_name v) (map fv_name f)) ->
  (forall n mesh role text, choose_mesh f None = Ok n -> fget f n = Some mesh -> dget (fv_attrs mesh) role = Some text ->
     (isin role ["face_node_connectivity"; "face_face_connectivity"; "boundary_node_connectivity"; "edge_node_connectivity"] = true ->
        fget extra text = None) /\
     forall w, In w (split text) -> fget extra w = None) ->
  load_grid (f ++ extra) None = load_grid f None.
Proof.
  intros Hm Hd Hw. unfold load_grid.
  assert (C : choose_mesh (f ++ extra) None = choose_mesh f None).
  { unfold choose_mesh. rewrite find_mesh_app; auto. }
  rewrite C. destruct (choose_mesh f None) as [n|e] eqn:En; cbn [bind]; auto.
  assert (Sub : forall k, fget extra k = None -> fget (f ++ extra) k = fget f k).
  { intros k H. rewrite fget_app, H. destruct (fget f k); auto. }
  assert (Nn : fget (f ++ extra) n = fget f n).
  { rewrite fget_app. destruct (fget f n) eqn:E; auto. exfalso. unfold choose_mesh in En.
    destruct (find_mesh_names f) as [|k [|k2 ks]] eqn:Ek; try discriminate. injection En as ->.
    assert (I : In n (find_mesh_names f)) by (rewrite Ek; left; reflexivity).
    unfold find_mesh_names in I. apply filter_In in I. destruct I as [I _]. apply fget_none in E. contradiction. }
  rewrite Nn. destruct (fget f n) as [mesh|] eqn:Em; auto.
  assert (RC : forall role req, read_coords (f ++ extra) mesh role req = read_coords f mesh role req).
  { intros role req. unfold read_coords. destruct (dget (fv_attrs mesh) role) as [text|] eqn:Et; auto.
    destruct (Hw n mesh role text eq_refl Em Et) as [_ W].
    rewrite (mapM_res_ext (fun k => match fget (f ++ extra) k with Some v => Ok v | None => Err ValueError end)
                          (fun k => match fget f k with Some v => Ok v | None => Err ValueError end)); auto.
    intros k Hk. rewrite split_strip in Hk. rewrite (Sub k (W k Hk)). reflexivity. }
  assert (RR : forall role k nn,
     isin role ["face_node_connectivity"; "face_face_connectivity"; "boundary_node_connectivity"; "edge_node_connectivity"] = true -> read_role (f ++ extra) mesh role k nn = read_role f mesh role k nn).
  { intros role k nn R. unfold read_role. destruct (dget (fv_attrs mesh) role) as [text|] eqn:Et; auto.
    destruct (Hw n mesh role text eq_refl Em Et) as [W _]. rewrite (Sub _ (W R)). reflexivity. }
  rewrite !RC. destruct (read_coords f mesh "node_coordinates" true); cbn [bind]; auto.
  destruct (read_coords f mesh "face_coordinates" false); cbn [bind]; auto.
  destruct (read_coords f mesh "edge_coordinates" false); cbn [bind]; auto.
  destruct (read_coords f mesh "boundary_coordinates" false); cbn [bind]; auto.
  rewrite !RR by reflexivity. reflexivity.
Qed.

(** Setting attributes. *)
Lemma attrs_fold (own : dict string) : forall d : dict string, NoDup (map fst own) -> forall k,
  dget (fold_left (fun d kv => dset d (fst kv) (snd kv)) own d) k =
  match dget own k with Some a => Some a | None => dget d k end.
Proof.
  induction own as [|[k1 a1] own IH]; intros d N k; cbn [fold_left dget]; auto.
  inversion N as [|? ? Hn N']; subst. rewrite (IH _ N'). cbn [fst snd]. rewrite dget_dset.
  destruct (String.eqb_spec k k1) as [->|Hk]; auto.
  destruct (dget own k1) eqn:E; auto. exfalso. apply Hn. clear - E.
  induction own as [|[k2 a2] own IH]; [discriminate|]. cbn in *. destruct (String.eqb_spec k1 k2); [left; congruence|right; auto].
Qed.
Lemma attrs_own m l c own k a : NoDup (map fst own) -> dget own k = Some a -> dget (attrs_of m l c own) k = Some a.
Proof. intros N H. unfold attrs_of. rewrite attrs_fold, H; auto. Qed.
Lemma attrs_location m l c own : NoDup (map fst own) -> (dget own "location" = None \/ dget own "location" = Some l) ->
  dget (attrs_of m l c own) "location" = Some l.
Proof. intros N [H|H]; unfold attrs_of; rewrite attrs_fold, H; auto. Qed.
Lemma attrs_other m l c own k : NoDup (map fst own) -> isin k ["location"; "mesh"; "coordinates"] = false ->
  dget (attrs_of m l c own) k = dget own k.
Proof.
  intros N K. unfold attrs_of. rewrite attrs_fold by auto. destruct (dget own k); auto.
  unfold isin in K. cbn [existsb] in K. apply orb_false_iff in K. destruct K as [K1 K]. apply orb_false_iff in K. destruct K as [K2 K].
  apply orb_false_iff in K. destruct K as [K3 _]. destruct c; cbn [app dget]; rewrite K1, K2; cbn; now rewrite ?K3.
Qed.

(** Loading: what is skipped. *)
Lemma load_each_skip dateutil cftime depth g f vs ws :
  (forall k v, In (k, v) vs -> GridName g k \/ find_location g v = Ok None) ->
  load_each dateutil cftime depth g f (vs ++ ws) = load_each dateutil cftime depth g f ws.
Proof.
  induction vs as [|[k v] vs IH]; intros H; cbn [app load_each]; auto.
  destruct (is_grid_name g k) eqn:E; [apply IH; intros; apply H; now right|].
  destruct (H k v (or_introl eq_refl)) as [G|L]; [apply grid_name_iff in G; congruence|].
  rewrite L. cbn [bind]. apply IH. intros; apply H; now right.
Qed.
Lemma dget_nodup {V} (d : dict V) k v : NoDup (map fst d) -> In (k, v) d -> dget d k = Some v.
Proof.
  induction d as [|[k1 v1] d IH]; intros N H; [destruct H|]. cbn in N. inversion N; subst. cbn. destruct H as [H|H].
  - injection H as -> ->. now rewrite String.eqb_refl.
  - destruct (String.eqb_spec k k1) as [->|]; auto. exfalso. match goal with H' : ~ In _ _ |- _ => apply H' end.
    apply in_map_iff. exists (k1, v). auto.
Qed.
(** One one-dimensional variable with a location and no time on an
    unstructured grid. *)
Lemma load_flat dateutil cftime depth g f k l dim n attrs :
  ga_kind g = KU -> dget (lf_vars f) k = Some (mkLvar [dim] [n] attrs []) ->
  ~ Mentions "time" dim -> (forall t, dget attrs "time" = Some t -> ~ In t (lf_dims f)) ->
  ValidLocation l ->
  load_variable dateutil cftime depth g f 0 (plain_args k (mkLvar [dim] [n] attrs []) l) =
  Ok (mkVar (match dget attrs "long_name" with Some nm => nm | None => k end) (dget attrs "units") TimeNow DepthNone l k attrs [n]).
Proof.
  intros Hk Hv Hd Ht Hl. unfold load_variable. cbn [plain_args la_varname la_name la_units la_loc]. rewrite Hv. cbn [lv_attrs lv_shape].
  unfold load_time. cbn [plain_args la_time].
  assert (L : locate_time (tfile_of f) (tvar_of (mkLvar [dim] [n] attrs [])) = Ok None).
  { destruct (locate_iff f (mkLvar [dim] [n] attrs [])) as (_ & L & _). apply L; [discriminate|].
    intros m [[A B]|(_ & (r & E) & M)]; [apply (Ht m A B)|]. cbn in E. injection E as -> _. contradiction. }
  rewrite L. cbn [bind fst snd]. unfold load_depth. cbn [plain_args la_depth lv_shape length]. rewrite Hk. cbn [horizontal Nat.add Nat.eqb bind].
  unfold construct. apply valid_iff in Hl. cbn [check_location]. rewrite Hl. cbn [bind times].
  replace (negb (1 =? n) && (1 <? 1)) with false by (rewrite andb_comm; reflexivity). cbn [bind]. reflexivity.
Qed.

(** The variables of a saved grid: the mesh variable and others that it names. *)
Lemma saved_names g f : all_chars (fun c => ~ Blank c) (s_mesh g) -> s_bound_coords g = None -> save_grid g = Ok f ->
  forall v, In v f -> v = mesh_var g \/ MeshWord g (fv_name v).
Proof.
  intros Hm Hb H v Hv.
  assert (One : forall role s, all_chars (fun c => ~ Blank c) s -> s <> "" -> In (role, (s_mesh g ++ s)%string) (fv_attrs (mesh_var g)) ->
    MeshWord g (s_mesh g ++ s)).
  { intros role s Hs N Hin. right. exists role, (s_mesh g ++ s)%string, [(s_mesh g ++ s)%string]. split; [exact Hin|]. split; [|left; reflexivity].
    replace (Words (s_mesh g ++ s) [(s_mesh g ++ s)%string]) with (Words ("" ++ (s_mesh g ++ s) ++ "")%string [(s_mesh g ++ s)%string])
      by (cbn [append]; now rewrite str_nil_r).
    apply words_one; try exact I. split; [destruct (s_mesh g); [exact N|discriminate]|now apply all_app]. }
  assert (Two : forall role a b, all_chars (fun c => ~ Blank c) a -> a <> "" -> all_chars (fun c => ~ Blank c) b -> b <> "" ->
    In (role, (s_mesh g ++ a ++ " " ++ s_mesh g ++ b)%string) (fv_attrs (mesh_var g)) -> MeshWord g (s_mesh g ++ a) /\ MeshWord g (s_mesh g ++ b)).
  { intros role a b Ha Na Hb' Nb I. split; right; exists role, (s_mesh g ++ a ++ " " ++ s_mesh g ++ b)%string, [(s_mesh g ++ a)%string; (s_mesh g ++ b)%string];
      (split; [exact I|]; split; [now apply pair_words|cbn; auto]). }
  unfold save_grid in H.
  destruct (save_coords (s_mesh g) "face" (s_faces g) (s_face_coords g)) as [fc|] eqn:Ef; [cbn [bind] in H|discriminate].
  destruct (save_coords (s_mesh g) "edge" (s_edges g) (s_edge_coords g)) as [ec|] eqn:Ee; [cbn [bind] in H|discriminate].
  rewrite Hb in H. cbn [save_coords bind] in H. injection H as <-.
  assert (SC : forall loc t c l, save_coords (s_mesh g) loc t c = Ok l -> In v l -> t <> None /\ c <> None /\
     (fv_name v = (s_mesh g ++ "_" ++ loc ++ "_lat")%string \/ fv_name v = (s_mesh g ++ "_" ++ loc ++ "_lon")%string)).
  { intros loc t c l E I. unfold save_coords in E. destruct c as [c|]; [|injection E as <-; destruct I].
    destruct t as [t|]; [|discriminate]. destruct (length t =? length c); [|discriminate]. injection E as <-.
    repeat split; try discriminate. destruct I as [<-|[<-|[]]]; auto. }
  destruct g as [m nodes faces ff fe bounds edges fcs ecs bcs].
  cbn [s_mesh s_nodes s_faces s_face_face s_face_edge s_bounds s_edges s_face_coords s_edge_coords s_bound_coords] in *.
  destruct Hv as [Hv|Hv]; [left; now symmetry|].
  rewrite !in_app_iff in Hv. destruct Hv as [Hv|[Hv|[Hv|[Hv|[Hv|Hv]]]]].
  - destruct faces; [|destruct Hv]. destruct Hv as [<-|[]]. right. cbn [fv_name table_var].
    apply (One "face_node_connectivity"); try (apply nonblank_text; reflexivity); [discriminate|].
    cbn [mesh_var fv_attrs s_mesh s_faces given]. rewrite !in_app_iff. cbn. tauto.
  - destruct edges; [|destruct Hv]. destruct Hv as [<-|[]]. right. cbn [fv_name table_var].
    apply (One "edge_node_connectivity"); try (apply nonblank_text; reflexivity); [discriminate|].
    cbn [mesh_var fv_attrs s_mesh s_edges given]. rewrite !in_app_iff. cbn. tauto.
  - destruct bounds; [|destruct Hv]. destruct Hv as [<-|[]]. right. cbn [fv_name table_var].
    apply (One "boundary_node_connectivity"); try (apply nonblank_text; reflexivity); [discriminate|].
    cbn [mesh_var fv_attrs s_mesh s_bounds given]. rewrite !in_app_iff. cbn. tauto.
  - destruct (SC _ _ _ _ Ef Hv) as (Nt & Nc & K). destruct faces as [fs|]; [|contradiction]. destruct fcs as [cs|]; [|contradiction].
    right. destruct (Two "face_coordinates" "_face_lon" "_face_lat") as [A B]; try (apply nonblank_text; reflexivity); try discriminate.
    { cbn [mesh_var fv_attrs s_mesh s_faces s_face_coords given]. rewrite !in_app_iff. cbn. tauto. }
    destruct K as [-> | ->]; assumption.
  - destruct (SC _ _ _ _ Ee Hv) as (Nt & Nc & K). destruct edges as [fs|]; [|contradiction]. destruct ecs as [cs|]; [|contradiction].
    right. destruct (Two "edge_coordinates" "_edge_lon" "_edge_lat") as [A B]; try (apply nonblank_text; reflexivity); try discriminate.
    { cbn [mesh_var fv_attrs s_mesh s_edges s_edge_coords given]. rewrite !in_app_iff. cbn. tauto. }
    destruct K as [-> | ->]; assumption.
  - right. destruct (Two "node_coordinates" "_node_lon" "_node_lat") as [A B]; try (apply nonblank_text; reflexivity); try discriminate.
    { cbn [mesh_var fv_attrs s_mesh]. rewrite in_app_iff. left. cbn. tauto. }
    destruct Hv as [<-|[<-|[]]]; assumption.
Qed.

(** What a data variable becomes in the file. *)
Definition Saved (g : sgrid) (v : dvar) (s : svar) : Prop :=
  exists l suf c, d_loc v = Some l /\ ElementsAt g l (length (d_vals v)) /\ contains "time" suf = false /\
    s = mkSvar (mkFvar (d_name v) (attrs_of (s_mesh g) l c (d_attrs v)) None (d_vals v) [] None None)
          [((s_mesh g ++ String "_" suf)%string, length (d_vals v))].
Lemma save_var_ok g used v : Writable g v -> ~ In (d_name v) used -> exists s, save_var g used v = Ok s /\ Saved g v s.
Proof.
  intros [(l & Hl & E & _) _ [_ F] _] Hu. unfold save_var. rewrite Hl.
  assert (P : exists suf c, contains "time" suf = false /\
     place g (Some l) = Ok ((s_mesh g ++ String "_" suf)%string, length (d_vals v), c)).
  { unfold place. destruct E as [[-> E]|[[-> (t & Et & E)]|[[-> (t & Et & E)]|[-> (t & Et & E)]]]]; rewrite ?Et, E; cbn [String.eqb Ascii.eqb Bool.eqb count_of bind].
    - exists "num_node". eexists. split; reflexivity.
    - exists "num_face". eexists. split; reflexivity.
    - exists "num_edge". eexists. split; reflexivity.
    - exists "num_boundary". eexists. split; reflexivity. }
  destruct P as (suf & c & T & ->). cbn [bind].
  destruct (isin (d_name v) used) eqn:I; [apply isin_in in I; contradiction|]. rewrite Nat.eqb_refl. cbn [negb].
  unfold has. rewrite F. eexists. split; [reflexivity|]. exists l, suf, c. auto.
Qed.
Lemma save_vars_ok g vs : forall used, Forall (Writable g) vs -> NoDup (map d_name vs) -> (forall v, In v vs -> ~ In (d_name v) used) ->
  exists ss, save_vars g used vs = Ok ss /\ Forall2 (Saved g) vs ss.
Proof.
  induction vs as [|v vs IH]; intros used W N U; cbn [save_vars]; [exists []; split; auto|].
  inversion W; subst. cbn in N. inversion N; subst.
  destruct (save_var_ok g used v) as (s & -> & S); auto; [apply U; now left|]. cbn [bind].
  destruct (IH (d_name v :: used)) as (ss & -> & F); auto.
  { intros w Hw [E|I]; [|apply (U w); [now right|exact I]]. match goal with H : ~ In (d_name v) _ |- _ => apply H end. rewrite E. now apply in_map. }
  cbn [bind]. exists (s :: ss). split; auto.
Qed.
Lemma saved_in g vs ss s : Forall2 (Saved g) vs ss -> In s ss -> exists v, In v vs /\ Saved g v s.
Proof.
  induction 1 as [|v s' vs ss S _ IH]; intros H; [destruct H|]. destruct H as [->|H]; [exists v; split; [now left|exact S]|].
  destruct (IH H) as (w & I & S'). exists w. split; [now right|exact S'].
Qed.
Lemma saved_map g vs ss : Forall2 (Saved g) vs ss -> map (fun s => fv_name (sv_var s)) ss = map d_name vs.
Proof. induction 1 as [|v s vs ss (l & suf & c & _ & _ & _ & ->) _ IH]; cbn; auto. now rewrite IH. Qed.
Lemma load_saved dateutil cftime depth api g f vs ss :
  Forall2 (Saved g) vs ss -> Forall (Writable g) vs -> ga_kind api = KU -> lf_dims f = dims_made g -> ~ Mentions "time" (s_mesh g) ->
  (forall v, In v vs -> ~ GridName api (d_name v)) ->
  (forall s, In s ss -> dget (lf_vars f) (fv_name (sv_var s)) = Some (lvar_of s)) ->
  exists xs, load_each dateutil cftime depth api f (map (fun s => (fv_name (sv_var s), lvar_of s)) ss) = Ok xs /\
    Forall2 (fun v x => fst x = d_name v /\ Some (va_loc (snd x)) = d_loc v /\
      va_name (snd x) = (match dget (d_attrs v) "long_name" with Some n => n | None => d_name v end) /\
      va_time (snd x) = TimeNow /\ va_depth (snd x) = DepthNone /\
      forall k a, dget (d_attrs v) k = Some a -> dget (va_attrs (snd x)) k = Some a) vs xs.
Proof.
  intros F. induction F as [|v s vs ss S F IH]; intros W K D M G L; [exists []; split; auto|].
  inversion W as [|? ? Wv W']; subst.
  destruct IH as (xs & E & Q); auto; [intros; apply G; now right|intros; apply L; now right|].
  pose proof (L s (or_introl eq_refl)) as Ls. pose proof (G v (or_introl eq_refl)) as Gv.
  destruct S as (l & suf & c & Hl & El & T & ->). destruct Wv as [(l' & Hl' & _ & Loc) _ [N _] Ti].
  rewrite Hl in Hl'. injection Hl' as <-. unfold lvar_of in Ls, E |- *. cbn [sv_var sv_dims fv_name fv_attrs map fst snd] in Ls |- *.
  cbn [load_each]. destruct (is_grid_name api (d_name v)) eqn:IG; [apply grid_name_iff in IG; contradiction|].
  assert (V : ValidLocation l).
  { unfold ValidLocation. destruct El as [[-> _]|[[-> _]|[[-> _]|[-> _]]]]; tauto. }
  unfold find_location. cbn [lv_attrs]. rewrite (attrs_location (s_mesh g) l c (d_attrs v) N Loc).
  rewrite (proj2 (valid_iff l) V). cbn [bind].
  rewrite (load_flat dateutil cftime depth api f (d_name v) l _ _ _ K Ls (no_time_dim _ _ M T)); auto.
  2:{ intros t Et. rewrite attrs_other in Et by (auto; reflexivity). rewrite D. now apply Ti. }
  cbn [bind]. rewrite E. cbn [bind]. eexists. split; [reflexivity|]. constructor; [|exact Q]. cbn [fst snd va_loc va_name va_time va_depth va_attrs].
  split; [reflexivity|]. split; [now symmetry|]. split; [now rewrite attrs_other by (auto; reflexivity)|]. split; [reflexivity|]. split; [reflexivity|].
  intros k a Ha. now apply attrs_own.
Qed.
