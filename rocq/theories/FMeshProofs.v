(** Lemmas about the way from a file to the answers. *)
From Coq Require Import String Lqa.
From Verif Require Import Common CommonProofs TimeModel TimeSpec TimeProofs GridTypeModel GridTypeSpec GridTypeProofs MaskSpec MaskProofs VariableModel DepthModel DepthSpec DepthProofs DepthAtProofs DepthProps
  UGridModel UGridGeomModel UGridGeomSpec SearchModel SearchSpec SearchProofs TFileModel TFileSpec TFileProofs TFileProps LoadModel LoadSpec LoadProofs LoadProps SLoadModel SLoadSpec SLoadProofs SLoadProps
  VLoadModel UFileModel UFileSpec UFileProofs UFileProps WholeModel WholeSpec WholeProofs FMeshModel FMeshSpec.
Open Scope string_scope.
Open Scope list_scope.
Open Scope nat_scope.

Lemma dget_unique {V} (d : dict V) k v : NoDup (map fst d) -> In (k, v) d -> dget d k = Some v.
Proof.
  induction d as [|[k' v'] d IH]; intros N I; [destruct I|]. cbn [map fst] in N. inversion N as [|? ? N1 N2]; subst. cbn [dget].
  destruct I as [E|I].
  - injection E as -> ->. now rewrite String.eqb_refl.
  - destruct (String.eqb_spec k k') as [->|]; [|auto]. exfalso. apply N1. apply in_map_iff. exists (k', v). auto.
Qed.
Lemma dget_map {V W} (h : V -> W) (d : dict V) k : dget (map (fun kv => (fst kv, h (snd kv))) d) k = option_map h (dget d k).
Proof. induction d as [|[k' v] d IH]; [reflexivity|]. cbn [map dget fst snd]. destruct (String.eqb k k'); auto. Qed.
Lemma mesh_fget f k v : UniqueNames f -> In (k, v) (fi_vars f) -> fget (as_mesh f) k = Some (to_mesh (k, v)).
Proof.
  intros N I. change k with (fv_name (to_mesh (k, v))) at 1. apply fget_of.
  - unfold as_mesh. rewrite map_map. exact N.
  - apply in_map. exact I.
Qed.

Lemma all_some_map {A} (l : list A) : all_some (map Some l) = Some l.
Proof. induction l as [|a l IH]; [reflexivity|]. cbn [map all_some]. now rewrite IH. Qed.
Lemma all_some_inv {A} (l : list (option A)) r : all_some l = Some r -> l = map Some r.
Proof.
  revert r. induction l as [|[a|] l IH]; intros r H; cbn [all_some] in H; try discriminate.
  - injection H as <-. reflexivity.
  - destruct (all_some l) as [s|]; [|discriminate]. injection H as <-. cbn. f_equal. auto.
Qed.
Lemma plain_of (t : list (list Z)) : plain_table (map (map Some) t) = Some t.
Proof.
  unfold plain_table. rewrite map_map, (map_ext _ Some).
  - apply all_some_map.
  - intros r. apply all_some_map.
Qed.
Lemma numbers_pairs lon lat : numbers (pairs lon lat) = Some (combine lon lat).
Proof.
  unfold numbers, pairs. rewrite map_map, (map_ext _ Some); [apply all_some_map|]. intros [x y]. reflexivity.
Qed.
Lemma combine_split_points (l : list point) : combine (map fst l) (map snd l) = l.
Proof. induction l as [|[x y] l IH]; [reflexivity|]. cbn. now rewrite IH. Qed.

Lemma padded_mentions r : Padded r "mesh_topology" -> Mentions "topology" r.
Proof.
  intros (g & g' & _ & _ & ->). exists (g ++ "mesh_")%string, g'. 
  induction g as [|c g IH]; [reflexivity|]. cbn. f_equal. exact IH.
Qed.

Section Mesh.
  Context (f : file) (m : mesh) (mv : mvar) (nodes : list point) (faces : list (list Z)).
  Context (U : UniqueNames f) (MV : MeshVarOf f mv) (NI : NodesIn f mv nodes) (FI : FacesIn f mv faces) (T : TriMesh nodes faces).

  Lemma valid_faces : ValidFaces (length nodes) (map (map Some) faces).
  Proof.
    clear MV NI FI U. destruct T as [Ne H]. split.
    - destruct faces as [|r fs]; [congruence|]. destruct (H r (or_introl eq_refl)) as (a & b & c & A & B & C & -> & _).
      exists (map Some [Z.of_nat a; Z.of_nat b; Z.of_nat c]), (Some (Z.of_nat a)). split; [left; reflexivity|left; reflexivity].
    - intros x (r & Hr & Hx). apply in_map_iff in Hr. destruct Hr as (r0 & <- & Hr). apply in_map_iff in Hx. destruct Hx as (y & E & Hy). injection E as ->.
      destruct (H r0 Hr) as (a & b & c & A & B & C & -> & Ha & Hb & Hc & _).
      apply nth_error_Some_lt in Ha, Hb, Hc. cbn in Hy. destruct Hy as [<-|[<-|[<-|[]]]]; lia.
  Qed.
  Lemma read_faces n c cv s : fm_start_index cv = Some s -> (0 <= s)%Z -> Forall (fun r => length r = 3) faces ->
    ((length faces <> 3 /\ Stored s (fm_flag_values cv) (map (map Some) faces) (fm_table cv)) \/
     (exists u, Flipped 3 (map (map Some) faces) u /\ Stored s (fm_flag_values cv) u (fm_table cv))) ->
    read_table 3 n (to_mesh (c, cv)) = Ok (map (map Some) faces).
  Proof.
    clear. intros S P R [[L H]|(u & F & H)].
    - apply (c59_rows_partial 3 n (to_mesh (c, cv)) s); auto. now rewrite map_length.
    - apply (c59_columns 3 n (to_mesh (c, cv)) s _ u); auto; try lia. unfold Rect. rewrite Forall_map. eapply Forall_impl; [|exact R]. intros r. now rewrite map_length.
  Qed.

  Lemma mesh_read : open_mesh f = Ok m ->
    me_nodes m = nodes /\ me_faces m = faces /\ exists d, (d = "1" \/ d = "2") /\ me_topology m = fm_attrs mv ++ [("topology_dimension", d)].
  Proof.
    intros H. unfold open_mesh in H. apply bind_ok in H. destruct H as (a & _ & H).
    destruct a as [[]|]; try discriminate. destruct (find_topology_var (as_grid f)) as [tv|] eqn:Ft; [|discriminate].
    apply bind_ok in H. destruct H as (u & Hu & H).
    destruct MV as (mn & Im & (r & Hr & Pr) & D & Only).
    assert (Mm : MeshVar (to_mesh (mn, mv))) by (split; [exists r; auto|exact D]).
    (* the mesh *)
    assert (Ch : choose_mesh (as_mesh f) None = Ok mn).
    { apply c71_only_mesh; [unfold as_mesh; rewrite map_map; exact U|]. exists (to_mesh (mn, mv)). split; [|reflexivity].
      destruct (in_split _ _ Im) as (pre & post & E). exists (map to_mesh pre), (map to_mesh post). unfold as_mesh. rewrite E, map_app. split; [reflexivity|]. split; [exact Mm|].
      intros y Hy. rewrite <- map_app in Hy. apply in_map_iff in Hy. destruct Hy as ([n v] & <- & Iv). intros [(r' & Hr' & Pr') _].
      assert (In (n, v) (fi_vars f)) as Iv' by (rewrite E; apply in_app_iff; apply in_app_iff in Iv; cbn; tauto).
      pose proof (Only n v r' Iv' Hr' (padded_mentions _ Pr')) as ->.
      pose proof U as U'. unfold UniqueNames in U'. rewrite E, map_app in U'. cbn [map fst] in U'. apply NoDup_remove_2 in U'. apply U'.
      rewrite <- map_app. apply in_map_iff. exists (mn, v). auto. }
    assert (Ht : gv_name tv = mn).
    { pose proof (find_topology_spec (as_grid f)) as Fs. rewrite Ft in Fs. destruct Fs as (pre & post & E & (r' & Hr' & Mr') & _).
      assert (I : In tv (map to_grid (fi_vars f))) by (change (map to_grid (fi_vars f)) with (gf_vars (as_grid f)); rewrite E; apply in_app_iff; cbn; auto).
      apply in_map_iff in I. destruct I as ([n v] & <- & I). exact (Only n v r' I Hr' Mr'). }
    unfold UFileModel.load_grid in Hu. rewrite Ch in Hu. cbn [bind] in Hu. rewrite (mesh_fget f mn mv U Im) in Hu.
    destruct NI as (text & ca & cb & va & vb & lon & lat & Tx & W & Ia & Ib & Ax & Elon & Elat).
    assert (Rc : read_coords (as_mesh f) (to_mesh (mn, mv)) "node_coordinates" true = Ok (Some (pairs lon lat))).
    { eapply c71_coordinates; [exact Tx|exact W|apply mesh_fget; eauto|apply mesh_fget; eauto| |].
      - cbn [to_mesh fv_values snd]. assert (L : length lon = length lat) by (rewrite <- Elon, <- Elat, !map_length; reflexivity).
        destruct Ax as [(_ & _ & -> & ->)|(_ & _ & -> & ->)]; congruence.
      - exact Ax. }
    rewrite Rc in Hu. cbn [bind] in Hu. cbv zeta in Hu.
    apply bind_ok in Hu. destruct Hu as (fc & _ & Hu). apply bind_ok in Hu. destruct Hu as (ec & _ & Hu). apply bind_ok in Hu. destruct Hu as (bc & _ & Hu).
    destruct FI as (cn & cv & s & Ac & Ic & Ss & Ps & R3 & Tb).
    assert (Lp : length (pairs lon lat) = length nodes).
    { unfold pairs. rewrite map_length, <- Elon, <- Elat, combine_split_points. reflexivity. }
    assert (Rf : read_role (as_mesh f) (to_mesh (mn, mv)) "face_node_connectivity" 3 (length (pairs lon lat)) = Ok (Some (map (map Some) faces))).
    { unfold read_role. cbn [to_mesh fv_attrs snd]. unfold Attr in Ac. rewrite Ac. rewrite (mesh_fget f cn cv U Ic).
      rewrite (read_faces _ cn cv s Ss Ps R3 Tb). reflexivity. }
    rewrite Rf in Hu. cbn [bind opt_bind] in Hu. rewrite Lp, (assign_valid _ _ valid_faces) in Hu. cbn [bind] in Hu.
    apply bind_ok in Hu. destruct Hu as (ff0 & _ & Hu). apply bind_ok in Hu. destruct Hu as (ff & _ & Hu).
    apply bind_ok in Hu. destruct Hu as (bo & _ & Hu). apply bind_ok in Hu. destruct Hu as (ed & _ & Hu). injection Hu as <-.
    cbn [ug_nodes ug_faces] in H. rewrite numbers_pairs, plain_of in H. injection H as <-. cbn [me_nodes me_faces me_topology].
    split; [rewrite <- Elon, <- Elat; apply combine_split_points|]. split; [reflexivity|].
    unfold topology_of. rewrite Ht, (dget_unique _ _ _ U Im).
    destruct D as [-> | ->]; [exists "1"|exists "2"]; split; auto.
  Qed.
End Mesh.

Lemma words_nothing d ws : (d = "1" \/ d = "2") -> Words d ws -> ws = [d].
Proof. intros [-> | ->] W; apply split_unique in W; rewrite <- W; reflexivity. Qed.
Lemma not_grid_name m mv d k : me_topology m = fm_attrs mv ++ [("topology_dimension", d)] -> d = "1" \/ d = "2" -> Unmentioned mv k -> ~ GridName (api m) k.
Proof.
  intros E D (N1 & N2 & N) (role & text & words & I & W & K). cbn [api ga_topology] in I. rewrite E in I. apply in_app_iff in I.
  destruct I as [I|[I|[]]]; [exact (N role text words I W K)|]. injection I as <- <-.
  rewrite (words_nothing _ _ D W) in K. destruct K as [<-|[]]. destruct D; contradiction.
Qed.

(** ** Depth *)
Lemma as_names_in f v : In v (f_vars (as_names f)) -> exists n w, In (n, w) (fi_vars f) /\ v = to_name (n, w).
Proof. intros I. apply in_map_iff in I. destruct I as ([n w] & <- & I). eauto. Qed.
Lemma carries_attr n w l : Carries (to_name (n, w)) l -> exists a, In a ["long_name"; "standard_name"] /\ Attr w a l.
Proof. intros [H|H]; [exists "long_name"|exists "standard_name"]; split; cbn; auto. Qed.
Lemma role_unfound names cf f k qn qc : NoDup (map fst names) -> NoDup (map fst cf) -> In (k, qn) names -> In (k, qc) cf ->
  (forall v, In v (f_vars f) -> ~ In (v_name v) qn /\ forall l, In l qc -> ~ Carries v l) -> finds names cf f k = Some None.
Proof.
  intros N1 N2 I1 I2 H. destruct (finds_best names cf f k qn qc N1 N2 I1 I2) as (r & -> & B). destruct r as [v|]; [|reflexivity]. exfalso.
  assert (Q : forall (ans : string -> SearchModel.nvar -> Prop) qs, RoleAnswer ans qs v -> exists q, In q qs /\ ans q v).
  { intros ans qs (q & (pre & post & E & _) & A). exists q. split; auto. rewrite E. apply in_app_iff. cbn. auto. }
  cbn [Best] in B. destruct B as [B|(_ & [B|(_ & X & _)])]; [| |congruence].
  - destruct (Q _ _ B) as (q & Iq & A). apply long_answer_carries in A. destruct A as (I & C). destruct (H v I) as [_ K]. exact (K q Iq C).
  - destruct (Q _ _ B) as (q & Iq & (pre & post & E & En & _)). assert (I : In v (f_vars f)) by (rewrite E; apply in_app_iff; cbn; auto).
    destruct (H v I) as [K _]. apply K. now rewrite En.
Qed.
Lemma sigma_no names cf f qn qc : NoDup (map fst names) -> NoDup (map fst cf) -> In ("bathymetry", qn) names -> In ("bathymetry", qc) cf ->
  (forall v, In v (f_vars (as_names f)) -> ~ In (v_name v) qn /\ forall l, In l qc -> ~ Carries v l) -> sigma_can names cf f = false.
Proof.
  intros N1 N2 I1 I2 H. pose proof (role_unfound _ _ _ _ _ _ N1 N2 I1 I2 H) as E. unfold finds in E. apply SearchProofs.dget_in in E.
  unfold sigma_can. destruct (can_create_sigma _) eqn:C; [|reflexivity]. exfalso.
  apply c51_sigma_support with (k := "bathymetry") (b := false) in C; [discriminate| |discriminate].
  apply in_map_iff. exists ("bathymetry", None). auto.
Qed.

Lemma nth_same {A} (a b : list A) : length a = length b -> (forall i x, nth_error a i = Some x -> nth_error b i = Some x) -> a = b.
Proof.
  revert b. induction a as [|x a IH]; intros [|y b] L H; try discriminate; [reflexivity|].
  specialize (H 0 x eq_refl) as H0. cbn in H0. injection H0 as ->. f_equal. apply IH; [cbn in L; lia|]. intros i z Hz. exact (H (S i) z Hz).
Qed.
Lemma qset_nth : forall l k v i, nth_error (qset l k v) i = if Nat.eqb i k then option_map (fun _ => v) (nth_error l i) else nth_error l i.
Proof.
  induction l as [|x l IH]; intros [|k] v [|i]; cbn [qset nth_error Nat.eqb option_map]; auto; try (destruct (Nat.eqb _ _); reflexivity).
Qed.
Lemma surfaced_loaded levels ls : levels <> [] -> Surfaced levels ls -> l_from_levels levels = Ok ls.
Proof.
  intros Ne (L & k & x0 & Hk & Hz & H). unfold l_from_levels. destruct (argmin_spec levels Ne) as (k' & mn & -> & Hm & B). cbn [bind]. f_equal.
  assert (k' = k) as ->.
  { destruct (Nat.eq_dec k' k); auto. destruct (H k' mn Hm n) as [Lt _]. specialize (B x0 (nth_error_In _ _ Hk)). lra. }
  apply nth_same.
  - rewrite L. clear. revert k. induction levels as [|x l IH]; intros [|k]; cbn [qset length]; auto.
  - intros i x Hi. rewrite qset_nth in Hi. destruct (Nat.eqb_spec i k) as [->|N].
    + rewrite Hk in Hi. cbn in Hi. congruence.
    + apply (H i x Hi N).
Qed.

Ltac distinct := repeat (constructor; [cbn [In]; intros H; repeat (destruct H as [H|H]; [discriminate H|]); exact H|]); constructor.
Lemma roms_nodup : NoDup (map fst roms_names). Proof. cbn [roms_names map fst]. distinct. Qed.
Lemma roms_cf_nodup : NoDup (map fst roms_cf). Proof. cbn [roms_cf map fst]. distinct. Qed.
Lemma fvcom_nodup : NoDup (map fst fvcom_names). Proof. cbn [fvcom_names map fst]. distinct. Qed.
Lemma fvcom_cf_nodup : NoDup (map fst fvcom_cf). Proof. cbn [fvcom_cf map fst]. distinct. Qed.
Lemma levels_search f v : finds level_names level_cf (as_names f) "depth_levels" = Some (Some v) -> can_make f L_Depth = true.
Proof.
  unfold finds. cbn [can_make]. unfold can_create. generalize (as_names f) as g. intros g. unfold search_vars. rewrite Nat.eqb_refl.
  unfold by_varname, by_longname, search, level_names, level_cf. cbn [fold_left fst snd].
  generalize (first_query (by_name g) ["depth"; "depth_levels"; "Depth"]) as a, (first_query (fun q => head_opt (by_long g q ++ by_std g q)) ["d"; "e"; "p"; "t"; "h"]) as b.
  intros a b.
  destruct a, b; intros H; vm_compute in H; try discriminate; reflexivity.
Qed.

Lemma levels_read f ls : UniqueNames f -> LevelsIn f (Some ls) -> read_depth f = Ok (Levels ls) /\ 2 <= length ls /\ Monotone ls.
Proof.
  intros U (OL & dv & (n & pre & post & E & I & Pre) & Sf & L2 & Mo & Pos).
  assert (Clean : forall v, In v (f_vars (as_names f)) -> v_name v <> "h" /\
     forall l, In l ["bathymetry at RHO-points"; "Final bathymetry at RHO-points"; "sea_floor_depth_below_geoid"; "d"; "e"; "p"; "t"; "h"] -> ~ Carries v l).
  { intros v Iv. destruct (as_names_in f v Iv) as (a & w & Iw & ->). destruct (OL a w Iw) as [Nh K]. split; [exact Nh|].
    intros l Il C. destruct (carries_attr _ _ _ C) as (at_ & Ia & At). exact (K at_ l Ia At Il). }
  assert (R1 : can_make f ROMS_Depth = false).
  { refine (sigma_no roms_names roms_cf f ["h"] ["bathymetry at RHO-points"; "Final bathymetry at RHO-points"] roms_nodup roms_cf_nodup _ _ _).
    - right. right. right. right. right. left. reflexivity.
    - right. right. right. right. right. left. reflexivity.
    - intros v Iv. destruct (Clean v Iv) as [A B]. split; [intros [X|[]]; congruence|]. intros l [<-|[<-|[]]]; apply B; [left; reflexivity|right; left; reflexivity]. }
  assert (R2 : can_make f FVCOM_Depth = false).
  { refine (sigma_no fvcom_names fvcom_cf f ["h"] ["sea_floor_depth_below_geoid"] fvcom_nodup fvcom_cf_nodup _ _ _).
    - right. right. left. reflexivity.
    - right. right. left. reflexivity.
    - intros v Iv. destruct (Clean v Iv) as [A B]. split; [intros [X|[]]; congruence|]. intros l [<-|[]]. apply B. right. right. left. reflexivity. }
  destruct (c87_levels_partial (as_names f)) as (r & Fr & Rr).
  { intros x l Ix C Il. destruct (Clean x Ix) as [_ B]. apply (B l); [do 3 right; exact Il|exact C]. }
  assert (In_n : In n depth_names) by (rewrite E; apply in_app_iff; cbn; auto).
  assert (In_v : In (to_name (n, dv)) (f_vars (as_names f))) by (apply in_map; exact I).
  destruct r as [v|]; [|exfalso; exact (Rr _ In_v In_n)].
  assert (Vn : v_name v = n).
  { destruct Rr as (q & (pre' & post' & E' & (v' & A') & Pre') & (p1 & p2 & Ev & En & _)).
    assert (NA : forall x w, In x (f_vars (as_names f)) -> v_name x = w -> exists y, NameAnswer (as_names f) w y).
    { intros x w Ix Ew. destruct (first_exists (fun y => v_name y = w) (fun y => string_dec _ _) _ _ Ix Ew) as (y & Y). eauto. }
    assert (Iv : In v (f_vars (as_names f))) by (rewrite Ev; apply in_app_iff; cbn; auto).
    assert (Inq : In q (map fst (fi_vars f))).
    { destruct (as_names_in f v Iv) as (a & w & Iw & ->). cbn in En. subst a. apply in_map_iff. exists (q, w). auto. }
    rewrite En. unfold depth_names in E. rewrite E in E'.
    (* both are the first name present *)
    clear - E' Pre Pre' Inq I In_v NA. revert pre' post' E' Pre'. induction pre as [|p pre IH]; intros pre' post' E' Pre'.
    - destruct pre' as [|p' pre']; cbn in E'; [congruence|]. injection E' as <- _. exfalso.
      apply (Pre' n (or_introl eq_refl)). apply (NA _ _ In_v). reflexivity.
    - destruct pre' as [|p' pre']; cbn in E'; injection E' as <- E'.
      + exfalso. exact (Pre p (or_introl eq_refl) Inq).
      + eapply (IH (fun m h => Pre m (or_intror h)) pre' post' E'). intros y Hy. apply Pre'. right. exact Hy. }
  pose proof (levels_search f v Fr) as R3.
  assert (Ne : fm_reals dv <> []) by (intros X; rewrite X in L2; cbn in L2; lia).
  split; [|split].
  - unfold read_depth.
    assert (depth_factory sd_ld_types (can_make f) = Ok (Some L_Depth)) as ->.
    { unfold depth_factory, sd_ld_types. cbn [map]. rewrite R1, R2, R3. reflexivity. }
    cbn [bind]. unfold finds in Fr. rewrite Fr, Vn, (dget_unique _ _ _ U I). rewrite (surfaced_loaded _ _ Ne Sf). reflexivity.
  - destruct Sf as (-> & _). exact L2.
  - destruct (l_from_levels_spec (fm_reals dv) Ne Mo) as (l & k & El & _ & Ml & _).
    + intros i x Hx. apply Pos. apply nth_error_In in Hx. exact Hx.
    + rewrite (surfaced_loaded _ _ Ne Sf) in El. congruence.
Qed.

(** ** Variables *)
Lemma loads_get load g vs xs : Loads load g vs xs -> NoDup (map fst vs) ->
  forall k v l, In (k, v) vs -> ~ GridName g k -> LocationOf g v l ->
  exists x l', dget xs k = Some x /\ load k v l' x /\ LocationOf g v l'.
Proof.
  intros L. induction L as [|k' w r ys G _ IH|k' w r ys N _ IH|k' w m y r ys G Lo Hy _ IH]; intros ND k v l I NG HL;
    cbn [map fst] in ND; [destruct I| | |]; inversion ND as [|? ? N1 N2]; subst.
  - destruct I as [E|I]; [injection E as -> ->; contradiction|eauto].
  - destruct I as [E|I]; [injection E as -> ->; exfalso; exact (N l HL)|eauto].
  - cbn [dget]. destruct I as [E|I].
    + injection E as -> ->. rewrite String.eqb_refl. eauto.
    + destruct (String.eqb_spec k k') as [->|]; [|eauto]. exfalso. apply N1. apply in_map_iff. exists (k', v). auto.
Qed.

Section Opened.
  Context (dateutil : string -> dparse) (cftime : string -> option (Z * Z * Z)).
  Context (now : time_obj) (tree : list pt -> list (list Z) -> list pt -> list Z) (hist : list nat -> list spot -> list ug_op).
  Context (f : file) (m : mesh) (vs : dict variable) (mv : mvar) (nodes : list point) (faces : list (list Z)).
  Context (U : UniqueNames f) (MV : MeshVarOf f mv) (NI : NodesIn f mv nodes) (FI : FacesIn f mv faces) (T : TriMesh nodes faces).
  Context (O : open_dataset dateutil cftime f = Ok (m, vs)).
  Context (k loc : string) (w : mvar) (ts : list Z) (levels : option (list Q)) (n : nat).
  Context (I : In (k, w) (fi_vars f)) (Un : Unmentioned mv k) (Lo : Attr w "location" loc) (VL : ValidLocation loc).
  Context (In_ : InstantsIn cftime f w ts) (Lv : LevelsIn f levels) (Sh : Shaped w (length ts) levels n).

  Lemma opened : exists v t nm, dget vs k = Some v /\ va_loc v = loc /\ va_varname v = k /\ va_shape v = fm_shape w /\
    va_time v = TimeRead t nm /\ t_data t = ts /\ va_depth v = match levels with Some _ => DepthRead | None => DepthNone end.
  Proof.
    clear now tree hist.
    unfold open_dataset in O. apply bind_ok in O. destruct O as (m' & Om & H). apply bind_ok in H. destruct H as (vs' & Hv & H). injection H as -> ->.
    destruct (mesh_read f m mv nodes faces U MV NI FI T Om) as (_ & _ & d & D & Et).
    pose proof (not_grid_name m mv d k Et D Un) as NG.
    assert (Lf : lf_vars (as_load f) = map (fun kv => (fst kv, to_load (snd kv))) (fi_vars f)) by reflexivity.
    assert (Ik : In (k, to_load w) (lf_vars (as_load f))) by (rewrite Lf; apply in_map_iff; exists (k, w); auto).
    assert (HL : LocationOf (api m) (to_load w) loc) by (left; split; [exact Lo|exact VL]).
    destruct (loads_get _ _ _ _ (c78_loaded _ _ _ _ _ _ Hv) ltac:(rewrite Lf, map_map; exact U) k (to_load w) loc Ik NG HL) as (v & l' & G & (a & Ha & An & Al & At & Az & Ad & Au & Ao & Ap & _) & HL').
    assert (l' = loc) as -> by (apply find_location_iff in HL, HL'; congruence).
    assert (Gw : dget (lf_vars (as_load f)) k = Some (to_load w)) by (rewrite Lf, dget_map, (dget_unique _ _ _ U I); reflexivity).
    destruct (c77_fields _ _ _ _ _ _ _ _ Ha) as (w1 & W1 & Fn & _ & Fs & _). rewrite An in *.
    assert (w1 = to_load w) by congruence. subst w1.
    destruct (c77_location _ _ _ _ _ _ _ _ Ha) as (_ & _ & _ & Fl & _).
    destruct In_ as (an & aw & Ax & Ia & FIn & SO & SI).
    destruct (c77_time _ _ _ _ _ _ _ _ Ha) as (w2 & W2 & _ & Ft). rewrite An in W2. assert (w2 = to_load w) by congruence. subst w2.
    destruct (proj1 (Ft At) an Ax) as (t & nm & Er & Ev).
    exists v, t, nm. split; [exact G|]. split; [apply Fl; exact Al|]. split; [exact Fn|]. split; [exact Fs|]. split; [exact Ev|]. split.
    - rewrite Az, Ao, Ap in Er. unfold time_from_netCDF in Er. cbn [bind tfile_of tf_vars] in Er. rewrite Lf, map_map in Er. cbn [fst snd] in Er.
      rewrite (dget_map (fun x => tvar_of (to_load x))), (dget_unique _ _ _ U Ia) in Er. cbn [option_map] in Er.
      destruct SO as (u & Hu & Hs). destruct (since_axis dateutil cftime (tvar_of (to_load aw)) u ts FIn Hu Hs SI) as (t' & nm' & Et' & Hm).
      rewrite Et' in Er. injection Er as <- _. exact Hm.
    - destruct (c77_depth_partial _ _ _ _ _ _ _ _ Ha At) as (w3 & W3 & _ & Fd). rewrite An in W3. assert (w3 = to_load w) by congruence. subst w3.
      destruct (Fd Ad) as (F1 & _ & F3). specialize (F1 an Ax). cbn [to_load lv_shape api ga_kind GridDimensions] in F1. unfold Shaped in Sh. rewrite Sh in F1.
      destruct levels as [ls|]; cbn [app length] in F1.
      + apply F1. reflexivity.
      + apply F3. intros X. apply F1 in X. discriminate.
  Qed.

  Lemma opened_answer : exists t, t_data t = ts /\ LevelsOk levels /\ me_nodes m = nodes /\ me_faces m = faces /\ forall q ex pts,
    ask_file dateutil cftime now tree hist f k q ex pts =
    at_grid (mesh_interp tree hist nodes faces (place_of loc) (fm_part w)) (order_of (some (Some t)) (some levels) GOther) (shape_of (Some t) levels [n]) (Some t)
      (option_map (fun ls => l_view deep ls (Some (length ls)) default_sbc default_bbc) levels) q ex pts.
  Proof.
    destruct opened as (v & t & nm & G & Vl & Vk & Vs & Vt & Td & Vd). exists t. split; [exact Td|].
    assert (Om : open_mesh f = Ok m).
    { unfold open_dataset in O. apply bind_ok in O. destruct O as (m' & Om & H). apply bind_ok in H. destruct H as (vs' & Hv & H). injection H as -> ->. exact Om. }
    destruct (mesh_read f m mv nodes faces U MV NI FI T Om) as (En & Ef & _).
    split; [|split; [exact En|split; [exact Ef|]]].
    { intros l ->. destruct (levels_read f l U Lv) as (_ & A & B). auto. }
    intros q ex pts. unfold ask_file. rewrite O. cbn [bind fst snd]. rewrite G. unfold answer. rewrite Vk, (dget_unique _ _ _ U I), Vl, Vs, Vt, En, Ef. unfold depth_of. rewrite Vd.
    unfold Shaped in Sh. rewrite Sh. rewrite <- Td. destruct levels as [ls|].
    - destruct (levels_read f ls U Lv) as (-> & _). cbn [bind fst snd app length]. reflexivity.
    - reflexivity.
  Qed.
End Opened.
