(** Reading a mesh by the names of its variables. *)
From Coq Require Import String.
From Verif Require Import Common CommonProofs UGridProofs TimeModel TimeSpec VariableModel VariableSpec GridTypeModel GridTypeSpec GridTypeProofs GridTypeProps UGridGeomSpec UFileModel UFileSpec UFileProofs
  TFileModel LoadModel LoadSpec LoadProofs WholeModel WholeSpec TerrSpec FMeshModel FMeshSpec FMeshProofs FRectSpec FRectProofs FStagSpec FStagRead FRomsSpec FFvcomModel FFvcomSpec MaskModel.
Open Scope string_scope.
Open Scope list_scope.
Open Scope nat_scope.

(** ** The variables by name *)
Lemma rows_present f n : InFile (as_rows f) n <-> Present f n.
Proof.
  split.
  - intros (v & I & E). apply in_map_iff in I. destruct I as ([a w] & <- & I). exists a, w. auto.
  - intros (a & w & I & E). exists (to_rows (a, w)). split; [apply in_map; exact I|exact E].
Qed.
Lemma rows_both f p : BothIn f p <-> PairIn (as_rows f) p.
Proof. unfold BothIn, PairIn. rewrite !rows_present. tauto. Qed.
Lemma rows_named f n a v : Called f n a -> Named (as_rows f) n v -> exists x, v = to_rows (a, x) /\ In (a, x) (fi_vars f).
Proof.
  intros (_ & _ & Only) (pre & post & E & C & _).
  assert (I : In v (map to_rows (fi_vars f))) by (change (map to_rows (fi_vars f)) with (gf_vars (as_rows f)); rewrite E; apply in_app_iff; right; left; reflexivity).
  apply in_map_iff in I. destruct I as ([b u] & <- & I). pose proof (Only b u I C) as ->. eauto.
Qed.
Lemma rows_pair f p : PairOf f axis_names (Some p) -> exists x y,
  find_pair (lower_vars (as_rows f)) axis_names = Some ((p_lon p, to_rows (p_x p, x)), (p_lat p, to_rows (p_y p, y))) /\
  In (p_x p, x) (fi_vars f) /\ In (p_y p, y) (fi_vars f).
Proof.
  intros (F' & C1 & C2). pose proof (find_pair_spec (as_rows f) axis_names coord_names_lower) as Fp.
  assert (F'' : FirstWith (PairIn (as_rows f)) axis_names (p_lon p, p_lat p)) by (eapply first_ext; [|exact F']; intros; apply rows_both).
  destruct (find_pair (lower_vars (as_rows f)) axis_names) as [[[n1 v1] [n2 v2]]|]; [|exfalso; eapply first_none; eauto].
  destruct Fp as (F & N1 & N2). pose proof (first_unique _ _ _ _ F F'') as E. injection E as -> ->.
  destruct (rows_named _ _ _ _ C1 N1) as (x & -> & I1). destruct (rows_named _ _ _ _ C2 N2) as (y & -> & I2). exists x, y. auto.
Qed.
Lemma rows_faces f n a : FirstWith (Present f) ["faces"; "tris"; "nv"; "ele"; "nele"] n -> Called f n a ->
  exists x, find_first (lower_vars (as_rows f)) face_var_names = Some (n, to_rows (a, x)) /\ In (a, x) (fi_vars f).
Proof.
  intros F' C. pose proof (find_first_spec (as_rows f) _ face_names_lower) as Ff.
  assert (F'' : FirstWith (InFile (as_rows f)) face_var_names n) by (eapply first_ext; [|exact F']; intros; symmetry; apply rows_present).
  destruct (find_first (lower_vars (as_rows f)) face_var_names) as [[n1 v1]|]; [|exfalso; eapply first_none; eauto].
  destruct Ff as (F & N1). pose proof (first_unique _ _ _ _ F F'') as ->. destruct (rows_named _ _ _ _ C N1) as (x & -> & I1). exists x. auto.
Qed.

(** ** The index table *)
Definition triples (faces : list (list Z)) : Prop := Forall (fun r => length r = 3) faces.
Lemma tri_triples nodes faces : TriMesh nodes faces -> triples faces.
Proof. intros [_ H]. apply Forall_forall. intros r Ir. destruct (H r Ir) as (a & b & c & A & B & C & -> & _). reflexivity. Qed.
Lemma tri_bounds nodes faces : TriMesh nodes faces -> forall x, In x (concat faces) -> (0 <= x < Z.of_nat (length nodes))%Z.
Proof.
  intros [_ H] x Ix. apply in_concat in Ix. destruct Ix as (r & Ir & Ix). destruct (H r Ir) as (a & b & c & A & B & C & -> & Ha & Hb & Hc & _).
  apply nth_error_Some_lt in Ha, Hb, Hc. cbn in Ix. destruct Ix as [<-|[<-|[<-|[]]]]; lia.
Qed.
Definition corner (j : nat) (t : list (list Z)) : list Z := map (fun r => nth j r 0%Z) t.
Lemma flipped_corners t u : triples t -> Flipped 3 (map (map Some) t) u -> u = map (map Some) [corner 0 t; corner 1 t; corner 2 t].
Proof.
  intros T (L & R & H). rewrite map_length in R, H. destruct u as [|u0 [|u1 [|u2 [|? ?]]]]; try discriminate L.
  unfold UFileSpec.Rect in R. inversion R as [|? ? L0 R']; subst. inversion R' as [|? ? L1 R'']; subst. inversion R'' as [|? ? L2 _]; subst. clear R R' R'' L.
  assert (K : forall j v, (forall i, i < length t -> nth i v None = at2 (map (map Some) t) i j) -> length v = length t -> j < 3 -> v = map Some (corner j t)).
  { intros j v Hv Lv Hj. apply (nth_ext _ _ None None); [unfold corner; rewrite !map_length; exact Lv|]. intros i Hi. rewrite Lv in Hi. rewrite (Hv i Hi). unfold at2.
    rewrite (nth_indep (map (map Some) t) [] (map Some [])) by (rewrite map_length; exact Hi). rewrite map_nth.
    assert (Lr : length (nth i t []) = 3) by (unfold triples in T; rewrite Forall_forall in T; apply T; apply nth_In; exact Hi).
    rewrite (nth_indep (map Some (nth i t [])) None (Some 0%Z)) by (rewrite map_length; lia). rewrite map_nth.
    rewrite (nth_indep (map Some (corner j t)) None (Some 0%Z)) by (unfold corner; rewrite !map_length; exact Hi). rewrite map_nth. unfold corner.
    rewrite (nth_indep (map (fun r => nth j r 0%Z) t) 0%Z (nth j [] 0%Z)) by (rewrite map_length; exact Hi). rewrite (map_nth (fun r => nth j r 0%Z)). reflexivity. }
  cbn [map]. f_equal; [|f_equal; [|f_equal]].
  - apply (K 0); [|exact L0|lia]. intros i Hi. rewrite <- (H i 0 Hi ltac:(lia)). reflexivity.
  - apply (K 1); [|exact L1|lia]. intros i Hi. rewrite <- (H i 1 Hi ltac:(lia)). reflexivity.
  - apply (K 2); [|exact L2|lia]. intros i Hi. rewrite <- (H i 2 Hi ltac:(lia)). reflexivity.
Qed.
Lemma transposed t : triples t -> transpose_rows (length t) [corner 0 t; corner 1 t; corner 2 t] = t.
Proof.
  induction 1 as [|r t Hr _ IH]; [reflexivity|]. cbn [length transpose_rows corner map hd tl] in *. f_equal; [|exact IH].
  destruct r as [|a [|b [|c [|? ?]]]]; try discriminate Hr. reflexivity.
Qed.
Lemma table_read np faces t : triples faces -> faces <> [] -> (forall x, In x (concat faces) -> (0 <= x < Z.of_nat np)%Z) -> TableOf np faces t ->
  exists rows, plain_table t = Some rows /\ normal_faces rows np = Ok faces.
Proof.
  intros T Ne B (s & Hs & Ht). cbv zeta in Ht. set (g := map (map (fun x => (x + s)%Z)) faces).
  assert (Eg : map (map (fun x => Some (x + s)%Z)) faces = map (map Some) g) by (unfold g; rewrite map_map; apply map_ext; intros r; rewrite map_map; reflexivity).
  rewrite Eg in Ht.
  assert (Tg : triples g) by (unfold g, triples in *; rewrite Forall_map; revert T; apply Forall_impl; intros r Hr; rewrite map_length; exact Hr).
  assert (Cg : concat g = map (fun x => (x + s)%Z) (concat faces)) by (unfold g; rewrite concat_map; reflexivity).
  assert (Nc : concat g <> []).
  { rewrite Cg. destruct faces as [|r fs]; [congruence|]. inversion T as [|? ? Lr _]; subst. destruct r; [discriminate Lr|discriminate]. }
  destruct (UGridProofs.zmax_total (concat g) Nc) as [m Em].
  assert (Back : Ok (if (m =? Z.of_nat np)%Z then map (map (fun k => k - 1)%Z) g else g) = Ok faces).
  { f_equal. destruct (shifted_ok np g m Em) as [S1 S2]. destruct Hs as [-> |[-> (r & Ir & Ix)]].
    - rewrite S2.
      + unfold g. rewrite <- (map_id faces) at 2. apply map_ext. intros r. rewrite <- (map_id r) at 2. apply map_ext. intros x. lia.
      + left. rewrite Cg. intros I. apply in_map_iff in I. destruct I as (x & Ex & Ix). specialize (B x Ix). lia.
    - rewrite S1.
      + unfold g. rewrite map_map. rewrite <- (map_id faces) at 2. apply map_ext. intros r0. rewrite map_map. rewrite <- (map_id r0) at 2. apply map_ext. intros x. lia.
      + rewrite Cg. apply in_map_iff. exists (Z.of_nat np - 1)%Z. split; [lia|]. apply in_concat. eauto.
      + intros x I. rewrite Cg in I. apply in_map_iff in I. destruct I as (y & <- & Iy). specialize (B y Iy). lia. }
  assert (Lg : length g = length faces) by (unfold g; apply map_length).
  destruct Ht as [[N3 ->] | Fl].
  - exists g. split; [apply plain_of|]. unfold normal_faces. rewrite Lg. destruct (Nat.eqb_spec (length faces) 3); [contradiction|]. rewrite Em. exact Back.
  - exists [corner 0 g; corner 1 g; corner 2 g]. rewrite (flipped_corners g t Tg Fl). split; [apply plain_of|]. unfold normal_faces. cbn [length Nat.eqb hd].
    replace (length (corner 0 g)) with (length g) by (unfold corner; now rewrite map_length). rewrite (transposed g Tg), Em. exact Back.
Qed.

(** ** The mesh *)
Definition fmesh (p : pair) (n : string) (nodes : list point) (faces : list (list Z)) : mesh :=
  mkMesh nodes faces None [("node_lon", p_lon p); ("node_lat", p_lat p); ("faces", n)].
Lemma named_mesh_read f p n nodes faces : NamedMesh f p n nodes faces -> TriMesh nodes faces -> open_fmesh f = Ok (fmesh p n nodes faces).
Proof.
  intros (U & Decl & Top & Pr & Hx & Hy & Ff & a & Ca & Ht) T.
  destruct (rows_pair f p Pr) as (x & y & Ep & Ix & Iy). destruct (rows_faces f n a Ff Ca) as (w & Ew & Iw).
  destruct (Hx x Ix) as [Sx Rx]. specialize (Hy y Iy). specialize (Ht w Iw).
  destruct (table_read (length nodes) faces (fm_table w) (tri_triples _ _ T) (proj1 T) (tri_bounds _ _ T) Ht) as (rows & Pt & Nf).
  assert (NT : NoneWith IsTopology (gf_vars (as_rows f))).
  { intros v Iv (r & Hr & M). apply in_map_iff in Iv. destruct Iv as ([k w'] & <- & Iv). exact (Top k w' r Iv Hr M). }
  assert (Base : find_base (as_rows f) None = Ok ([("node_lon", SVar (to_rows (p_x p, x))); ("node_lat", SVar (to_rows (p_y p, y)))], [("node_lon", p_lon p); ("node_lat", p_lat p)])).
  { unfold find_base. change node_coord_names with axis_names. rewrite Ep. reflexivity. }
  pose proof (find_topology_spec (as_rows f)) as Ft. destruct (find_topology_var (as_rows f)) eqn:Tv; [exfalso; eapply first_none; eauto|]. clear Ft.
  assert (Fu : find_u (as_rows f) None = Ok ([("node_lon", SVar (to_rows (p_x p, x))); ("node_lat", SVar (to_rows (p_y p, y))); ("faces", SFaces faces)],
                                             [("node_lon", p_lon p); ("node_lat", p_lat p); ("faces", n)])).
  { unfold find_u. rewrite Base. cbn [bind]. rewrite Ew. cbn [bind get_arg dget String.eqb Ascii.eqb Bool.eqb count to_rows to_grid gv_shape gv_rows snd fst].
    rewrite Sx. cbn [bind]. rewrite Pt, Nf. reflexivity. }
  assert (Ty : get_grid_type (as_rows f) None None = Ok Grid_U).
  { unfold get_grid_type. rewrite Tv, Fu. destruct (gf_grid_type (as_rows f)) as [g|] eqn:Eg; [|reflexivity]. destruct (isin g (sgrid_names ++ ugrid_names)) eqn:Ig; [|reflexivity].
    apply isin_in in Ig. apply in_app_iff in Ig. destruct Ig as [Ig|Ig]; [exfalso; exact (Decl g Eg Ig)|].
    cbn [ugrid_names In] in Ig. destruct Ig as [<-|[<-|[<-|[<-|[]]]]]; reflexivity. }
  unfold open_fmesh, grid_from_netcdf. rewrite Ty. cbn [bind]. rewrite Tv, Fu. cbn [bind get_arg dget String.eqb Ascii.eqb Bool.eqb fst snd].
  unfold reals_of. cbn [to_rows gv_name to_grid fst]. rewrite (dget_unique _ _ _ U Ix), (dget_unique _ _ _ U Iy). cbn [bind]. rewrite Rx, Hy, !map_length, Nat.eqb_refl.
  rewrite (assign_valid _ _ (valid_faces nodes faces T)). cbn [bind]. rewrite plain_of, combine_split_points. reflexivity.
Qed.

(** ** The places *)
Lemma mesh_words p n f : PairOf f axis_names (Some p) -> FirstWith (Present f) ["faces"; "tris"; "nv"; "ele"; "nele"] n -> split (p_lon p) = [p_lon p] /\ split (p_lat p) = [p_lat p] /\ split n = [n].
Proof.
  intros ((pre & post & E & _) & _) (pre' & post' & E' & _).
  assert (I : In (p_lon p, p_lat p) axis_names) by (rewrite E; apply in_app_iff; right; left; reflexivity).
  assert (I' : In n ["faces"; "tris"; "nv"; "ele"; "nele"]) by (rewrite E'; apply in_app_iff; right; left; reflexivity).
  cbn [axis_names In] in I, I'. split; [|split].
  - destruct I as [H|[H|[H|[H|[]]]]]; injection H as Ha Hb; try rewrite <- Ha; try rewrite <- Hb; reflexivity.
  - destruct I as [H|[H|[H|[H|[]]]]]; injection H as Ha Hb; try rewrite <- Ha; try rewrite <- Hb; reflexivity.
  - destruct I' as [<-|[<-|[<-|[<-|[<-|[]]]]]]; reflexivity.
Qed.
Lemma mesh_grid_name f p n nodes faces k : NamedMesh f p n nodes faces -> GridName (api (fmesh p n nodes faces)) k <-> In k (mesh_names p n).
Proof.
  intros (_ & _ & _ & Pr & _ & _ & Ff & _). destruct (mesh_words p n f Pr Ff) as (A & B & C). rewrite <- grid_name_iff. unfold is_grid_name.
  cbn [api fmesh ga_topology me_topology existsb snd]. rewrite A, B, C. unfold isin, mesh_names. cbn [existsb In]. rewrite !orb_false_r, !orb_true_iff, !String.eqb_eq. intuition congruence.
Qed.
Lemma infers p n nodes faces att lead len : ga_infer (api (fmesh p n nodes faces)) att (lead ++ [len]) =
  Ok (if len =? length nodes then Some "node" else if len =? length faces then Some "face" else None).
Proof.
  cbn [api fmesh ga_infer me_nodes me_faces me_bounds]. unfold u_infer, UGridModel.u_infer_location. rewrite rev_app_distr. cbn [rev app].
  destruct (len =? length nodes); [reflexivity|]. destruct (len =? length faces); reflexivity.
Qed.
Lemma sized_infers p n nodes faces att lead len loc : Sized (length nodes) (length faces) len loc -> ga_infer (api (fmesh p n nodes faces)) att (lead ++ [len]) = Ok (Some loc).
Proof. intros H. rewrite infers. destruct H as [-> |N ->]; [now rewrite Nat.eqb_refl|]. apply Nat.eqb_neq in N. now rewrite N, Nat.eqb_refl. Qed.
