(** C81: a staggered grid saved to a file and loaded again. *)
From Coq Require Import String Ascii QArith.
From Verif Require Import Common CommonProofs MaskModel GridTypeModel GridTypeSpec GridTypeProofs ChainModel VerdatModel
  SAttrModel SAttrSpec SVarModel SVarSpec SVarProofs SVarProps SSaveModel SSaveSpec SSaveProofs.
Open Scope string_scope.
Open Scope list_scope.
Open Scope nat_scope.

(** A file with all there can be. *)
Definition demo_dims : dict nat := [("xn", 2); ("yn", 2); ("xc", 3); ("yc", 3); ("kc", 1)].
Definition scalar_topology (extra : dict string) : fdata :=
  mkFdata (mkSvar "grid" [] ([("cf_role", "grid_topology"); ("node_dimensions", "xn yn");
     ("face_dimensions", "xc: xn (padding: both) yc: yn (padding: both)"); ("vertical_dimensions", "kc: kn (padding: none)")] ++ extra) (Some 2%Z) []) [None].
Definition numbers (n : nat) : list (option Q) := map (fun k => Some (inject_Z (Z.of_nat k))) (seq 1 n).
Definition field (n : string) (dims : list string) (attrs : dict string) (shape : list nat) : fdata :=
  mkFdata (mkSvar n dims attrs None shape) (numbers (product shape)).
Definition demo_file : nfile := mkNfile demo_dims
  [field "mask_psi" ["xn"; "yn"] [] [2; 2];
   field "u" ["kc"; "xn"; "yc"] [("grid", "grid"); ("location", "face"); ("standard_name", "sea_water_x_velocity"); ("axes", "X: xi Y: eta");
      ("coordinates", "ulon  ulat")] [1; 2; 3];
   scalar_topology [("edge1_dimensions", "xn yc: yn (padding: both)"); ("face_coordinates", "clon clat"); ("node_coordinates", "nlon nlat");
      ("edge1_coordinates", "ulon ulat")];
   field "clat" ["xc"; "yc"] [("standard_name", "latitude")] [3; 3]; field "clon" ["xc"; "yc"] [("standard_name", "longitude")] [3; 3];
   field "nlon" ["xn"; "yn"] [] [2; 2]; field "nlat" ["xn"; "yn"] [] [2; 2];
   field "ulon" ["xn"; "yc"] [("units", "degrees_east")] [2; 3]; field "ulat" ["xn"; "yc"] [] [2; 3];
   field "angle" ["xc"; "yc"] [] [3; 3]].
Definition no_east (a b : values) : result values := Err ValueError.
Definition demo_grid : grid :=
  match load no_east demo_file with Ok g => g | Err _ => mkGrid [] "" "" None (None, None) (None, None) (None, None) (None, None) None None None ([], []) None None None None (None, None, None, None) [] end.
Lemma demo_loads : load no_east demo_file = Ok demo_grid.
Proof. vm_compute. reflexivity. Qed.
Lemma demo_formed : WellFormed demo_file.
Proof.
  constructor.
  - cbn. repeat constructor; cbn; intuition discriminate.
  - cbn. repeat constructor; cbn; intuition discriminate.
  - intros d H. cbn in H. repeat (destruct H as [<-|H]; [cbn; repeat constructor; cbn; tauto|]). destruct H.
Qed.
Lemma demo_resavable : Resavable demo_file demo_grid "clon" "clat" "nlon" "nlat".
Proof.
  constructor.
  - vm_compute. reflexivity.
  - vm_compute. reflexivity.
  - replace (g_topology demo_grid) with "grid" by (vm_compute; reflexivity). repeat constructor; cbn; intuition discriminate.
  - replace (g_topology demo_grid) with "grid" by (vm_compute; reflexivity). intros v H. cbn in H.
    repeat (destruct H as [<-|H]; [cbn; auto; discriminate|]). destruct H.
  - intros s vals H. vm_compute in H. injection H as <- _. cbn. discriminate.
  - intros v H. cbn in H. repeat (destruct H as [<-|H]; [cbn; repeat split; discriminate|]). destruct H.
Qed.

(** The grid comes back: its dimensions and paddings, the names of all
    coordinates, the node and center coordinates and the angles. *)
Theorem c81_round_trip_partial : forall fte f g cx cy nx ny, WellFormed f -> load fte f = Ok g -> Resavable f g cx cy nx ny ->
  exists f' g', save g = Ok f' /\ load fte f' = Ok g' /\ g_dims g' = g_dims g /\ g_topology g' = g_topology g /\
  g_node_dimensions g' = g_node_dimensions g /\ g_node_coordinates g' = g_node_coordinates g /\
  g_edge1_dims g' = g_edge1_dims g /\ g_edge2_dims g' = g_edge2_dims g /\ g_face_dims g' = g_face_dims g /\ g_vertical_dims g' = g_vertical_dims g /\
  g_edge1_coordinates g' = g_edge1_coordinates g /\ g_edge2_coordinates g' = g_edge2_coordinates g /\ g_face_coordinates g' = g_face_coordinates g /\
  g_angles g' = g_angles g /\ g_node g' = g_node g /\ g_center g' = g_center g /\
  (forall n, In n (map gv_name (g_variables g')) <-> In n (map gv_name (g_variables g))).
Proof.
  intros fte f g cx cy nx ny W H R. apply load_inv in H. destruct H as (t & L).
  destruct (load_saved fte f t g cx cy nx ny L W R) as (g' & L' & E). exists (saved g cx cy nx ny), g'.
  split; [exact (save_saved fte f t g cx cy nx ny L W R)|]. split; [exact (load_ok _ _ _ _ L')|].
  decompose [and] E. repeat (split; [assumption|]).
  intros n. rewrite (source_names _ _ _ _ L'), (source_names _ _ _ _ L). exact (saved_names fte f t g cx cy nx ny L W R n).
Qed.
Print Assumptions c81_round_trip_partial.
Example c81_round_trip_demo : exists f' g', save demo_grid = Ok f' /\ load no_east f' = Ok g' /\ g_center g' = g_center demo_grid /\
  g_edge1_coordinates g' = Some ["ulon"; "ulat"] /\ map (fun v => sv_name v) (vars_of f') = ["clon"; "clat"; "nlon"; "nlat"; "grid"; "angle"; "mask_psi"; "u"; "ulon"; "ulat"].
Proof.
  destruct (c81_round_trip_partial _ _ _ _ _ _ _ demo_formed demo_loads demo_resavable) as (f' & g' & S & Ld & E). decompose [and] E.
  exists f', g'. split; [exact S|]. split; [exact Ld|]. split; [assumption|]. split.
  - match goal with X : g_edge1_coordinates _ = _ |- _ => rewrite X end. vm_compute. reflexivity.
  - vm_compute in S. injection S as <-. reflexivity.
Qed.

(** A variable other than the coordinates keeps its description, but the
    location it was given is replaced by one guessed from its dimensions. *)
Theorem c81_variables_partial : forall fte f g cx cy nx ny f' g' v w, WellFormed f -> load fte f = Ok g -> Resavable f g cx cy nx ny ->
  save g = Ok f' -> load fte f' = Ok g' -> In v (vars_of f) -> In w (g_variables g) -> gv_name w = sv_name v ->
  ~ In (sv_name v) [cx; cy; nx; ny; g_topology g; "angle"] ->
  exists w', In w' (g_variables g') /\ SameDescription (g_topology g) w w' /\
    (attr v "location" = None -> ds_location (gv_desc w') = ds_location (gv_desc w)).
Proof.
  intros fte f g cx cy nx ny f' g' v w W H R S H' Hv Hw E N. apply load_inv in H. destruct H as (t & L).
  rewrite (save_saved fte f t g cx cy nx ny L W R) in S. injection S as <-.
  destruct (load_saved fte f t g cx cy nx ny L W R) as (g2 & L2 & Eq). rewrite (load_ok _ _ _ _ L2) in H'. injection H' as <-.
  destruct (forall2_in_r _ _ _ _ (sources _ _ _ _ L) Hw) as (v0 & Hv0 & S0).
  assert (v0 = v).
  { destruct (source_inv _ _ _ S0) as (Nm & _). rewrite E in Nm. pose proof (wf_names _ W) as ND.
    pose proof (lookup_in _ _ ND Hv0) as A. pose proof (lookup_in _ _ ND Hv) as B. rewrite Nm in B. congruence. }
  subst v0. destruct (other_described fte f t g cx cy nx ny L R v w S0) as (w' & C & SD & Lc).
  assert (Sg : sgrid_of g2 = sgrid_of g) by (unfold sgrid_of; decompose [and] Eq; congruence).
  assert (Hr : In w (rest g cx cy nx ny)).
  { unfold rest. apply filter_In. split; auto. apply negb_true_iff. unfold made.
    destruct (isin (gv_name w) _) eqn:I; [|reflexivity]. exfalso. apply isin_in in I. rewrite base_names in I. apply N.
    apply in_app_or in I. rewrite <- E. cbn [In] in I |- *. destruct I as [I|I]; [intuition auto|].
    unfold angle_vars in I. destruct (getvar g "angle"); [|destruct I]. cbn [map In] in I. rewrite coord_name in I. intuition auto. }
  assert (Hs : In (fd_var (other_var g w)) (vars_of (saved g cx cy nx ny))).
  { rewrite saved_vars. apply in_or_app. right. now apply (in_map (fun w => fd_var (other_var g w))). }
  destruct (forall2_in_l _ _ _ _ (sources _ _ _ _ L2) Hs) as (w2 & Hw2 & S2). rewrite Sg, C in S2. injection S2 as <-.
  exists w'. auto.
Qed.
Print Assumptions c81_variables_partial.
Example c81_variables_demo : exists w, In w (g_variables demo_grid) /\ gv_name w = "u" /\ ds_coordinates (gv_desc w) = Some ["ulon"; "ulat"] /\
  ds_axes (gv_desc w) = (Some "xi", Some "eta", None) /\ ds_vector_axis (gv_desc w) = Some "X".
Proof. eexists. split; [vm_compute; right; left; reflexivity|]. repeat split. Qed.

(** The values of every other variable are lost, edge coordinates and masks
    included. *)
Theorem c81_values_lost_refuted : forall fte f g cx cy nx ny f' n v, WellFormed f -> load fte f = Ok g -> Resavable f g cx cy nx ny ->
  save g = Ok f' -> read f n = Ok v -> ~ In n [cx; cy; nx; ny; "angle"] ->
  exists v', read f' n = Ok v' /\ fst v' = fst v /\ Masked v'.
Proof.
  intros fte f g cx cy nx ny f' n v W H R S Hn N. apply load_inv in H. destruct H as (t & L).
  rewrite (save_saved fte f t g cx cy nx ny L W R) in S. injection S as <-.
  destruct (read_again fte f t g cx cy nx ny L W R n v Hn) as (v' & A & B & C). eauto.
Qed.
Print Assumptions c81_values_lost_refuted.
Theorem c81_edges_lost_refuted : forall fte f g cx cy nx ny f' g', WellFormed f -> load fte f = Ok g -> Resavable f g cx cy nx ny ->
  save g = Ok f' -> load fte f' = Ok g' ->
  ((forall l n, g_edge1_coordinates g = Some l -> In n l -> ~ In n [cx; cy; nx; ny; "angle"]) -> Emptied (g_edge1 g) (g_edge1 g')) /\
  ((forall l n, g_edge2_coordinates g = Some l -> In n l -> ~ In n [cx; cy; nx; ny; "angle"]) -> Emptied (g_edge2 g) (g_edge2 g')).
Proof.
  intros fte f g cx cy nx ny f' g' W H R S H'. apply load_inv in H. destruct H as (t & L).
  rewrite (save_saved fte f t g cx cy nx ny L W R) in S. injection S as <-.
  destruct (load_saved fte f t g cx cy nx ny L W R) as (g2 & L2 & Eq). rewrite (load_ok _ _ _ _ L2) in H'. injection H' as <-.
  decompose [and] Eq.
  destruct (edge_again fte f t g cx cy nx ny L W R _ _ _ (ld_edge1 _ _ _ _ L)) as (o1 & O1 & _ & E1).
  destruct (edge_again fte f t g cx cy nx ny L W R _ _ _ (ld_edge2 _ _ _ _ L)) as (o2 & O2 & _ & E2).
  pose proof (ld_edge1 _ _ _ _ L2) as X1. pose proof (ld_edge2 _ _ _ _ L2) as X2.
  replace (g_edge1_coordinates g2) with (g_edge1_coordinates g) in X1 by congruence.
  replace (g_edge2_coordinates g2) with (g_edge2_coordinates g) in X2 by congruence.
  rewrite O1 in X1. rewrite O2 in X2. injection X1 as ->. injection X2 as ->.
  split; intros Hc; [apply E1|apply E2].
  - destruct (g_edge1_coordinates g); auto. intros n Hn. now apply (Hc l n).
  - destruct (g_edge2_coordinates g); auto. intros n Hn. now apply (Hc l n).
Qed.
Print Assumptions c81_edges_lost_refuted.
Example c81_lost_demo : exists f' g' lon lat, save demo_grid = Ok f' /\ load no_east f' = Ok g' /\ g_edge1 demo_grid = Some (lon, lat) /\ ~ Masked lon /\
  Emptied (g_edge1 demo_grid) (g_edge1 g') /\ read demo_file "mask_psi" = Ok ([2; 2], numbers 4) /\ read f' "mask_psi" = Ok ([2; 2], [None; None; None; None]) /\
  g_masks g' = (Some "mask_psi", None, None, None).
Proof.
  destruct (c81_round_trip_partial _ _ _ _ _ _ _ demo_formed demo_loads demo_resavable) as (f' & g' & S & Ld & _).
  exists f', g'. eexists _, _. split; [exact S|]. split; [exact Ld|]. split; [vm_compute; reflexivity|].
  split. { intros H. discriminate (H (Some 1%Q) ltac:(cbn; auto)). }
  split. { destruct (c81_edges_lost_refuted _ _ _ _ _ _ _ _ _ demo_formed demo_loads demo_resavable S Ld) as [E1 _]. apply E1. clear E1. intros l n Hl Hn.
    vm_compute in Hl. injection Hl as <-. cbn in Hn |- *. intuition (subst; discriminate). }
  vm_compute in S. injection S as <-. vm_compute in Ld. injection Ld as <-. repeat split.
Qed.

(** Attributes of the coordinate variables, and the location of the others,
    are not written. *)
Theorem c81_attributes_lost_refuted : forall fte f g cx cy nx ny f' d, WellFormed f -> load fte f = Ok g -> Resavable f g cx cy nx ny ->
  save g = Ok f' -> In d (nf_vars f') ->
  (In (sv_name (fd_var d)) [cx; cy; nx; ny; "angle"] -> sv_attrs (fd_var d) = []) /\
  (sv_name (fd_var d) <> g_topology g -> forall k, attr (fd_var d) k <> None -> In k ["grid"; "standard_name"; "coordinates"; "axes"]).
Proof.
  intros fte f g cx cy nx ny f' d W H R S Hd. apply load_inv in H. destruct H as (t & L).
  rewrite (save_saved fte f t g cx cy nx ny L W R) in S. injection S as <-.
  pose proof (rs_distinct _ _ _ _ _ _ R) as D.
  assert (Cd : forall n v, sv_attrs (fd_var (coord g n v)) = []) by (intros n v; unfold coord; now destruct (getvar g n)).
  destruct (saved_cases g cx cy nx ny d Hd) as [B|(w & Hw & ->)].
  - destruct (base_cases fte f t g cx cy nx ny L W R d B) as [->|(n & v & -> & _)].
    + split; [|intros X; now contradict X]. intros I. exfalso.
      apply (NoDup_remove_2 [cx; cy; nx; ny] ["angle"] (g_topology g)) in D. apply D. exact I.
    + split; [intros _; apply Cd|]. intros _ k X. unfold attr in X. rewrite Cd in X. now contradict X.
  - split.
    + intros I. exfalso. unfold rest in Hw. apply filter_In in Hw. destruct Hw as [Hw X]. apply negb_true_iff in X.
      cbn [other_var new_var fd_var sv_name] in I. assert (Y : made (base g cx cy nx ny) (gv_name w) = true); [|congruence].
      apply isin_in. rewrite base_names. apply in_or_app. cbn [In] in I. destruct I as [I|[I|[I|[I|[I|[]]]]]]; try (left; cbn [In]; tauto).
      right. unfold angle_vars. unfold getvar. rewrite I. rewrite (find_name gv_name _ _ (names_nodup fte f t g L W) Hw). cbn [map]. rewrite coord_name. rewrite <- I. now left.
    + intros _ k X. rewrite attr_other in X. cbn [In].
      destruct (String.eqb_spec k "grid") as [Ek|_]; [auto|]. destruct (String.eqb_spec k "standard_name") as [Ek|_]; [auto|].
      destruct (String.eqb_spec k "coordinates") as [Ek|_]; [auto|]. destruct (String.eqb_spec k "axes") as [Ek|_]; [auto|]. now contradict X.
Qed.
Print Assumptions c81_attributes_lost_refuted.
Example c81_location_demo : exists f' g' w w', save demo_grid = Ok f' /\ load no_east f' = Ok g' /\ In w (g_variables demo_grid) /\ In w' (g_variables g') /\
  gv_name w = "u" /\ gv_name w' = "u" /\ ds_location (gv_desc w) = Some "face" /\ ds_location (gv_desc w') = Some "edge2".
Proof.
  destruct (c81_round_trip_partial _ _ _ _ _ _ _ demo_formed demo_loads demo_resavable) as (f' & g' & S & Ld & _).
  exists f', g'. vm_compute in S. injection S as <-. vm_compute in Ld. injection Ld as <-. eexists _, _. split; [vm_compute; reflexivity|].
  split; [vm_compute; reflexivity|]. split; [vm_compute; right; left; reflexivity|].
  split; [do 7 right; left; reflexivity|]. repeat split.
Qed.

(** A grid without face coordinates cannot be saved, though such files load. *)
Theorem c81_no_faces_refuted : (forall g, g_face_coordinates g = None -> save g = Err TypeError) /\
  exists f g, WellFormed f /\ load no_east f = Ok g /\ g_face_coordinates g = None.
Proof.
  split; [intros g E; unfold save; rewrite E; reflexivity|].
  exists (mkNfile demo_dims [scalar_topology []; field "angle" ["xc"; "yc"] [] [3; 3]]). eexists. split; [|split; [vm_compute; reflexivity|reflexivity]].
  constructor.
  - cbn. repeat constructor; cbn; intuition discriminate.
  - cbn. repeat constructor; cbn; intuition discriminate.
  - intros d H. cbn in H. repeat (destruct H as [<-|H]; [cbn; repeat constructor; cbn; tauto|]). destruct H.
Qed.
Print Assumptions c81_no_faces_refuted.

(** The errors. *)
Lemma getvar_in g w : NoDup (map gv_name (g_variables g)) -> In w (g_variables g) -> getvar g (gv_name w) = Ok w.
Proof. intros N I. unfold getvar. now rewrite (find_name gv_name _ _ N I). Qed.
Lemma getvar_out g n : ~ In n (map gv_name (g_variables g)) -> getvar g n = Err AttributeError.
Proof. intros N. unfold getvar. now rewrite (proj2 (find_name_none gv_name _ _) N). Qed.
Lemma find_first {A} (p : A -> bool) l m a : find p l = Some a -> find p (l ++ m) = Some a.
Proof. induction l as [|b l IH]; cbn [find app]; [discriminate|]. destruct (p b); auto. Qed.
Theorem c81_errors : forall fte f t n, find_grid_topology_var (vars_of f) = Ok n -> lookup (vars_of f) n = Some t -> attr t "node_dimensions" = None ->
  load fte f = Err AttributeError.
Proof. intros fte f t n A B C. unfold load. rewrite A. cbn [bind]. rewrite B. unfold get_node_coordinates. now rewrite C. Qed.
Print Assumptions c81_errors.
Theorem c81_save_errors : forall g x y, g_face_coordinates g = Some [x; y] -> NoDup (map gv_name (g_variables g)) ->
  (~ In x (map gv_name (g_variables g)) \/ ~ In y (map gv_name (g_variables g)) -> save g = Err AttributeError) /\
  forall vx vy, In vx (g_variables g) -> In vy (g_variables g) -> gv_name vx = x -> gv_name vy = y ->
    (g_center g = None -> save g = Err TypeError) /\
    forall lon lat, g_center g = Some (lon, lat) ->
      (map (size_of g) (gv_dims vx) <> fst lon \/ map (size_of g) (gv_dims vy) <> fst lat -> save g = Err ValueError) /\
      (map (size_of g) (gv_dims vx) = fst lon -> map (size_of g) (gv_dims vy) = fst lat ->
        (x = y -> save g = Err RuntimeError) /\
        (x <> y -> g_node_coordinates g = Some [x; y] -> g_node g = Some (lon, lat) -> save g = Err RuntimeError) /\
        (x <> y -> g_node_coordinates g = None -> In (g_topology g) (map gv_name (g_variables g)) -> ~ In (g_topology g) [x; y] ->
         ~ In "angle" (map gv_name (g_variables g)) ->
          (fst (g_face_dims g) = None -> save g = Err TypeError) /\
          (fst (g_face_dims g) <> None -> exists f', save g = Ok f' /\ nf_dims f' = g_dims g /\ read f' x = Ok lon /\ read f' y = Ok lat))).
Proof.
  intros g x y F N. split.
  - intros H. unfold save. rewrite F. cbn [unpack2 bind]. unfold pair_vars. cbn [fst snd].
    destruct (in_dec string_dec x (map gv_name (g_variables g))) as [I|I]; [|now rewrite (getvar_out _ _ I)].
    destruct H as [H|H]; [contradiction|]. apply in_map_iff in I. destruct I as (w & <- & I). rewrite (getvar_in _ _ N I). cbn [bind]. now rewrite (getvar_out _ _ H).
  - intros vx vy Ix Iy Ex Ey.
    assert (P : forall l vals, pair_vars g l (x, y) vals = match vals with
       | None => Err TypeError
       | Some (lon, lat) => do dx <- written g vx lon; do dy <- written g vy lat; do l <- create l dx; create l dy end).
    { intros l vals. unfold pair_vars. cbn [fst snd]. rewrite <- Ex, <- Ey, (getvar_in _ _ N Ix), (getvar_in _ _ N Iy). reflexivity. }
    split; [intros C; unfold save; rewrite F; cbn [unpack2 bind]; rewrite P, C; reflexivity|].
    assert (Wr : forall w v, map (size_of g) (gv_dims w) = fst v -> written g w v = Ok (new_var g (gv_name w) (gv_dims w) [] (snd v))).
    { intros w v E. unfold written. now rewrite (proj2 (shape_eqb_iff (fst v) _) (eq_sym E)). }
    assert (Wn : forall w v, map (size_of g) (gv_dims w) <> fst v -> written g w v = Err ValueError).
    { intros w v E. unfold written. destruct (shape_eqb _ _) eqn:X; auto. apply shape_eqb_iff in X. now contradict E. }
    intros lon lat C. unfold save. rewrite F. cbn [unpack2 bind]. rewrite P, C. split.
    + intros H. destruct (list_eq_dec Nat.eq_dec (map (size_of g) (gv_dims vx)) (fst lon)) as [E|E]; [|now rewrite (Wn _ _ E)].
      rewrite (Wr _ _ E). cbn [bind]. destruct H as [H|H]; [contradiction|]. now rewrite (Wn _ _ H).
    + intros Sx Sy. rewrite (Wr _ _ Sx), (Wr _ _ Sy). cbn [bind].
      set (dx := new_var g (gv_name vx) (gv_dims vx) [] (snd lon)). set (dy := new_var g (gv_name vy) (gv_dims vy) [] (snd lat)).
      assert (C1 : create [] dx = Ok [dx]) by reflexivity.
      assert (M : create [dx] dy = if String.eqb y x then Err RuntimeError else Ok [dx; dy]).
      { unfold create, made, isin, dx, dy. cbn [map existsb new_var fd_var sv_name]. rewrite Ex, Ey, orb_false_r. reflexivity. }
      rewrite C1. cbn [bind]. rewrite M. split; [|split].
      * intros ->. rewrite String.eqb_refl. reflexivity.
      * intros D Nn Nv. destruct (String.eqb_spec y x) as [E|_]; [congruence|]. cbn [bind]. rewrite Nn. cbn [unpack2]. rewrite P, Nv, (Wr _ _ Sx), (Wr _ _ Sy).
        cbn [bind]. fold dx dy. assert (M' : create [dx; dy] dx = Err RuntimeError).
        { unfold create. replace (made [dx; dy] (sv_name (fd_var dx))) with true; [reflexivity|]. symmetry. apply isin_in. now left. }
        rewrite M'. reflexivity.
      * intros D Nn Ht Nt Na. destruct (String.eqb_spec y x) as [E|_]; [congruence|]. cbn [bind]. rewrite Nn. cbn [unpack2 bind].
        apply in_map_iff in Ht. destruct Ht as (w & Ew & Hw). rewrite <- Ew, (getvar_in _ _ N Hw). cbn [bind].
        rewrite (create_new [dx; dy] (topology_var g)).
        2:{ cbn [map new_var fd_var sv_name topology_var dx dy]. rewrite Ex, Ey. exact Nt. }
        cbn [bind]. rewrite (getvar_out _ _ Na). cbn [bind]. split; [intros E; now rewrite E|].
        intros E. destruct (fst (g_face_dims g)) eqn:Ef; [|now contradict E]. eexists. split; [reflexivity|]. split; [reflexivity|].
        assert (Ot : forall gvs l n d, find (fun d => String.eqb n (sv_name (fd_var d))) l = Some d ->
           find (fun d => String.eqb n (sv_name (fd_var d))) (fold_left (fun l v => if made l (gv_name v) then l else l ++ [other_var g v]) gvs l) = Some d).
        { induction gvs as [|v gvs IH]; intros l n d Hd; cbn [fold_left]; auto. apply IH. destruct (made l (gv_name v)); auto. now apply find_first. }
        unfold read, others. cbn [nf_vars]. split.
        -- rewrite (Ot _ _ x (new_var g (gv_name vx) (gv_dims vx) [] (snd lon))).
           ++ cbn [new_var fd_var fd_vals sv_shape]. rewrite Sx. now destruct lon.
           ++ unfold dx. cbn [app find new_var fd_var sv_name]. now rewrite Ex, String.eqb_refl.
        -- rewrite (Ot _ _ y (new_var g (gv_name vy) (gv_dims vy) [] (snd lat))).
           ++ cbn [new_var fd_var fd_vals sv_shape]. rewrite Sy. now destruct lat.
           ++ unfold dx, dy. cbn [app find new_var fd_var sv_name]. rewrite Ex, Ey, String.eqb_refl. destruct (String.eqb_spec y x) as [E'|_]; [congruence|reflexivity].
Qed.
Print Assumptions c81_save_errors.
Example c81_errors_demo : (exists f n t, find_grid_topology_var (vars_of f) = Ok n /\ lookup (vars_of f) n = Some t /\ attr t "node_dimensions" = None) /\
  exists g, g_face_coordinates g = Some ["a"; "b"] /\ g_node_coordinates g = None /\ NoDup (map gv_name (g_variables g)) /\ exists f', save g = Ok f' /\ read f' "a" = Ok ([2], numbers 2).
Proof.
  split.
  - exists (mkNfile [] [mkFdata (mkSvar "grid" [] [("cf_role", "grid_topology")] (Some 2%Z) []) [None]]), "grid". eexists. split; [vm_compute; reflexivity|]. split; vm_compute; reflexivity.
  - pose (v := fun n => mkSgvar n ["x"] None None (mkDescribed None None [] None (None, None, None) None None)).
    exists (mkGrid [("x", 2)] "grid" "x y" None (None, None) (None, None) (Some "", None) (None, None) None None (Some ["a"; "b"]) ([], []) None
       (Some (([2], numbers 2), ([2], numbers 2))) None None (None, None, None, None) [v "a"; v "b"; v "grid"]).
    split; [reflexivity|]. split; [reflexivity|]. split; [repeat constructor; cbn; intuition discriminate|]. eexists. split; reflexivity.
Qed.
