(** Properties C35 and C66: the grid factory. *)
From Coq Require Import String Ascii.
From Verif Require Import Common CommonProofs VariableSpec DepthModel UGridModel UGridSpec UGridProofs
  GridTypeModel GridTypeSpec GridTypeProofs.
Open Scope string_scope.
Open Scope list_scope.

(** C35: first, an explicit type name decides, in any case. *)
Theorem c35_explicit_type :
  forall f t g, let r := get_grid_type f (Some g) t in
  (OneOf ["sgrid"; "pygrid_s"; "staggered"; "curvilinear"; "roms"] g -> r = Ok Grid_S) /\
  (OneOf ["ugrid"; "pygrid_u"; "triangular"; "unstructured"] g -> r = Ok Grid_U) /\
  (OneOf ["rgrid"; "regular"; "rectangular"; "rectilinear"] g -> r = Ok Grid_R) /\
  (~ OneOf (["sgrid"; "pygrid_s"; "staggered"; "curvilinear"; "roms"] ++ ["ugrid"; "pygrid_u"; "triangular"; "unstructured"]
            ++ ["rgrid"; "regular"; "rectangular"; "rectilinear"]) g -> r = Err ValueError).
Proof.
  intros f t g r. subst r. unfold get_grid_type. destruct names_lower as (HS & HU & HR).
  assert (D : forall a b s, In (lower s) a -> In (lower s) b -> (forall x, In x a -> ~ In x b) -> False).
  { intros a b s H1 H2 H. exact (H _ H1 H2). }
  fold sgrid_names ugrid_names rgrid_names.
  repeat split; intros H.
  - apply (isin_lower g _ HS) in H. rewrite H. reflexivity.
  - apply (isin_lower g _ HU) in H. rewrite H. destruct (isin (lower g) sgrid_names) eqn:E; auto.
    exfalso. apply isin_in in E, H. eapply D; [exact E|exact H|]. cbn. intros x Hx. intuition (subst; discriminate).
  - apply (isin_lower g _ HR) in H. rewrite H. destruct (isin (lower g) sgrid_names) eqn:E; auto.
    + exfalso. apply isin_in in E, H. eapply D; [exact E|exact H|]. cbn. intros x Hx. intuition (subst; discriminate).
    + destruct (isin (lower g) ugrid_names) eqn:E'; auto.
      exfalso. apply isin_in in E', H. eapply D; [exact E'|exact H|]. cbn. intros x Hx. intuition (subst; discriminate).
  - assert (N : forall l, Forall is_lower l -> (forall x, In x l -> In x (sgrid_names ++ ugrid_names ++ rgrid_names)) ->
                isin (lower g) l = false).
    { intros l HL Hin. apply not_true_is_false. intros E. apply (isin_lower g l HL) in E. apply H.
      destruct E as (n & Hn & En). exists n. split; auto. }
    rewrite !N; auto; intros x Hx; apply in_or_app; auto; right; apply in_or_app; auto.
Qed.
Print Assumptions c35_explicit_type.
(** Then a given topology: by its faces key or its grid_type entry. *)
Theorem c35_topology_given :
  forall f t, let r := get_grid_type f None (Some t) in
  let U := dget t "faces" <> None \/ exists g, dget t "grid_type" = Some g /\ OneOf ["ugrid"; "pygrid_u"; "triangular"; "unstructured"] g in
  let R := exists g, dget t "grid_type" = Some g /\ OneOf ["rgrid"; "regular"; "rectangular"; "rectilinear"] g in
  (U -> r = Ok Grid_U) /\ (~ U -> R -> r = Ok Grid_R) /\ (~ U -> ~ R -> r = Ok Grid_S).
Proof.
  intros f t. cbv zeta. unfold get_grid_type. destruct names_lower as (HS & HU & HR).
  fold sgrid_names ugrid_names rgrid_names.
  assert (EF : has t "faces" = true <-> dget t "faces" <> None).
  { unfold has. destruct (dget t "faces"); split; congruence. }
  assert (EN : forall l, Forall is_lower l -> ~ In "notype" l ->
    (isin (lower match dget t "grid_type" with Some g => g | None => "notype" end) l = true <->
     exists g, dget t "grid_type" = Some g /\ OneOf l g)).
  { intros l HL Hno. destruct (dget t "grid_type") as [g|].
    - rewrite (isin_lower g l HL). split; [eauto|]. intros (g' & E & H). congruence.
    - split; [|intros (g & E & _); discriminate]. intros E. apply isin_in in E. exfalso. apply Hno. exact E. }
  pose proof (EN ugrid_names HU ltac:(cbn; intuition discriminate)) as EU.
  pose proof (EN rgrid_names HR ltac:(cbn; intuition discriminate)) as ER. clear EN.
  destruct (has t "faces") eqn:E1; cbn [orb].
  - assert (dget t "faces" <> None) by (apply EF; auto). tauto.
  - assert (~ dget t "faces" <> None) by (rewrite <- EF; discriminate).
    destruct (isin _ ugrid_names) eqn:E2.
    + assert (HU' : exists g, dget t "grid_type" = Some g /\ OneOf ugrid_names g) by (apply EU; auto). tauto.
    + assert (HU' : ~ exists g, dget t "grid_type" = Some g /\ OneOf ugrid_names g) by (rewrite <- EU; discriminate).
      destruct (isin _ rgrid_names) eqn:E3.
      * assert (HR' : exists g, dget t "grid_type" = Some g /\ OneOf rgrid_names g) by (apply ER; auto). tauto.
      * assert (HR' : ~ exists g, dget t "grid_type" = Some g /\ OneOf rgrid_names g) by (rewrite <- ER; discriminate). tauto.
Qed.
Print Assumptions c35_topology_given.
(** Then the file's grid_type attribute, if it is one of these exact words. *)
Theorem c35_global_attribute_partial :
  forall f g, gf_grid_type f = Some g ->
  (In g ["sgrid"; "pygrid_s"; "staggered"; "curvilinear"; "roms"] -> get_grid_type f None None = Ok Grid_S) /\
  (In g ["ugrid"; "pygrid_u"; "triangular"; "unstructured"] -> get_grid_type f None None = Ok Grid_U).
Proof.
  intros f g H. unfold get_grid_type. rewrite H. split; cbn [In]; intros Hg;
    repeat (destruct Hg as [<-|Hg]; [reflexivity|]); destruct Hg.
Qed.
Print Assumptions c35_global_attribute_partial.
(** Then the first topology variable. *)
Definition NoDeclaration (f : gfile) : Prop :=
  forall g, gf_grid_type f = Some g ->
  ~ In g (["sgrid"; "pygrid_s"; "staggered"; "curvilinear"; "roms"] ++ ["ugrid"; "pygrid_u"; "triangular"; "unstructured"]).
Lemma no_declaration f (r : result gclass) : NoDeclaration f ->
  match gf_grid_type f with
  | Some g => if isin g (sgrid_names ++ ugrid_names) then
                if isin (lower g) ugrid_names then Ok Grid_U else if isin (lower g) rgrid_names then Ok Grid_R else Ok Grid_S
              else r
  | None => r
  end = r.
Proof.
  intros H. destruct (gf_grid_type f) as [g|] eqn:E; auto.
  destruct (isin g (sgrid_names ++ ugrid_names)) eqn:I; auto. apply isin_in in I. exfalso. exact (H g E I).
Qed.
Theorem c35_topology_variable :
  forall f v, NoDeclaration f -> FirstWith IsTopology (gf_vars f) v ->
  get_grid_type f None None =
    Ok (if gv_node_coordinates v && negb (gv_node_dimensions v) then Grid_U else Grid_S).
Proof.
  intros f v Hd Hv. unfold get_grid_type. rewrite no_declaration by auto.
  pose proof (find_topology_spec f) as H. destruct (find_topology_var f) as [w|].
  - rewrite (first_unique _ _ _ _ H Hv). reflexivity.
  - exfalso. eapply first_none; eauto.
Qed.
Print Assumptions c35_topology_variable.
(** Then the names of the variables. *)
Theorem c35_by_variables :
  forall f, NoDeclaration f -> NoneWith IsTopology (gf_vars f) ->
  (forall lon lat v, Coords f lon lat -> HasLength lon -> FaceVar f v -> concat (gv_rows v) <> [] ->
     Rect (length (hd [] (gv_rows v))) (gv_rows v) -> get_grid_type f None None = Ok Grid_U) /\
  (forall lon lat, Coords f lon lat -> (forall v, ~ FaceVar f v) ->
     (OneDim lon /\ OneDim lat -> get_grid_type f None None = Ok Grid_R) /\
     (~ (OneDim lon /\ OneDim lat) -> get_grid_type f None None = Ok Grid_S)) /\
  ((forall lon lat, ~ Coords f lon lat) -> get_grid_type f None None = Err ValueError).
Proof.
  intros f Hd Ht. unfold get_grid_type. rewrite no_declaration by auto.
  pose proof (find_topology_spec f) as H. destruct (find_topology_var f) as [w|]; [exfalso; eapply first_none; eauto|].
  clear H. split; [|split].
  - intros lon lat v HC HL HV Hne HR. unfold find_u.
    destruct (base_spec f) as [(lon' & lat' & gt & HC' & E)|(_ & Hno)]; [|exfalso; eapply Hno; eauto].
    rewrite E. cbn [bind]. destruct (coords_unique _ _ _ _ _ HC HC') as [<- <-].
    pose proof (face_var_spec f) as HF. destruct (find_first (lower_vars f) face_var_names) as [[n v']|]; [|exfalso; eapply HF; eauto].
    assert (v' = v) by (eapply face_var_unique; eauto). subst v'. cbn [bind].
    unfold get_arg. cbn [dget String.eqb Ascii.eqb Bool.eqb].
    assert (exists k, count lon = Ok k) as [k Ek].
    { destruct lon as [u|u c|rows]; cbn [count HasLength] in *; [|eauto|eauto]. destruct (gv_shape u); [congruence|eauto]. }
    cbn [bind]. rewrite Ek. cbn [bind]. unfold normal_faces.
    assert (exists m, zmax (concat (if (length (gv_rows v) =? 3)%nat then transpose_rows (length (hd [] (gv_rows v))) (gv_rows v) else gv_rows v)) = Ok m) as [m Em].
    { apply zmax_total. destruct (length (gv_rows v) =? 3)%nat; auto. apply transpose_nonempty; auto.
      - intros E0. rewrite E0 in Hne. apply Hne. reflexivity.
      - destruct (length (hd [] (gv_rows v))) eqn:E0; [|lia]. exfalso. apply Hne.
        clear -HR. unfold Rect in HR. induction HR as [|r l Hr _ IH]; auto. destruct r; [auto|discriminate]. }
    rewrite Em. reflexivity.
  - intros lon lat HC HV. unfold find_u, find_r, find_s.
    destruct (base_spec f) as [(lon' & lat' & gt & HC' & E)|(_ & Hno)]; [|exfalso; eapply Hno; eauto].
    rewrite E. cbn [bind]. destruct (coords_unique _ _ _ _ _ HC HC') as [<- <-].
    pose proof (face_var_spec f) as HF. destruct (find_first (lower_vars f) face_var_names) as [[n v']|]; [exfalso; eapply HV; eauto|].
    cbn [bind]. unfold get_arg. cbn [dget String.eqb Ascii.eqb Bool.eqb bind].
    assert (forall s, (ndim s =? 1)%nat = true <-> OneDim s) as HD.
    { intros [u|u c|rows]; cbn [ndim OneDim]; [apply Nat.eqb_eq| |]; split; auto; try discriminate; tauto. }
    pose proof (HD lon) as H1. pose proof (HD lat) as H2.
    destruct (ndim lon =? 1)%nat; cbn [negb]; [destruct (ndim lat =? 1)%nat; cbn [negb]|].
    + split; auto. intros N. exfalso. apply N. tauto.
    + split; [intros [_ N]; apply H2 in N; discriminate|]. intros _.
      match goal with |- context [fold_left ?a ?b ?c] => destruct (fold_left a b c) end. reflexivity.
    + split; [intros [N _]; apply H1 in N; discriminate|]. intros _.
      match goal with |- context [fold_left ?a ?b ?c] => destruct (fold_left a b c) end. reflexivity.
  - intros Hno. unfold find_u, find_r, find_s.
    destruct (base_spec f) as [(lon' & lat' & gt & HC' & E)|(E & _)]; [exfalso; eapply Hno; eauto|].
    rewrite E. reflexivity.
Qed.
Print Assumptions c35_by_variables.
(** A file declaring itself rectangular is not believed, nor one that writes
    its type in capitals. *)
Theorem c35_declared_rectangular_refuted :
  exists f, gf_grid_type f = Some "rectangular" /\ get_grid_type f None None = Ok Grid_U.
Proof.
  exists (mkGfile (Some "rectangular") [mkGvar "lon" None false false [4]%nat []; mkGvar "lat" None false false [3]%nat [];
     mkGvar "nv" None false false [1; 3]%nat [[0; 1; 2]%Z]]).
  split; vm_compute; reflexivity.
Qed.
Print Assumptions c35_declared_rectangular_refuted.
Theorem c35_capitals_refuted :
  exists f g, gf_grid_type f = Some g /\ CaseEq g "ugrid" /\ get_grid_type f None None = Err ValueError.
Proof.
  exists (mkGfile (Some "UGRID") []), "UGRID". split; auto. split; [apply lower_eq; reflexivity|reflexivity].
Qed.
Print Assumptions c35_capitals_refuted.
(** The factory: a topology (given with a cf_role, or found) means the class's
    own reader; otherwise the arguments found by name. *)
Theorem c35_factory_reads_partial :
  forall f spec t c, c <> Grid_R ->
  match spec with
  | Some (ByClass c') => c' = c
  | Some (ByName s) => get_grid_type f (Some s) t = Ok c
  | None => get_grid_type f None t = Ok c
  end ->
  (match t with
   | None => exists v, In v (gf_vars f) /\ IsTopology v
   | Some t => exists r, dget t "cf_role" = Some r /\ Mentions "topology" r
   end) ->
  grid_from_netcdf f spec t = Ok (ReadWith c).
Proof.
  intros f spec t c Hc Hs Ht. unfold grid_from_netcdf.
  assert (E : match spec with
          | Some (ByClass c) => Ok c
          | Some (ByName s) => get_grid_type f (Some s) t
          | None => get_grid_type f None t
          end = Ok c) by (destruct spec as [[s|c']|]; auto; congruence).
  rewrite E. cbn [bind]. cbv zeta.
  assert (C : match t with
    | None => match find_topology_var f with Some _ => true | None => false end
    | Some t => match dget t "cf_role" with Some r => contains "topology" r | None => false end end = true).
  { destruct t as [t|].
    - destruct Ht as (r & -> & Hr). apply contains_spec. auto.
    - pose proof (find_topology_spec f) as H. destruct (find_topology_var f); auto. destruct Ht as (v & Hv & Iv). exfalso. exact (H v Hv Iv). }
  rewrite C. destruct c; auto. congruence.
Qed.
Print Assumptions c35_factory_reads_partial.
Theorem c35_factory_constructs :
  forall f spec t a, grid_from_netcdf f spec t = Ok a ->
  match t with None => NoneWith IsTopology (gf_vars f) | Some t => forall r, dget t "cf_role" = Some r -> ~ Mentions "topology" r end ->
  exists c ar gt, a = Construct c ar gt /\
    match c with Grid_U => find_u f t | Grid_S => find_s f t | Grid_R => find_r f t end = Ok (ar, gt) /\
    match spec with
    | Some (ByClass c') => c' = c
    | Some (ByName s) => get_grid_type f (Some s) t = Ok c
    | None => get_grid_type f None t = Ok c
    end.
Proof.
  intros f spec t a H Ht. unfold grid_from_netcdf in H. apply bind_ok in H. destruct H as (c & Hc & H).
  assert (C : match t with
    | None => match find_topology_var f with Some _ => true | None => false end
    | Some t => match dget t "cf_role" with Some r => contains "topology" r | None => false end end = false).
  { destruct t as [t|].
    - destruct (dget t "cf_role") as [r|]; auto. apply not_true_is_false. intros E. apply contains_spec in E. exact (Ht r eq_refl E).
    - pose proof (find_topology_spec f) as HT. destruct (find_topology_var f); auto. exfalso. eapply first_none; eauto. }
  cbv zeta in H. rewrite C in H. apply bind_ok in H. destruct H as ([ar gt] & H & E). injection E as <-. cbn [fst snd].
  exists c, ar, gt. split; auto. split; [destruct c; exact H|]. destruct spec as [[s|c']|]; auto. congruence.
Qed.
Print Assumptions c35_factory_constructs.
(** A rectangular class on a file with a topology variable always fails. *)
Theorem c35_rectangular_reader_refuted :
  forall f, (exists v, In v (gf_vars f) /\ IsTopology v) ->
  grid_from_netcdf f (Some (ByClass Grid_R)) None = Err AttributeError.
Proof.
  intros f (v & Hv & Iv). unfold grid_from_netcdf. cbn [bind]. cbv zeta.
  pose proof (find_topology_spec f) as H. destruct (find_topology_var f); auto. exfalso. exact (H v Hv Iv).
Qed.
Print Assumptions c35_rectangular_reader_refuted.
Definition fvcom : gfile := mkGfile None
  [mkGvar "Lon" None false false [4]%nat []; mkGvar "Lat" None false false [4]%nat [];
   mkGvar "nv" None false false [3; 2]%nat [[1; 2]; [2; 4]; [3; 3]]%Z].
Example c35_example :
  get_grid_type fvcom None None = Ok Grid_U /\ NoDeclaration fvcom /\ NoneWith IsTopology (gf_vars fvcom) /\
  get_grid_type fvcom (Some "ROMS") None = Ok Grid_S /\
  get_grid_type fvcom None (Some [("node_lon", "lon"); ("grid_type", "Regular")]) = Ok Grid_R.
Proof.
  split; [vm_compute; reflexivity|]. split; [intros g; discriminate|]. split; [|split; reflexivity].
  intros v Hv (r & E & _). cbn in Hv. destruct Hv as [<-|[<-|[<-|[]]]]; discriminate.
Qed.

(** C66 *)
Theorem c66_coordinates :
  forall f, 
  (forall lon lat, Coords f lon lat -> exists gt, find_base f None = Ok ([("node_lon", lon); ("node_lat", lat)], gt)) /\
  ((forall lon lat, ~ Coords f lon lat) -> find_base f None = Err ValueError).
Proof.
  intros f. destruct (base_spec f) as [(lon & lat & gt & HC & E)|(E & Hno)]; split; auto.
  - intros a b H. destruct (coords_unique _ _ _ _ _ H HC) as [-> ->]. eauto.
  - intros Hno. exfalso. eapply Hno; eauto.
  - intros a b H. exfalso. eapply Hno; eauto.
Qed.
Print Assumptions c66_coordinates.
(** The returned topology: the names found. *)
Theorem c66_coordinate_topology :
  forall f a gt, find_base f None = Ok (a, gt) ->
  (exists n1 n2, FirstWith (PairIn f) [("node_lon", "node_lat"); ("lon", "lat"); ("lon_psi", "lat_psi"); ("longitude", "latitude")] (n1, n2) /\
     gt = [("node_lon", n1); ("node_lat", n2)]) \/
  (exists n, FirstWith (InFile f) ["nodes"; "node"] n /\ gt = [("node_coordinates", n)]).
Proof.
  intros f a gt H. unfold find_base in H.
  pose proof (find_pair_spec f _ coord_names_lower) as HP.
  destruct (find_pair (lower_vars f) node_coord_names) as [[[n1 v1] [n2 v2]]|].
  - injection H as <- <-. left. exists n1, n2. split; auto. apply HP.
  - pose proof (find_first_spec f _ composite_lower) as HF.
    destruct (find_first (lower_vars f) composite_names) as [[n v]|]; [|discriminate].
    apply bind_ok in H. destruct H as (x & _ & H). injection H as <- <-. right. exists n. split; auto. apply HF.
Qed.
Print Assumptions c66_coordinate_topology.
Definition Shifted (nodes : nat) (rows rows' : list (list Z)) : Prop :=
  (In (Z.of_nat nodes) (concat rows) -> (forall x, In x (concat rows) -> (x <= Z.of_nat nodes)%Z) ->
     rows' = map (map (fun k => k - 1)%Z) rows) /\
  ((~ In (Z.of_nat nodes) (concat rows) \/ exists x, In x (concat rows) /\ (Z.of_nat nodes < x)%Z) -> rows' = rows).
Lemma shifted_ok nodes rows m : zmax (concat rows) = Ok m ->
  Shifted nodes rows (if (m =? Z.of_nat nodes)%Z then map (map (fun k => k - 1)%Z) rows else rows).
Proof.
  intros H. apply zmax_ok in H. destruct H as [H1 H2]. split.
  - intros Hin Hle. specialize (H2 _ Hin). specialize (Hle _ H1). destruct (Z.eqb_spec m (Z.of_nat nodes)); auto. lia.
  - intros Hn. destruct (Z.eqb_spec m (Z.of_nat nodes)) as [->|]; auto. destruct Hn as [Hn|(x & Hx & Hlt)]; [tauto|].
    specialize (H2 _ Hx). lia.
Qed.
Theorem c66_faces_partial :
  forall rows nodes, Rect (length (hd [] rows)) rows -> concat rows <> [] ->
  exists rows', normal_faces rows nodes = Ok rows' /\
  (length rows <> 3%nat -> Shifted nodes rows rows') /\
  (length rows = 3%nat -> exists t, Shifted nodes t rows' /\
     length t = length (hd [] rows) /\ Rect 3 t /\
     forall j k r x, nth_error rows j = Some r -> nth_error r k = Some x ->
     exists c, nth_error t k = Some c /\ nth_error c j = Some x).
Proof.
  intros rows nodes HR Hne. unfold normal_faces.
  destruct (Nat.eqb_spec (length rows) 3) as [E|E].
  - assert (Hw : (0 < length (hd [] rows))%nat).
    { destruct (length (hd [] rows)) eqn:E0; [|lia]. exfalso. apply Hne.
      clear -HR. unfold Rect in HR. induction HR as [|r l Hr _ IH]; auto. destruct r; [auto|discriminate]. }
    destruct (zmax_total (concat (transpose_rows (length (hd [] rows)) rows))) as [m Em].
    { apply transpose_nonempty; auto. intros ->. discriminate. }
    rewrite Em. cbn [bind]. eexists. split; [reflexivity|]. split; [congruence|]. intros _.
    destruct (transpose_entry _ rows HR) as (L & F & K). rewrite E in F.
    eexists. split; [apply shifted_ok; eauto|]. auto.
  - destruct (zmax_total (concat rows) Hne) as [m Em]. rewrite Em. cbn [bind].
    eexists. split; [reflexivity|]. split; [|congruence]. intros _. apply shifted_ok. auto.
Qed.
Print Assumptions c66_faces_partial.
(** Three triangles listed face by face are transposed into other triangles. *)
Theorem c66_three_faces_refuted :
  exists rows, normal_faces rows 5 = Ok [[0; 1; 2]; [1; 3; 3]; [2; 2; 4]]%Z /\ rows = [[0; 1; 2]; [1; 3; 2]; [2; 3; 4]]%Z.
Proof. eexists. split; [|reflexivity]. vm_compute. reflexivity. Qed.
Print Assumptions c66_three_faces_refuted.
(** The staggered arguments found by name. *)
Theorem c66_staggered :
  forall f a gt, find_s f None = Ok (a, gt) ->
  forall a1 a2 names mattr mname, In ((a1, a2), names, (mattr, mname)) s_names ->
  (forall n1 n2, FirstWith (PairIn f) names (n1, n2) ->
     (exists v1 v2, Named f n1 v1 /\ Named f n2 v2 /\ dget a a1 = Some (SVar v1) /\ dget a a2 = Some (SVar v2)) /\
     dget gt a1 = Some n1 /\ dget gt a2 = Some n2 /\
     (forall m, Named f mname m -> dget a mattr = Some (SVar m) /\ dget gt mattr = Some mname) /\
     (~ InFile f mname -> dget a mattr = None /\ dget gt mattr = None)) /\
  (NoneWith (PairIn f) names -> dget a a1 = None /\ dget a a2 = None /\ dget a mattr = None /\ dget gt mattr = None).
Proof.
  intros f a gt H. unfold find_s in H. apply bind_ok in H. destruct H as ([a0 gt0] & H0 & H).
  assert (Ha0 : exists lon lat, a0 = [("node_lon", lon); ("node_lat", lat)] /\
    (exists n1 n2, gt0 = [("node_lon", n1); ("node_lat", n2)] \/ gt0 = [("node_coordinates", n1)])).
  { destruct (base_spec f) as [(lon & lat & gt' & _ & E)|(E & _)]; rewrite E in H0; [|discriminate].
    injection H0 as <- <-. exists lon, lat. split; auto.
    destruct (c66_coordinate_topology f _ _ E) as [(n1 & n2 & _ & ->)|(n & _ & ->)]; [exists n1, n2|exists n, n]; auto. }
  destruct Ha0 as (lon & lat & -> & n1 & n2 & Hgt0).
  assert (HL : Forall (fun e => match e with (_, names, (_, mname)) =>
     Forall (fun p => is_lower (fst p) /\ is_lower (snd p)) names /\ is_lower mname end) s_names)
    by (repeat constructor).
  rewrite Forall_forall in HL.
  assert (HP : forall e, In e s_names -> match e with (_, names, (_, mname)) =>
     match find_pair (lower_vars f) names with
     | Some ((m1, v1), (m2, v2)) => FirstWith (PairIn f) names (m1, m2) /\ Named f m1 v1 /\ Named f m2 v2
     | None => NoneWith (PairIn f) names end /\
     match dget (lower_vars f) mname with Some m => Named f mname m | None => ~ InFile f mname end end).
  { intros [[pa names] [mattr mname]] He. specialize (HL _ He). cbn in HL. destruct HL as [HN HM]. split.
    - apply find_pair_spec. auto.
    - destruct (dget (lower_vars f) mname) eqn:E; [apply lower_vars_named; auto|apply lower_vars_none; auto]. }
  assert (HU : forall e, In e s_names -> match e with (_, _, (_, mname)) =>
     forall m m', Named f mname m -> Named f mname m' -> m = m' end).
  { intros [[pa names] [mattr mname]] He m m'. specialize (HL _ He). cbn in HL. apply named_unique. apply HL. }
  clear HL H0.
  assert (HI : forall k, k <> "node_lon" -> k <> "node_lat" -> k <> "node_coordinates" ->
    dget [("node_lon", lon); ("node_lat", lat)] k = None /\ dget gt0 k = None).
  { intros k K1 K2 K3. apply String.eqb_neq in K1, K2, K3. cbn [dget]. rewrite K1, K2. split; auto.
    destruct Hgt0 as [-> | ->]; cbn [dget]; rewrite ?K1, ?K2, ?K3; auto. }
  clear Hgt0. set (st0 := ([("node_lon", lon); ("node_lat", lat)], gt0)) in *.
  match type of H with (let (_, _) := ?X in _) = _ => remember X as st eqn:Est end. destruct st as [ax gx].
  assert (HA : forall k, k <> "node_mask" -> dget a k = dget ax k /\ dget gt k = dget gx k).
  { intros k Hk. apply String.eqb_neq in Hk. cbv zeta in H.
    destruct (dget (lower_vars f) "mask_psi"); injection H as <- <-; rewrite ?dget_dset, Hk; auto. }
  clear H. intros a1 a2 names mattr mname Hin. pose proof (HP _ Hin) as [P M]. pose proof (HU _ Hin) as U. cbv beta iota in U.
  assert (HF : forall k, In k [a1; a2; mattr] ->
     dget a k = dget (fst (s_one (lower_vars f) ([], []) ((a1, a2), names, (mattr, mname)))) k /\
     dget gt k = dget (snd (s_one (lower_vars f) ([], []) ((a1, a2), names, (mattr, mname)))) k).
  { pose proof (f_equal fst Est) as Hfst. pose proof (f_equal snd Est) as Hsnd. cbn [fst snd s_names fold_left] in Hfst, Hsnd.
    fold st0 in Hfst, Hsnd.
    intros k Hk. unfold s_names in Hin. cbn [In] in Hin.
    destruct Hin as [E|[E|[E|[]]]]; injection E as <- <- <- <- <-; cbn [In] in Hk;
      (destruct Hk as [<-|[<-|[<-|[]]]]); 
      (match goal with |- dget a ?k = _ /\ _ =>
         let E := fresh in assert (E : k <> "node_mask") by discriminate;
         rewrite (proj1 (HA k E)), (proj2 (HA k E)), Hfst, Hsnd end);
      repeat first
        [ rewrite s_one_other by (cbn; intuition discriminate)
        | rewrite s_one_other' by (cbn; intuition discriminate) ];
      (apply s_one_own; [cbn; tauto|]);
      repeat first
        [ rewrite s_one_other by (cbn; intuition discriminate)
        | rewrite s_one_other' by (cbn; intuition discriminate) ];
      subst st0; cbn [fst snd]; apply HI; discriminate. }
  assert (ND : a1 <> a2 /\ a1 <> mattr /\ a2 <> mattr).
  { unfold s_names in Hin. cbn [In] in Hin.
    destruct Hin as [E|[E|[E|[]]]]; injection E as <- <- <- <- <-; repeat split; discriminate. }
  destruct ND as (D1 & D2 & D3).
  destruct (HF a1 ltac:(cbn; auto)) as [A1 G1]. destruct (HF a2 ltac:(cbn; auto)) as [A2 G2].
  destruct (HF mattr ltac:(cbn; auto)) as [A3 G3]. clear HF. cbn [s_one] in *.
  rewrite A1, A2, A3, G1, G2, G3.
  apply String.eqb_neq in D1, D2, D3. pose proof D1 as D1'. pose proof D2 as D2'. pose proof D3 as D3'.
  rewrite String.eqb_sym in D1', D2', D3'.
  destruct (find_pair (lower_vars f) names) as [[[m1 v1] [m2 v2]]|].
  - destruct P as (F1 & N1 & N2). split; [|intros N; exfalso; eapply first_none; eauto].
    intros p1 p2 F2. assert (E : (p1, p2) = (m1, m2)) by (eapply first_unique; eauto). injection E as -> ->.
    destruct (dget (lower_vars f) mname) as [m|]; cbn [fst snd];
      rewrite !dget_dset, ?String.eqb_refl, ?D1, ?D2, ?D3, ?D1', ?D2', ?D3'.
    + split; [exists v1, v2; auto|]. split; auto. split; auto. split.
      * intros m' Hm'. rewrite (U _ _ Hm' M). auto.
      * intros Hno. exfalso. apply Hno. destruct M as (pre & post & E & C & _). exists m. rewrite E. split; auto. apply in_elt.
    + split; [exists v1, v2; auto|]. split; auto. split; auto. split; auto.
      intros m' (pre & post & E & C & _). exfalso. apply M. exists m'. rewrite E. split; auto. apply in_elt.
  - split; [|auto]. intros p1 p2 F2. exfalso. eapply first_none; eauto.
Qed.
Print Assumptions c66_staggered.
(** The unstructured arguments found by name: the first face variable, its
    normalised rows, and its name in the returned topology. *)
Theorem c66_unstructured :
  forall f a gt, find_u f None = Ok (a, gt) ->
  exists lon lat n v k rows, Coords f lon lat /\
    FirstWith (InFile f) ["faces"; "tris"; "nv"; "ele"; "nele"] n /\ Named f n v /\
    count lon = Ok k /\ normal_faces (gv_rows v) k = Ok rows /\
    dget a "node_lon" = Some lon /\ dget a "node_lat" = Some lat /\ dget a "faces" = Some (SFaces rows) /\
    dget gt "faces" = Some n.
Proof.
  intros f a gt H. unfold find_u in H. apply bind_ok in H. destruct H as ([a0 gt0] & H0 & H).
  destruct (base_spec f) as [(lon & lat & gt' & HC & E)|(E & _)]; rewrite E in H0; [|discriminate].
  injection H0 as <- <-. apply bind_ok in H. destruct H as ([v gt1] & H1 & H).
  pose proof (find_first_spec f _ face_names_lower) as F.
  destruct (find_first (lower_vars f) face_var_names) as [[n w]|]; [|discriminate].
  injection H1 as <- <-. destruct F as [F N].
  apply bind_ok in H. destruct H as (s & Hs & H). cbn in Hs. injection Hs as <-.
  apply bind_ok in H. destruct H as (k & Hk & H).
  apply bind_ok in H. destruct H as (rows & Hr & H). injection H as <- <-.
  exists lon, lat, n, w, k, rows. rewrite !dget_dset. cbn [String.eqb Ascii.eqb Bool.eqb dget].
  repeat split; auto.
Qed.
Print Assumptions c66_unstructured.
Example c66_unstructured_ex :
  exists f a, find_u f None = Ok (a, [("node_lon", "lon"); ("node_lat", "lat"); ("faces", "nv")]) /\ dget a "faces" = Some (SFaces [[0; 1; 2]; [0; 2; 3]]%Z).
Proof.
  exists (mkGfile None [mkGvar "lon" None false false [4]%nat []; mkGvar "lat" None false false [4]%nat [];
     mkGvar "NV" None false false [2; 3]%nat [[1; 2; 3]; [1; 3; 4]]%Z]). eexists. split; vm_compute; reflexivity.
Qed.
(** With an explicit topology the topology comes back unchanged, and each
    staggered coordinate and mask it names in lower case is used. *)
Lemma s_topology_keeps : forall d t a k, ~ In k (map fst t) -> dget (s_topology d t a) k = dget a k.
Proof.
  unfold s_topology. induction t as [|[n v] t IH]; intros a k H; auto. cbn [fold_left map fst snd In] in *.
  rewrite IH by tauto. destruct (dget d v); auto. destruct (isin n (s_coord_attrs ++ s_mask_attrs)); auto.
  rewrite dget_dset. destruct (String.eqb k n) eqn:E; auto. apply String.eqb_eq in E. subst. tauto.
Qed.
Theorem c66_staggered_topology :
  forall f t a gt, find_s f (Some t) = Ok (a, gt) -> NoDup (map fst t) ->
  gt = t /\
  forall attr n v, In attr ["center_lon"; "center_lat"; "edge1_lon"; "edge1_lat"; "edge2_lon"; "edge2_lat";
                            "node_mask"; "center_mask"; "edge1_mask"; "edge2_mask"] ->
  In (attr, n) t -> lower n = n -> Named f n v -> dget a attr = Some (SVar v).
Proof.
  intros f t a gt H ND. unfold find_s in H. apply bind_ok in H. destruct H as ([a0 gt0] & H0 & H).
  injection H as <- <-. split; auto. clear H0. intros attr n v Ha Hi Hn Hv.
  apply (lower_vars_named f n v Hn) in Hv.
  assert (IA : isin attr (s_coord_attrs ++ s_mask_attrs) = true) by (apply isin_in; exact Ha).
  unfold s_topology. revert a0 ND Hi. induction t as [|[m w] t IH]; intros a0 ND Hi; [destruct Hi|].
  cbn [fold_left fst snd]. inversion ND as [|? ? Nm ND']; subst. destruct Hi as [E|Hi].
  - injection E as -> ->. fold (s_topology (lower_vars f) t). rewrite Hv, IA.
    change (dget (s_topology (lower_vars f) t (dset a0 attr (SVar v))) attr = Some (SVar v)).
    rewrite s_topology_keeps by auto. now rewrite dget_dset, String.eqb_refl.
  - apply IH; auto.
Qed.
Print Assumptions c66_staggered_topology.
Example c66_staggered_topology_ex :
  exists f a t, find_s f (Some t) = Ok (a, t) /\ NoDup (map fst t) /\ In ("center_mask", "wet") t /\
    dget a "center_mask" = Some (SVar (mkGvar "wet" None false false [3; 3]%nat [])).
Proof.
  exists (mkGfile None [mkGvar "lon" None false false [4; 4]%nat []; mkGvar "lat" None false false [4; 4]%nat [];
     mkGvar "wet" None false false [3; 3]%nat []]). eexists.
  exists [("node_lon", "lon"); ("node_lat", "lat"); ("center_mask", "wet")].
  split; [vm_compute; reflexivity|]. split; [repeat constructor; cbn; intuition discriminate|]. split; [cbn; auto|reflexivity].
Qed.
(** An explicit topology is looked up in the lower-cased names, so a
    correctly spelt name with capitals is not found; and the composite keys
    look for a variable called like the key. *)
Theorem c66_topology_case_refuted :
  exists f v, In v (gf_vars f) /\ find_base f (Some [("node_lon", gv_name v); ("node_lat", "lat")]) = Err KeyError.
Proof.
  exists (mkGfile None [mkGvar "Lon" None false false [4]%nat []; mkGvar "lat" None false false [4]%nat []]).
  eexists. split; [left; reflexivity|]. vm_compute. reflexivity.
Qed.
Print Assumptions c66_topology_case_refuted.
Theorem c66_composite_key_refuted :
  exists f, gf_vars f = [mkGvar "mesh_xy" None false false [4; 2]%nat []] /\
    find_base f (Some [("nodes", "mesh_xy")]) = Err KeyError.
Proof. eexists (mkGfile None _). split; [reflexivity|]. vm_compute. reflexivity. Qed.
Print Assumptions c66_composite_key_refuted.
(** Lower-case names in an explicit topology are found. *)
Theorem c66_topology_lower_case :
  forall f lon lat vlon vlat, lower lon = lon -> lower lat = lat -> Named f lon vlon -> Named f lat vlat ->
  find_base f (Some [("node_lon", lon); ("node_lat", lat)]) =
    Ok ([("node_lon", SVar vlon); ("node_lat", SVar vlat)], [("node_lon", lon); ("node_lat", lat)]).
Proof.
  intros f lon lat vlon vlat L1 L2 N1 N2. apply (lower_vars_named f lon vlon L1) in N1. apply (lower_vars_named f lat vlat L2) in N2.
  unfold find_base. cbn [base_topology isin existsb String.eqb Ascii.eqb Bool.eqb orb composite_names].
  unfold get_var. rewrite N1. cbn [bind]. rewrite N2. reflexivity.
Qed.
Print Assumptions c66_topology_lower_case.
(** The returned topology names a node mask the file does not have. *)
Theorem c66_phantom_mask_refuted :
  exists f a gt, find_s f None = Ok (a, gt) /\ dget gt "node_mask" = Some "mask_psi" /\ ~ InFile f "mask_psi".
Proof.
  exists (mkGfile None [mkGvar "lon_psi" None false false [3; 4]%nat []; mkGvar "lat_psi" None false false [3; 4]%nat []]).
  do 2 eexists. split; [vm_compute; reflexivity|]. split; [reflexivity|].
  intros (v & [<-|[<-|[]]] & C); apply lower_eq in C; discriminate.
Qed.
Print Assumptions c66_phantom_mask_refuted.
Example c66_example :
  exists a gt, find_u fvcom None = Ok (a, gt) /\ dget a "faces" = Some (SFaces [[0; 1; 2]; [1; 3; 2]]%Z) /\
    dget gt "node_lon" = Some "lon" /\ Coords fvcom (SVar (nth 0 (gf_vars fvcom) (mkGvar "" None false false [] []))) (SVar (nth 1 (gf_vars fvcom) (mkGvar "" None false false [] []))).
Proof.
  do 2 eexists. split; [vm_compute; reflexivity|]. split; [reflexivity|]. split; [reflexivity|].
  destruct (base_spec fvcom) as [(lon & lat & gt & HC & E)|(E & _)]; vm_compute in E; [|discriminate].
  injection E as <- <- <-. exact HC.
Qed.
