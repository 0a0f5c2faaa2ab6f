(** C59: index conventions of UGRID files.  C71: meshes, coordinates, and
    saving and loading a grid. *)
From Coq Require Import String Ascii QArith.
From Verif Require Import Common CommonProofs MaskModel MaskSpec MaskProofs GridTypeModel GridTypeProofs ChainModel VerdatModel
  UGridModel UFileModel UFileSpec UFileProofs.
From Verif Require SVarSpec SVarProofs.
Open Scope string_scope.
Open Scope list_scope.
Open Scope nat_scope.

(** ** C59 *)
(** A table in row order with a start index is read as it was, flags and
    masked entries included, unless it has exactly as many rows as a row has
    entries. *)
Theorem c59_rows_partial : forall num n v s t, fv_start_index v = Some s -> (0 <= s)%Z ->
  Stored s (fv_flag_values v) t (fv_table v) -> length t <> num -> read_table num n v = Ok t.
Proof.
  intros num n v s t S P H L. unfold read_table. rewrite S. cbn [bind].
  destruct (stored_shape _ _ _ _ H) as [La _]. rewrite La. destruct (Nat.eqb_spec (length t) num); [contradiction|].
  f_equal. now apply (shifted_from s).
Qed.
Print Assumptions c59_rows_partial.
(** A table in Fortran order is turned. *)
Theorem c59_columns : forall num n v s t u, fv_start_index v = Some s -> (0 <= s)%Z -> 0 < num ->
  Rect num t -> Flipped num t u -> Stored s (fv_flag_values v) u (fv_table v) -> read_table num n v = Ok t.
Proof.
  intros num n v s t u S P Pn R F H. unfold read_table. rewrite S. cbn [bind].
  destruct (stored_shape _ _ _ _ H) as [La Ra]. pose proof F as (Lu & Ru & Eu). rewrite La, Lu, Nat.eqb_refl.
  f_equal. apply (shifted_from s); auto.
  rewrite <- (transposed_flipped num t u Pn R F).
  (* transposition commutes with storing *)
  assert (Nu : u <> []) by (destruct u; [cbn in Lu; lia|discriminate]).
  assert (Na : fv_table v <> []) by (destruct (fv_table v); [cbn in La; lia|discriminate]).
  unfold transposed, Stored. rewrite (width_rect _ _ Ru Nu), (width_rect _ _ (Ra _ Ru) Na).
  clear - H Ru.
  assert (G : forall l, (forall j, In j l -> j < length t) ->
    Forall2 (Forall2 (StoredEntry s (fv_flag_values v))) (map (fun j => map (fun row => nth j row None) u) l)
            (map (fun j => map (fun row => nth j row None) (fv_table v)) l)).
  { induction l as [|j l IH]; intros B; constructor; [|apply IH; intros k Hk; apply B; now right].
    assert (Bj : j < length t) by (apply B; now left). clear - H Ru Bj.
    unfold Stored in H. induction H as [|r r' u a Hr _ IH]; constructor.
    - inversion Ru as [|? ? Er Ru']; subst. rewrite <- Er in Bj. clear - Hr Bj. revert j Bj.
      induction Hr; intros j Bj; [cbn in Bj; lia|]. destruct j; cbn in *; auto. apply IHHr. lia.
    - inversion Ru; subst. apply IH; auto. }
  apply G. intros j Hj. apply in_seq in Hj. lia.
Qed.
Print Assumptions c59_columns.
Definition conn (start flag : option Z) (t : table) : fvar := mkFvar "faces" [] None [] t start flag.
Example c59_ex :
  read_table 3 9 (conn (Some 1%Z) (Some 999%Z) [[Some 1; Some 2; Some 999]; [Some 9; None; Some 3]]%Z)
  = Ok [[Some 0; Some 1; Some 999]; [Some 8; None; Some 2]]%Z /\
  read_table 3 9 (conn (Some 1%Z) None [[Some 1; Some 4]; [Some 2; Some 5]; [Some 3; Some 6]]%Z)
  = Ok [[Some 0; Some 1; Some 2]; [Some 3; Some 4; Some 5]]%Z.
Proof. split; reflexivity. Qed.
(** Without start_index: zero-based tables of nodes are read as they are ... *)
Theorem c59_no_start_zero : forall num n v t, fv_start_index v = None -> fv_table v = t -> length t <> num -> Nonempty t ->
  (forall x, Occurs x t -> (x < Z.of_nat n)%Z) -> read_table num n v = Ok t.
Proof.
  intros num n v t S T L N B. unfold read_table. rewrite S, T. destruct (Nat.eqb_spec (length t) num); [contradiction|].
  destruct (table_max_bound t (Z.of_nat n) N B) as (m & -> & M). cbn [bind].
  destruct m as [m|]; [|reflexivity]. destruct (Z.eqb_spec m (Z.of_nat n)); [lia|]. reflexivity.
Qed.
Print Assumptions c59_no_start_zero.
(** ... and one-based ones are recognised when they use the last node. *)
Theorem c59_no_start_one : forall num n v t, fv_start_index v = None -> Stored 1 (fv_flag_values v) t (fv_table v) ->
  length t <> num -> Occurs (Z.of_nat n) (fv_table v) -> (forall x, Occurs x (fv_table v) -> (x <= Z.of_nat n)%Z) ->
  read_table num n v = Ok t.
Proof.
  intros num n v t S H L O B. unfold read_table. rewrite S.
  destruct (stored_shape _ _ _ _ H) as [La _]. rewrite La. destruct (Nat.eqb_spec (length t) num); [contradiction|].
  rewrite (table_max_some _ _ O B). cbn [bind]. rewrite Z.eqb_refl. f_equal. now apply (shifted_from 1).
Qed.
Print Assumptions c59_no_start_one.
Example c59_no_start_ex :
  read_table 3 4 (conn None None [[Some 1; Some 2; Some 3]; [Some 2; Some 3; Some 4]]%Z) = Ok [[Some 0; Some 1; Some 2]; [Some 1; Some 2; Some 3]]%Z
  /\ read_table 3 4 (conn None None [[Some 0; Some 2; Some 3]; [Some 2; Some 3; Some 1]]%Z) = Ok [[Some 0; Some 2; Some 3]; [Some 2; Some 3; Some 1]]%Z.
Proof. split; reflexivity. Qed.
(** False in general.  Three triangles (two edges, two boundary segments) are
    turned though their start index and order are in plain sight. *)
Theorem c59_three_faces_refuted : exists v t, fv_start_index v = Some 0%Z /\ Stored 0 None t (fv_table v) /\ Rect 3 t /\
  read_table 3 5 v <> Ok t.
Proof.
  exists (conn (Some 0%Z) None [[Some 0; Some 1; Some 2]; [Some 1; Some 3; Some 2]; [Some 2; Some 3; Some 4]]%Z),
    [[Some 0; Some 1; Some 2]; [Some 1; Some 3; Some 2]; [Some 2; Some 3; Some 4]]%Z.
  split; [reflexivity|]. split; [|split; [unfold Rect; repeat constructor|vm_compute; discriminate]].
  apply (stored_shift 0 [[Some 0; Some 1; Some 2]; [Some 1; Some 3; Some 2]; [Some 2; Some 3; Some 4]]%Z).
Qed.
Print Assumptions c59_three_faces_refuted.
(** Quadrilaterals in Fortran order are not turned: the test is for three. *)
Theorem c59_quads_refuted : exists v t u, fv_start_index v = Some 0%Z /\ Rect 4 t /\ Flipped 4 t u /\ fv_table v = u /\
  read_table 3 9 v <> Ok t.
Proof.
  exists (conn (Some 0%Z) None [[Some 0; Some 3]; [Some 1; Some 2]; [Some 4; Some 5]; [Some 6; Some 7]]%Z),
    [[Some 0; Some 1; Some 4; Some 6]; [Some 3; Some 2; Some 5; Some 7]]%Z,
    [[Some 0; Some 3]; [Some 1; Some 2]; [Some 4; Some 5]; [Some 6; Some 7]]%Z.
  split; [reflexivity|]. split; [repeat constructor|]. split; [|split; [reflexivity|vm_compute; discriminate]].
  split; [reflexivity|]. split; [repeat constructor|]. intros i j Hi Hj. cbn in Hi.
  destruct i as [|[|i]]; [| |lia]; destruct j as [|[|[|[|j]]]]; try lia; reflexivity.
Qed.
Print Assumptions c59_quads_refuted.
(** The marker -1 without a flag_values attribute becomes -2: such faces are
    refused, such neighbours are silently wrong. *)
Theorem c59_minus_one_refuted : exists v t, fv_start_index v = Some 1%Z /\ fv_flag_values v = None /\
  fv_table v = [[Some 1; Some 2; Some 3; Some (-1)]; [Some 2; Some 3; Some 4; Some 5]]%Z /\
  read_table 3 5 v = Ok t /\ t = [[Some 0; Some 1; Some 2; Some (-2)]; [Some 1; Some 2; Some 3; Some 4]]%Z /\
  assign_faces 5 t = Err ValueError /\ assign_face_face (Some t) t = Ok t.
Proof. exists (conn (Some 1%Z) None [[Some 1; Some 2; Some 3; Some (-1)]; [Some 2; Some 3; Some 4; Some 5]]%Z). eexists. repeat split. Qed.
Print Assumptions c59_minus_one_refuted.
(** Without start_index a one-based table that leaves out the last node is
    taken as zero-based; and a table of face numbers is measured against the
    number of nodes. *)
Theorem c59_guess_refuted :
  (exists v t, fv_start_index v = None /\ Stored 1 None t (fv_table v) /\ (forall x, Occurs x t -> (0 <= x < 5)%Z) /\
     read_table 3 5 v = Ok (fv_table v) /\ fv_table v <> t) /\
  (exists v t, fv_start_index v = None /\ fv_table v = t /\ (forall x, Occurs x t -> (0 <= x < 6)%Z) /\ read_table 3 5 v <> Ok t).
Proof.
  split.
  - exists (conn None None [[Some 1; Some 2; Some 3]; [Some 2; Some 3; Some 4]]%Z), [[Some 0; Some 1; Some 2]; [Some 1; Some 2; Some 3]]%Z.
    split; [reflexivity|]. split.
    { apply (stored_shift 1 [[Some 0; Some 1; Some 2]; [Some 1; Some 2; Some 3]]%Z). }
    split; [|split; [reflexivity|discriminate]].
    intros x (r & Hr & Hx). cbn in Hr. repeat destruct Hr as [<-|Hr]; try contradiction; cbn in Hx;
      repeat destruct Hx as [E|Hx]; try contradiction; injection E as <-; lia.
  - exists (conn None None [[Some 1; Some 2; Some 5]; [Some 0; Some 3; Some 4]]%Z). eexists. split; [reflexivity|]. split; [reflexivity|].
    split; [|vm_compute; discriminate].
    intros x (r & Hr & Hx). cbn in Hr. repeat destruct Hr as [<-|Hr]; try contradiction; cbn in Hx;
      repeat destruct Hx as [E|Hx]; try contradiction; injection E as <-; lia.
Qed.
Print Assumptions c59_guess_refuted.

(** ** C71 *)
(** Which mesh is loaded. *)
Theorem c71_only_mesh : forall f n, NoDup (map fv_name f) ->
  (choose_mesh f None = Ok n <-> exists v, SVarSpec.OnlyWith MeshVar f v /\ fv_name v = n).
Proof.
  intros f n N. unfold choose_mesh. rewrite mesh_names by auto. split.
  - destruct (filter is_mesh f) as [|v [|w r]] eqn:E; cbn; try discriminate. intros H. injection H as <-.
    exists v. split; auto. now apply (SVarProofs.filter_one _ _ _ _ is_mesh_iff).
  - intros (v & O & <-). apply (SVarProofs.filter_one _ _ _ _ is_mesh_iff) in O. now rewrite O.
Qed.
Print Assumptions c71_only_mesh.
Theorem c71_named_mesh : forall f n, NoDup (map fv_name f) ->
  (choose_mesh f (Some n) = Ok n <-> exists v, In v f /\ fv_name v = n /\ MeshVar v) /\
  forall r, choose_mesh f (Some n) = r -> r = Ok n \/ r = Err ValueError.
Proof.
  intros f n N. unfold choose_mesh, is_valid_mesh. split.
  - destruct (fget f n) as [v|] eqn:E.
    + pose proof (fget_in _ _ _ E) as [I En]. rewrite <- En in E. split.
      * destruct (is_mesh v) eqn:M; [|discriminate]. intros _. exists v. repeat split; auto; now apply is_mesh_iff.
      * intros (w & Iw & Ew & Mw). rewrite <- Ew in En. pose proof (fget_of f w N Iw) as G. rewrite <- En, E in G. injection G as ->.
        apply is_mesh_iff in Mw. rewrite Mw. reflexivity.
    + split; [discriminate|]. intros (w & Iw & Ew & _). rewrite <- Ew, (fget_of f w N Iw) in E. discriminate.
  - intros r <-. destruct (match fget f n with Some v => is_mesh v | None => false end); auto.
Qed.
Print Assumptions c71_named_mesh.
Theorem c71_no_mesh : forall f, (forall n, choose_mesh f None <> Ok n) -> choose_mesh f None = Err ValueError.
Proof.
  intros f H. unfold choose_mesh in *. destruct (find_mesh_names f) as [|n [|]]; auto. exfalso. now apply (H n).
Qed.
Print Assumptions c71_no_mesh.
Definition meshv (n role : string) (d : Z) : fvar := mkFvar n [("cf_role", role)] (Some d) [] [] None None.
Example c71_mesh_ex : choose_mesh [conn None None []; meshv "m2" " mesh_topology " 1; meshv "m3" "mesh_topology" 3] None = Ok "m2" /\
  choose_mesh [meshv "a" "mesh_topology" 2; meshv "b" "mesh_topology" 2] None = Err ValueError /\
  choose_mesh [meshv "a" "mesh_topology" 2; meshv "b" "mesh_topology" 2] (Some "b") = Ok "b".
Proof. repeat split. Qed.

(** Coordinates. *)
Lemma lon_axis v : LonVar v -> exists s, axis_name v = Ok s /\ isin s ["latitude"; "projection_y_coordinate"] = false /\
  isin s ["longitude"; "projection_x_coordinate"] = true.
Proof.
  unfold axis_name. intros [(s & -> & I)|[-> (u & -> & I)]].
  - exists s. cbn in I. destruct I as [<-|[<-|[]]]; auto.
  - change (In u east_units) in I. apply isin_in in I. rewrite I. exists "longitude". auto.
Qed.
Lemma lat_axis v : LatVar v -> exists s, axis_name v = Ok s /\ isin s ["latitude"; "projection_y_coordinate"] = true.
Proof.
  unfold axis_name. intros [(s & -> & I)|[-> (u & -> & I)]].
  - exists s. split; auto. now apply isin_in.
  - change (In u north_units) in I. exists "latitude". split; auto.
    destruct (isin u east_units) eqn:E.
    + exfalso. apply isin_in in E. cbn in I, E. repeat destruct I as [<-|I]; try contradiction; repeat destruct E as [E|E]; try discriminate; contradiction.
    + apply isin_in in I. now rewrite I.
Qed.
Lemma spread_same n l : length l = n -> spread n l = Ok l.
Proof. intros <-. unfold spread. now rewrite Nat.eqb_refl. Qed.
Lemma lon_step a v : LonVar v -> length (fv_values v) = length a -> coord_step a v = Ok (set_lon a (fv_values v)).
Proof.
  intros L H. unfold coord_step. destruct (lon_axis v L) as (s & -> & E1 & E2). cbn [bind]. rewrite E1, E2, spread_same; auto.
Qed.
Lemma lat_step a v : LatVar v -> length (fv_values v) = length a -> coord_step a v = Ok (set_lat a (fv_values v)).
Proof. intros L H. unfold coord_step. destruct (lat_axis v L) as (s & -> & E1). cbn [bind]. rewrite E1, spread_same; auto. Qed.
Lemma len_lon a l : length a = length l -> length (set_lon a l) = length l.
Proof. intros H. unfold set_lon. rewrite map_length, combine_length. lia. Qed.
Lemma len_lat a l : length a = length l -> length (set_lat a l) = length l.
Proof. intros H. unfold set_lat. rewrite map_length, combine_length. lia. Qed.
Lemma both_ways : forall (a : list coord) lon lat, length a = length lon -> length lon = length lat ->
  set_lat (set_lon a lon) lat = pairs lon lat /\ set_lon (set_lat a lat) lon = pairs lon lat.
Proof.
  unfold set_lat, set_lon, pairs. induction a as [|c a IH]; intros [|x lon] [|y lat] H1 H2; try discriminate; auto.
  cbn in H1, H2. destruct (IH lon lat) as [E1 E2]; [lia|lia|]. cbn. rewrite E1, E2. auto.
Qed.
(** The attribute names two variables in either order. *)
Theorem c71_coordinates : forall f mesh role required text a b va vb lon lat,
  dget (fv_attrs mesh) role = Some text -> Words text [a; b] -> fget f a = Some va -> fget f b = Some vb ->
  length (fv_values va) = length (fv_values vb) ->
  (LonVar va /\ LatVar vb /\ lon = fv_values va /\ lat = fv_values vb) \/
  (LatVar va /\ LonVar vb /\ lon = fv_values vb /\ lat = fv_values va) ->
  read_coords f mesh role required = Ok (Some (pairs lon lat)).
Proof.
  intros f mesh role required text a b va vb lon lat D W Fa Fb L H. unfold read_coords. rewrite D, split_strip, (split_unique _ _ W).
  cbn [mapM_res]. rewrite Fa, Fb. cbn [bind coord_steps].
  set (z := repeat (None, None) (length (fv_values va))).
  assert (Lz : length z = length (fv_values va)) by apply repeat_length.
  destruct H as [(La & Lb & -> & ->)|(La & Lb & -> & ->)].
  - rewrite lon_step by auto. cbn [bind]. rewrite lat_step by (auto; rewrite len_lon by auto; auto). cbn [bind].
    now rewrite (proj1 (both_ways z _ _ Lz L)).
  - rewrite lat_step by auto. cbn [bind]. rewrite lon_step by (auto; rewrite len_lat by auto; auto). cbn [bind].
    rewrite (proj2 (both_ways z _ _ (eq_trans Lz L) (eq_sym L))). reflexivity.
Qed.
Print Assumptions c71_coordinates.
(** Missing attributes and variables. *)
Theorem c71_missing : forall f mesh role,
  (dget (fv_attrs mesh) role = None -> read_coords f mesh role true = Err ValueError /\ read_coords f mesh role false = Ok None) /\
  (forall text l n, dget (fv_attrs mesh) role = Some text -> Words text l -> In n l -> fget f n = None ->
     forall required, read_coords f mesh role required = Err ValueError).
Proof.
  intros f mesh role. split.
  - intros E. unfold read_coords. rewrite E. auto.
  - intros text l n E W I F required. unfold read_coords. rewrite E, split_strip, (split_unique _ _ W).
    replace (mapM_res (fun n => match fget f n with Some v => Ok v | None => Err ValueError end) l) with (@Err (list fvar) ValueError); auto.
    clear W. induction l as [|m l IH]; [destruct I|]. cbn [mapM_res]. destruct (fget f m) as [w|] eqn:Fm; [|reflexivity].
    destruct I as [->|I]; [congruence|]. cbn [bind]. now rewrite <- (IH I).
Qed.
Print Assumptions c71_missing.
Definition axisv (n : string) (at_ : dict string) (l : list Q) : fvar := mkFvar n at_ None l [] None None.
Example c71_coordinates_ex :
  let f := [axisv "y" [("units", "degree_N")] [5; 6]%Q; axisv "x" [("standard_name", "projection_x_coordinate")] [1; 2]%Q] in
  let m := mkFvar "m" [("node_coordinates", " y  x")] None [] [] None None in
  read_coords f m "node_coordinates" true = Ok (Some [(Some 1, Some 5); (Some 2, Some 6)]%Q).
Proof. reflexivity. Qed.
(** A mesh that names only longitudes loads, with arbitrary latitudes. *)
Theorem c71_one_coordinate_refuted : exists f m, 
  read_coords f m "node_coordinates" true = Ok (Some [(Some 1%Q, None); (Some 2%Q, None)]).
Proof.
  exists [axisv "x" [("standard_name", "longitude")] [1; 2]%Q], (mkFvar "m" [("node_coordinates", "x")] None [] [] None None). reflexivity.
Qed.
Print Assumptions c71_one_coordinate_refuted.

(** Saving and loading. *)
Lemma eqb_pre m : forall a b, String.eqb (m ++ a) (m ++ b) = String.eqb a b.
Proof. induction m as [|c m IH]; intros; cbn; auto. now rewrite Ascii.eqb_refl. Qed.
Lemma eqb_self m : forall a, a <> "" -> String.eqb (m ++ a) m = false.
Proof.
  induction m as [|c m IH]; intros a N; cbn; [now apply eqb_empty|]. rewrite Ascii.eqb_refl. now apply IH.
Qed.
Lemma fget_app f g n : fget (f ++ g) n = match fget f n with Some v => Some v | None => fget g n end.
Proof. unfold fget. induction f as [|v f IH]; cbn; auto. destruct (String.eqb n (fv_name v)); auto. Qed.
Lemma pair_words m a b : all_chars (fun c => ~ Blank c) m -> all_chars (fun c => ~ Blank c) a -> a <> "" ->
  all_chars (fun c => ~ Blank c) b -> b <> "" ->
  Words (m ++ a ++ " " ++ m ++ b)%string [(m ++ a)%string; (m ++ b)%string].
Proof.
  intros M A Na B Nb.
  replace (m ++ a ++ " " ++ m ++ b)%string with ("" ++ (m ++ a) ++ " " ++ ("" ++ (m ++ b) ++ ""))%string
    by (cbn; now rewrite !str_assoc, str_nil_r).
  apply words_cons; try exact I.
  - split; [destruct m; [exact Na|discriminate]|]. now apply all_app.
  - split; [now apply blank_iff|exact I].
  - discriminate.
  - apply words_one; try exact I. split; [destruct m; [exact Nb|discriminate]|]. now apply all_app.
Qed.
Lemma lon_var n c : LonVar (axis_var n true c).
Proof. left. exists "longitude". split; [reflexivity|now left]. Qed.
Lemma lat_var n c : LatVar (axis_var n false c).
Proof. left. exists "latitude". split; [reflexivity|now left]. Qed.
Lemma pairs_filled c : pairs (map fst c) (map snd c) = filled c.
Proof. unfold pairs, filled. induction c as [|p c IH]; cbn; auto. now rewrite IH. Qed.
Lemma read_saved f mesh role required m a b c : all_chars (fun c => ~ Blank c) m ->
  all_chars (fun c => ~ Blank c) a -> a <> "" -> all_chars (fun c => ~ Blank c) b -> b <> "" ->
  dget (fv_attrs mesh) role = Some (m ++ a ++ " " ++ m ++ b)%string ->
  fget f (m ++ a) = Some (axis_var (m ++ a) true c) -> fget f (m ++ b) = Some (axis_var (m ++ b) false c) ->
  read_coords f mesh role required = Ok (Some (filled c)).
Proof.
  intros M A Na B Nb D Fa Fb. rewrite <- pairs_filled.
  eapply c71_coordinates; [exact D|now apply pair_words|exact Fa|exact Fb| |].
  - cbn. now rewrite !map_length.
  - left. split; [apply lon_var|]. split; [apply lat_var|]. split; reflexivity.
Qed.
Lemma read_saved_table num n nm role t : length t <> num -> read_table num n (table_var nm role t) = Ok t.
Proof.
  intros L. unfold read_table. cbn. destruct (Nat.eqb_spec (length t) num); [contradiction|]. reflexivity.
Qed.
Fixpoint nonblankb (s : string) : bool := match s with "" => true | String c r => negb (is_blank c) && nonblankb r end.
Lemma nonblank_text s : nonblankb s = true -> all_chars (fun c => ~ Blank c) s.
Proof.
  induction s as [|c s IH]; cbn; auto. rewrite andb_true_iff, negb_true_iff. intros [B H]. split; auto.
  intros N. apply blank_iff in N. congruence.
Qed.
Lemma dget_app (d e : dict string) k : dget (d ++ e) k = match dget d k with Some v => Some v | None => dget e k end.
Proof. induction d as [|[k' v] d IH]; cbn; auto. now destruct (String.eqb k k'). Qed.
Lemma dget_given {A} (o : option A) d k : dget (given o d) k = match o with Some _ => dget d k | None => None end.
Proof. now destruct o. Qed.
Lemma opt_none {A B} (o : option A) : match o with Some _ => @None B | None => None end = None.
Proof. now destruct o. Qed.
Lemma mesh_attrs g : let m := s_mesh g in let d := dget (fv_attrs (mesh_var g)) in
  d "node_coordinates" = Some (m ++ "_node_lon" ++ " " ++ m ++ "_node_lat")%string /\
  d "face_coordinates" = match s_faces g, s_face_coords g with Some _, Some _ => Some (m ++ "_face_lon" ++ " " ++ m ++ "_face_lat")%string | _, _ => None end /\
  d "edge_coordinates" = match s_edges g, s_edge_coords g with Some _, Some _ => Some (m ++ "_edge_lon" ++ " " ++ m ++ "_edge_lat")%string | _, _ => None end /\
  d "boundary_coordinates" = None /\
  d "face_node_connectivity" = match s_faces g with Some _ => Some (m ++ "_face_nodes")%string | None => None end /\
  d "edge_node_connectivity" = match s_edges g with Some _ => Some (m ++ "_edge_nodes")%string | None => None end /\
  d "boundary_node_connectivity" = match s_bounds g with Some _ => Some (m ++ "_boundary_nodes")%string | None => None end /\
  d "face_face_connectivity" = match s_face_face g with Some _ => Some (m ++ "_face_links")%string | None => None end.
Proof.
  destruct g as [m nodes faces ff fe bounds edges fc ec bc]. cbn zeta. cbn [s_mesh s_faces s_face_face s_bounds s_edges s_face_coords s_edge_coords].
  unfold mesh_var. cbn [fv_attrs s_mesh s_faces s_face_face s_face_edge s_bounds s_edges s_face_coords s_edge_coords].
  split; [reflexivity|]. repeat split; rewrite !dget_app, !dget_given, !dget_app, !dget_given;
    cbn [dget String.eqb Ascii.eqb Bool.eqb]; rewrite ?opt_none;
    try (destruct faces; [destruct fc|]; reflexivity); try (destruct edges; [destruct ec|]; reflexivity); try reflexivity;
    try (now destruct bounds); now destruct ff.
Qed.
Theorem c71_round_trip_partial : forall g (mesh_name : option string),
  all_chars (fun c => ~ Blank c) (s_mesh g) -> (mesh_name = None \/ mesh_name = Some (s_mesh g)) ->
  (forall t, s_faces g = Some t -> ValidFaces (length (s_nodes g)) t) ->
  NotRows 3 (s_faces g) -> NotRows 2 (s_edges g) -> NotRows 2 (s_bounds g) ->
  Fit (s_faces g) (s_face_coords g) -> Fit (s_edges g) (s_edge_coords g) -> Fit (s_bounds g) (s_bound_coords g) ->
  exists f, save_grid g = Ok f /\
    load_grid f mesh_name = Ok (mkUgrid (s_mesh g) (filled (s_nodes g)) (s_faces g) None (s_bounds g) (s_edges g)
      (option_map filled (s_face_coords g)) (option_map filled (s_edge_coords g)) None).
Proof.
  intros g mesh_name Hm Hn VF NF NE NB FF FE FB.
  destruct g as [m nodes faces ff fe bounds edges fc ec bc]. cbn [s_mesh s_nodes s_faces s_face_face s_face_edge s_bounds s_edges s_face_coords s_edge_coords s_bound_coords] in *.
  set (g := mkSgrid m nodes faces ff fe bounds edges fc ec bc).
  assert (SC : forall loc t c, Fit t c -> save_coords m loc t c =
    Ok (match c with None => [] | Some c => [axis_var (m ++ "_" ++ loc ++ "_lat")%string false c; axis_var (m ++ "_" ++ loc ++ "_lon")%string true c] end)).
  { intros loc t [c|] F; [|reflexivity]. destruct F as (e & -> & L). cbn. now rewrite L, Nat.eqb_refl. }
  unfold save_grid. cbn [s_mesh s_nodes s_faces s_bounds s_edges s_face_coords s_edge_coords s_bound_coords].
  subst g. cbn [s_mesh s_nodes s_faces s_bounds s_edges s_face_coords s_edge_coords s_bound_coords].
  rewrite !SC by auto. cbn [bind]. set (g := mkSgrid m nodes faces ff fe bounds edges fc ec bc).
  eexists. split; [reflexivity|].
  match goal with |- load_grid ?F _ = _ => set (f := F) end.
  (* lookups *)
  assert (FGm : fget f m = Some (mesh_var g)). { unfold f, fget. cbn. now rewrite String.eqb_refl. }
  assert (Hnames : forall suf, suf <> "" -> fget f (m ++ suf) = fget (tl f) (m ++ suf)).
  { intros suf N. unfold f, fget. cbn [app find tl fv_name mesh_var g s_mesh]. now rewrite eqb_self. }
  assert (ST : forall suf n role t, fget (save_table (m ++ n) role t) (m ++ suf) =
     if String.eqb suf n then match t with Some t => Some (table_var (m ++ n) role t) | None => None end else None).
  { intros suf n role [t|]; unfold fget, save_table; cbn [find fv_name table_var]; [rewrite eqb_pre|]; now destruct (String.eqb suf n). }
  assert (SA : forall suf loc c, fget (match c with None => [] | Some c => [axis_var (m ++ "_" ++ loc ++ "_lat")%string false c; axis_var (m ++ "_" ++ loc ++ "_lon")%string true c] end) (m ++ suf) =
     match c with None => None | Some c =>
       if String.eqb suf ("_" ++ loc ++ "_lat") then Some (axis_var (m ++ "_" ++ loc ++ "_lat")%string false c)
       else if String.eqb suf ("_" ++ loc ++ "_lon") then Some (axis_var (m ++ "_" ++ loc ++ "_lon")%string true c) else None end).
  { intros suf loc [c|]; [|reflexivity]. unfold fget. cbn [find fv_name axis_var]. rewrite !eqb_pre. reflexivity. }
  assert (SN : forall suf, fget [axis_var (m ++ "_node_lon") true nodes; axis_var (m ++ "_node_lat") false nodes] (m ++ suf) =
     if String.eqb suf "_node_lon" then Some (axis_var (m ++ "_node_lon") true nodes)
     else if String.eqb suf "_node_lat" then Some (axis_var (m ++ "_node_lat") false nodes) else None).
  { intros suf. unfold fget. cbn [find fv_name axis_var]. rewrite !eqb_pre. reflexivity. }
  assert (FG : forall suf, suf <> "" -> fget f (m ++ suf) =
     match fget (save_table (m ++ "_face_nodes") "face_node_connectivity" faces) (m ++ suf) with Some v => Some v | None =>
     match fget (save_table (m ++ "_edge_nodes") "edge_node_connectivity" edges) (m ++ suf) with Some v => Some v | None =>
     match fget (save_table (m ++ "_boundary_nodes") "boundary_node_connectivity" bounds) (m ++ suf) with Some v => Some v | None =>
     match fget (match fc with None => [] | Some c => [axis_var (m ++ "_" ++ "face" ++ "_lat")%string false c; axis_var (m ++ "_" ++ "face" ++ "_lon")%string true c] end) (m ++ suf) with Some v => Some v | None =>
     match fget (match ec with None => [] | Some c => [axis_var (m ++ "_" ++ "edge" ++ "_lat")%string false c; axis_var (m ++ "_" ++ "edge" ++ "_lon")%string true c] end) (m ++ suf) with Some v => Some v | None =>
     match fget (match bc with None => [] | Some c => [axis_var (m ++ "_" ++ "boundary" ++ "_lat")%string false c; axis_var (m ++ "_" ++ "boundary" ++ "_lon")%string true c] end) (m ++ suf) with Some v => Some v | None =>
     fget [axis_var (m ++ "_node_lon") true nodes; axis_var (m ++ "_node_lat") false nodes] (m ++ suf) end end end end end end).
  { intros suf N. rewrite Hnames by auto. unfold f. cbn [app tl]. now rewrite !fget_app. }
  assert (CH : choose_mesh f mesh_name = Ok m).
  { assert (VM : is_valid_mesh f m = true) by (unfold is_valid_mesh; rewrite FGm; reflexivity).
    destruct Hn as [->| ->]; cbn [choose_mesh]; [|now rewrite VM].
    assert (Hd : f = mesh_var g :: tl f) by reflexivity.
    assert (NM : forall v, In v (tl f) -> is_mesh v = false /\ exists suf, fv_name v = (m ++ suf)%string /\ suf <> "").
    { assert (NT : forall n role t v, n <> "" -> role <> "mesh_topology" -> String.eqb (strip role) "mesh_topology" = false ->
        In v (save_table (m ++ n) role t) -> is_mesh v = false /\ exists suf, fv_name v = (m ++ suf)%string /\ suf <> "").
      { intros n role t v N _ R H. destruct t as [t|]; [|destruct H]. destruct H as [<-|[]]. split; [cbn; now rewrite R|]. exists n. auto. }
      assert (NA : forall n b c v, n <> "" -> v = axis_var (m ++ n) b c -> is_mesh v = false /\ exists suf, fv_name v = (m ++ suf)%string /\ suf <> "").
      { intros n b c v N ->. split; [reflexivity|]. exists n. auto. }
      intros v Hv. unfold f in Hv. cbn [app tl] in Hv. rewrite !in_app_iff in Hv.
      destruct Hv as [H|[H|[H|[H|[H|[H|H]]]]]].
      - now apply NT in H.
      - now apply NT in H.
      - now apply NT in H.
      - destruct fc; [|destruct H]. destruct H as [H|[H|[]]]; symmetry in H; apply NA in H; auto; discriminate.
      - destruct ec; [|destruct H]. destruct H as [H|[H|[]]]; symmetry in H; apply NA in H; auto; discriminate.
      - destruct bc; [|destruct H]. destruct H as [H|[H|[]]]; symmetry in H; apply NA in H; auto; discriminate.
      - destruct H as [H|[H|[]]]; symmetry in H; apply NA in H; auto; discriminate. }
    unfold find_mesh_names.
    assert (NV : forall l, incl l (tl f) -> filter (is_valid_mesh f) (map fv_name l) = []).
    { induction l as [|v l IH]; intros H; auto. cbn [map filter]. rewrite IH by (intros x Hx; apply H; now right).
      destruct (NM v (H v (or_introl eq_refl))) as (_ & suf & -> & N).
      unfold is_valid_mesh. destruct (fget f (m ++ suf)) as [w|] eqn:Fw; [|reflexivity].
      rewrite Hnames in Fw by auto. apply fget_in in Fw. now rewrite (proj1 (NM w (proj1 Fw))). }
    assert (E : map fv_name f = m :: map fv_name (tl f)) by reflexivity.
    rewrite E. cbn [filter]. rewrite VM, NV by apply incl_refl. reflexivity. }
  destruct (mesh_attrs g) as (AN & AFc & AEc & ABc & AF & AE & AB & AL). cbn [g s_mesh s_faces s_face_face s_bounds s_edges s_face_coords s_edge_coords] in AN, AFc, AEc, ABc, AF, AE, AB, AL.
  clear Hnames. clearbody f. remember (mesh_var g) as mv eqn:Emv. clear Emv. clear g.
  unfold load_grid. rewrite CH. cbn [bind]. rewrite FGm.
  assert (RN : read_coords f mv "node_coordinates" true = Ok (Some (filled nodes))).
  { apply (read_saved f mv "node_coordinates" true m "_node_lon" "_node_lat" nodes); auto; try discriminate; try apply nonblank_text; try reflexivity.
    - rewrite FG by discriminate. rewrite !ST, !SA, SN. destruct fc, ec, bc; reflexivity.
    - rewrite FG by discriminate. rewrite !ST, !SA, SN. destruct fc, ec, bc; reflexivity. }
  rewrite RN. cbn [bind]. replace (length (filled nodes)) with (length nodes) by (unfold filled; now rewrite map_length).
  assert (Lfc : forall c, fc = Some c -> fget f (m ++ "_face_lon") = Some (axis_var (m ++ "_face_lon") true c) /\
                                    fget f (m ++ "_face_lat") = Some (axis_var (m ++ "_face_lat") false c)).
  { intros c E. rewrite !FG by discriminate. rewrite !ST, !SA, !SN, E. split; reflexivity. }
  assert (RF : read_coords f mv "face_coordinates" false = Ok (option_map filled fc)).
  { destruct fc as [c|].
    - destruct FF as (e & Ef & _). rewrite Ef in AFc.
      apply (read_saved f mv "face_coordinates" false m "_face_lon" "_face_lat" c); auto; try discriminate; try apply nonblank_text; try reflexivity.
      + now apply Lfc.
      + now apply Lfc.
    - apply c71_missing. rewrite AFc. now destruct faces. }
  rewrite RF. cbn [bind].
  assert (Lec : forall c, ec = Some c -> fget f (m ++ "_edge_lon") = Some (axis_var (m ++ "_edge_lon") true c) /\
                                    fget f (m ++ "_edge_lat") = Some (axis_var (m ++ "_edge_lat") false c)).
  { intros c E. rewrite !FG by discriminate. rewrite !ST, !SA, !SN, E. destruct fc; split; reflexivity. }
  assert (RE : read_coords f mv "edge_coordinates" false = Ok (option_map filled ec)).
  { destruct ec as [c|].
    - destruct FE as (e & Ef & _). rewrite Ef in AEc.
      apply (read_saved f mv "edge_coordinates" false m "_edge_lon" "_edge_lat" c); auto; try discriminate; try apply nonblank_text; try reflexivity.
      + now apply Lec.
      + now apply Lec.
    - apply c71_missing. rewrite AEc. now destruct edges. }
  rewrite RE. cbn [bind].
  assert (RB : read_coords f mv "boundary_coordinates" false = Ok None) by (apply c71_missing; exact ABc).
  rewrite RB. cbn [bind].
  assert (R1 : read_role f mv "face_node_connectivity" 3 (length nodes) = Ok faces).
  { unfold read_role. rewrite AF. destruct faces as [t|]; [|reflexivity]. rewrite FG by discriminate. rewrite !ST.
    rewrite String.eqb_refl. rewrite read_saved_table by (apply NF; reflexivity). reflexivity. }
  assert (R2 : read_role f mv "face_face_connectivity" 3 (length nodes) = Ok None).
  { unfold read_role. rewrite AL. destruct ff as [t|]; [|reflexivity]. rewrite FG by discriminate. rewrite !ST, !SA, SN.
    destruct fc, ec, bc; reflexivity. }
  assert (R3 : read_role f mv "boundary_node_connectivity" 2 (length nodes) = Ok bounds).
  { unfold read_role. rewrite AB. destruct bounds as [t|]; [|reflexivity]. rewrite FG by discriminate. rewrite !ST.
    change (String.eqb "_boundary_nodes" "_face_nodes") with false. change (String.eqb "_boundary_nodes" "_edge_nodes") with false. cbn iota.
    rewrite String.eqb_refl. rewrite read_saved_table by (apply NB; reflexivity). reflexivity. }
  assert (R4 : read_role f mv "edge_node_connectivity" 2 (length nodes) = Ok edges).
  { unfold read_role. rewrite AE. destruct edges as [t|]; [|reflexivity]. rewrite FG by discriminate. rewrite !ST.
    change (String.eqb "_edge_nodes" "_face_nodes") with false. cbn iota.
    rewrite String.eqb_refl. rewrite read_saved_table by (apply NE; reflexivity). reflexivity. }
  rewrite R1. cbn [bind]. 
  replace (opt_bind (assign_faces (length nodes)) faces) with (Ok faces)
    by (destruct faces as [t|]; cbn; [now rewrite (assign_valid _ _ (VF t eq_refl))|reflexivity]).
  cbn [bind]. rewrite R2. cbn [bind opt_bind]. rewrite R3. cbn [bind]. rewrite R4. cbn [bind]. reflexivity.
Qed.
Print Assumptions c71_round_trip_partial.
Definition plain (m : string) (faces edges bounds : option table) : sgrid :=
  mkSgrid m [(0, 0); (1, 0); (0, 1); (1, 1); (2, 0)]%Q faces None None bounds edges None None None.
Definition row (l : list Z) : list (option Z) := map Some l.
Example c71_round_trip_ex :
  let g := mkSgrid "mesh" [(0, 0); (1, 0); (0, 1); (1, 1)]%Q
             (Some [row [0; 1; 2]%Z; row [1; 3; 2]%Z]) None None (Some [row [0; 1]%Z; row [1; 3]%Z; row [3; 2]%Z; row [2; 0]%Z]) None
             (Some [(1 # 3, 1 # 3); (2 # 3, 2 # 3)]%Q) None None in
  all_chars (fun c => ~ Blank c) (s_mesh g) /\ (forall t, s_faces g = Some t -> ValidFaces (length (s_nodes g)) t) /\
  NotRows 3 (s_faces g) /\ NotRows 2 (s_edges g) /\ NotRows 2 (s_bounds g) /\
  Fit (s_faces g) (s_face_coords g) /\ Fit (s_edges g) (s_edge_coords g) /\ Fit (s_bounds g) (s_bound_coords g).
Proof.
  intros g. split; [now apply nonblank_text|]. cbn [g s_faces s_nodes s_edges s_bounds s_face_coords s_edge_coords s_bound_coords length]. split.
  - intros t [= <-]. split; [exists (row [0; 1; 2]%Z), (Some 0%Z); cbn; auto|].
    intros x (r & [<-|[<-|[]]] & H); cbn in H; repeat destruct H as [[= <-]|H]; try destruct H; lia.
  - repeat split; try (intros e [= <-]; cbn; discriminate); try (intros e [=]; fail). now exists [row [0; 1; 2]%Z; row [1; 3; 2]%Z].
Qed.
(** Three faces, two edges or two boundaries come back with rows and columns
    exchanged. *)
Theorem c71_three_faces_refuted : exists g f u t, save_grid g = Ok f /\ load_grid f None = Ok u /\
  s_faces g = Some t /\ ValidFaces (length (s_nodes g)) t /\ ug_faces u <> Some t /\ ug_faces u = Some (transposed t).
Proof.
  exists (plain "m" (Some [row [0; 1; 2]; row [1; 3; 2]; row [1; 4; 3]]%Z) None None).
  eexists. eexists. exists ([row [0; 1; 2]; row [1; 3; 2]; row [1; 4; 3]]%Z).
  split; [reflexivity|]. split; [reflexivity|]. split; [reflexivity|]. split; [|split; [discriminate|reflexivity]].
  split; [exists (row [0; 1; 2]%Z), (Some 0%Z); cbn; auto|].
  intros x (r & [<-|[<-|[<-|[]]]] & H); cbn in H; repeat destruct H as [[= <-]|H]; try destruct H; cbn; lia.
Qed.
Print Assumptions c71_three_faces_refuted.
Theorem c71_two_edges_refuted : exists g f u t, save_grid g = Ok f /\ load_grid f None = Ok u /\
  s_edges g = Some t /\ s_bounds g = Some t /\ ug_edges u <> Some t /\ ug_bounds u <> Some t.
Proof.
  exists (plain "m" None (Some [row [0; 1]; row [2; 3]]%Z) (Some [row [0; 1]; row [2; 3]]%Z)).
  eexists. eexists. eexists. repeat (split; [reflexivity|]). split; discriminate.
Qed.
Print Assumptions c71_two_edges_refuted.
(** Coordinates of boundaries and the table of neighbouring faces are lost,
    without an error. *)
Theorem c71_lost_refuted : exists g f u, save_grid g = Ok f /\ load_grid f None = Ok u /\
  s_bound_coords g <> None /\ s_face_face g <> None /\ ug_bound_coords u = None /\ ug_face_face u = None.
Proof.
  exists (mkSgrid "m" [(0, 0); (1, 0); (0, 1)]%Q (Some [row [0; 1; 2]%Z]) (Some [row [-1; -1; -1]%Z]) None
            (Some [row [0; 1]%Z]) None None None (Some [(1 # 2, 0)]%Q)).
  eexists. eexists. split; [reflexivity|]. split; [reflexivity|]. repeat split; discriminate.
Qed.
Print Assumptions c71_lost_refuted.
(** A grid whose name has a blank is written, but cannot be read. *)
Theorem c71_blank_name_refuted : exists g f, save_grid g = Ok f /\ load_grid f None = Err ValueError.
Proof. exists (plain "my mesh" None None None). eexists. split; reflexivity. Qed.
Print Assumptions c71_blank_name_refuted.

(** What loads is consistent, and what is not raises. *)
Lemma occurs_map g t x : Occurs x (map_table g t) -> exists y, Occurs y t /\ x = g y.
Proof.
  intros (r & Hr & Hx). unfold map_table in Hr. apply in_map_iff in Hr. destruct Hr as (r0 & <- & Hr).
  apply in_map_iff in Hx. destruct Hx as ([y|] & E & Hy); [|discriminate]. injection E as <-.
  exists y. split; auto. exists r0. auto.
Qed.
Lemma nonempty_of t : concat t <> [] -> Nonempty t.
Proof.
  intros H. destruct (concat t) as [|x l] eqn:E; [congruence|].
  assert (I : In x (concat t)) by (rewrite E; now left). apply in_concat in I. destruct I as (r & A & B). exists r, x. auto.
Qed.
Lemma nonempty_map g t : Nonempty t -> Nonempty (map_table g t).
Proof.
  intros (r & x & A & B). exists (map (option_map g) r), (option_map g x). split; apply in_map; auto.
Qed.
Lemma zmin_low l m : zmin l = Ok m -> In m l /\ forall y, In y l -> (m <= y)%Z.
Proof. destruct l as [|x l]; [discriminate|]. cbn. intros H. injection H as <-. apply fold_min. Qed.
Lemma assign_faces_valid n t t' : assign_faces n t = Ok t' -> ValidFaces n t'.
Proof.
  unfold assign_faces. destruct (concat t) as [|x0 l0] eqn:Ec; [discriminate|].
  assert (Ne : Nonempty t) by (apply nonempty_of; congruence). clear Ec x0 l0.
  destruct (zmax (unmasked t)) as [mx|e] eqn:Ex.
  2: { intros H. injection H as <-. split; auto. intros x Hx. apply unmasked_iff in Hx.
       destruct (unmasked t); [destruct Hx|discriminate]. }
  apply zmax_spec in Ex. destruct Ex as [_ Hmax].
  destruct (Z.gtb_spec mx (Z.of_nat n)) as [|Hle]; [discriminate|].
  destruct (zmin (unmasked t)) as [mn|e] eqn:En; [|discriminate]. cbn [bind].
  apply zmin_low in En. destruct En as [_ Hmin].
  destruct (Z.eqb_spec mx (Z.of_nat n)) as [E|E].
  - destruct (Z.geb_spec mn 1) as [Hm|]; [|discriminate]. cbn [bind].
    destruct (zmin (unmasked (map_table _ t))) as [m2|e] eqn:E2; [|discriminate]. cbn [bind].
    destruct (Z.ltb_spec m2 (-1)); [discriminate|]. intros H'. injection H' as <-.
    split; [now apply nonempty_map|]. intros x Hx. apply occurs_map in Hx. destruct Hx as (y & Hy & ->).
    apply unmasked_iff in Hy. specialize (Hmax y Hy). specialize (Hmin y Hy).
    destruct (Z.gtb_spec y 0); lia.
  - cbn [bind]. destruct (zmin (unmasked t)) as [m2|e] eqn:E2; [|discriminate]. cbn [bind].
    apply zmin_low in E2. destruct E2 as [_ H2].
    destruct (Z.ltb_spec m2 (-1)); [discriminate|]. intros H'. injection H' as <-. split; auto.
    intros x Hx. apply unmasked_iff in Hx. specialize (Hmax x Hx). specialize (H2 x Hx). lia.
Qed.
(** Every mesh that loads has nodes for its faces to refer to and, if it has
    face_face_connectivity, faces of the same shape. *)
Theorem c71_loaded_consistent : forall f m u, load_grid f m = Ok u ->
  (forall t, ug_faces u = Some t -> ValidFaces (length (ug_nodes u)) t) /\
  (forall t, ug_face_face u = Some t -> exists e, ug_faces u = Some e /\ length t = length e /\
     (t <> [] -> length (hd [] t) = length (hd [] e))).
Proof.
  intros f m u H. unfold load_grid in H. apply bind_ok in H. destruct H as (n & _ & H).
  destruct (fget f n) as [mesh|]; [|discriminate].
  apply bind_ok in H. destruct H as (nodes & _ & H). cbv zeta in H.
  apply bind_ok in H. destruct H as (fc & _ & H). apply bind_ok in H. destruct H as (ec & _ & H).
  apply bind_ok in H. destruct H as (bc & _ & H). apply bind_ok in H. destruct H as (faces0 & _ & H).
  apply bind_ok in H. destruct H as (faces & Hf & H). apply bind_ok in H. destruct H as (ff0 & _ & H).
  apply bind_ok in H. destruct H as (ff & Hff & H). apply bind_ok in H. destruct H as (bo & _ & H).
  apply bind_ok in H. destruct H as (ed & _ & H). injection H as <-.
  cbn [ug_faces ug_nodes ug_face_face]. split.
  - intros t ->. destruct faces0 as [t0|]; [|discriminate]. cbn [opt_bind] in Hf. apply bind_ok in Hf.
    destruct Hf as (t1 & Ht & E). injection E as <-. now apply assign_faces_valid in Ht.
  - intros t ->. destruct ff0 as [t0|]; [|discriminate]. cbn [opt_bind] in Hff. apply bind_ok in Hff.
    destruct Hff as (t1 & Ht & E). injection E as <-. unfold assign_face_face in Ht.
    destruct faces as [e|]; [|discriminate]. exists e. split; auto.
    destruct (Nat.eqb_spec (length t0) (length e)); [|discriminate]. cbn [andb] in Ht.
    destruct (Nat.eqb_spec (width t0) (width e)) as [Ew|]; [|discriminate]. injection Ht as <-. split; auto.
    intros _. destruct t0, e; cbn in *; try lia; auto.
Qed.
Print Assumptions c71_loaded_consistent.

(** Coordinates that are read come from variables of the file that say whether
    they are longitudes or latitudes and have one value per element (or a single
    value). *)
Lemma axis_known v s : axis_name v = Ok s ->
  (isin s ["latitude"; "projection_y_coordinate"] = true -> LatVar v) /\
  (isin s ["longitude"; "projection_x_coordinate"] = true -> LonVar v).
Proof.
  unfold axis_name, LatVar, LonVar, HasAttr. destruct (dget (fv_attrs v) "standard_name") as [sn|] eqn:Es.
  - intros H. injection H as <-. split; intros I; apply isin_in in I; left; eauto.
  - destruct (dget (fv_attrs v) "units") as [un|] eqn:Eu; [|discriminate].
    destruct (isin un east_units) eqn:E1.
    + intros H. injection H as <-. apply isin_in in E1. split; [discriminate|]. intros _. right. split; auto. exists un. auto.
    + destruct (isin un north_units) eqn:E2; [|discriminate]. intros H. injection H as <-. apply isin_in in E2.
      split; [|discriminate]. intros _. right. split; auto. exists un. auto.
Qed.
Lemma spread_len n l k : spread n l = Ok k -> length k = n /\ (length l = n \/ length l = 1).
Proof.
  unfold spread. destruct (Nat.eqb_spec (length l) n) as [E|E].
  - intros H. injection H as <-. auto.
  - destruct l as [|x [|y l]]; try discriminate. intros H. injection H as <-. rewrite repeat_length. auto.
Qed.
Lemma coord_step_ok a v a' : coord_step a v = Ok a' ->
  length a' = length a /\ (LonVar v \/ LatVar v) /\ (length (fv_values v) = length a \/ length (fv_values v) = 1).
Proof.
  unfold coord_step. intros H. apply bind_ok in H. destruct H as (s & Hs & H). destruct (axis_known v s Hs) as [K1 K2].
  destruct (isin s ["latitude"; "projection_y_coordinate"]) eqn:E1.
  - apply bind_ok in H. destruct H as (l & Hl & H). injection H as <-. apply spread_len in Hl. destruct Hl as [L1 L2].
    rewrite len_lat by auto. auto.
  - destruct (isin s ["longitude"; "projection_x_coordinate"]) eqn:E2; [|discriminate].
    apply bind_ok in H. destruct H as (l & Hl & H). injection H as <-. apply spread_len in Hl. destruct Hl as [L1 L2].
    rewrite len_lon by auto. auto.
Qed.
Lemma coord_steps_ok vs : forall a a', coord_steps a vs = Ok a' ->
  length a' = length a /\
  Forall (fun v => (LonVar v \/ LatVar v) /\ (length (fv_values v) = length a \/ length (fv_values v) = 1)) vs.
Proof.
  induction vs as [|v vs IH]; cbn [coord_steps]; intros a a' H.
  - injection H as <-. auto.
  - apply bind_ok in H. destruct H as (b & Hb & H). apply coord_step_ok in Hb. destruct Hb as (A & B & C).
    apply IH in H. destruct H as [D E]. split; [congruence|]. constructor; auto.
    rewrite A in E. auto.
Qed.
Theorem c71_coordinates_sound : forall f mesh role required text l a,
  dget (fv_attrs mesh) role = Some text -> Words text l -> read_coords f mesh role required = Ok (Some a) ->
  l <> [] /\
  forall n, In n l -> exists v, fget f n = Some v /\ (LonVar v \/ LatVar v) /\
    (length (fv_values v) = length a \/ length (fv_values v) = 1).
Proof.
  intros f mesh role required text l a D W H. unfold read_coords in H. rewrite D, split_strip, (split_unique _ _ W) in H.
  apply bind_ok in H. destruct H as (vs & Hv & H).
  assert (F : Forall2 (fun n v => fget f n = Some v) l vs).
  { clear - Hv. revert vs Hv. induction l as [|n l IH]; cbn [mapM_res]; intros vs Hv.
    - injection Hv as <-. constructor.
    - apply bind_ok in Hv. destruct Hv as (v & Hn & Hv). apply bind_ok in Hv. destruct Hv as (vs' & Hl & E).
      injection E as <-. constructor; auto. destruct (fget f n); [congruence|discriminate]. }
  destruct vs as [|v0 vs]; [discriminate|]. apply bind_ok in H. destruct H as (b & Hb & E). injection E as <-.
  apply coord_steps_ok in Hb. destruct Hb as [L P]. rewrite L. split; [inversion F; discriminate|].
  revert F P; generalize (v0 :: vs) as ws; clear; intros ws F P; induction F as [|n v l ws E F IH]; intros m I; [destruct I|].
  inversion P as [|? ? P1 P2]; subst. destruct I as [<-|I]; eauto.
Qed.
Print Assumptions c71_coordinates_sound.

(** Saving works exactly when representative coordinates fit their elements. *)
Theorem c71_save_fits : forall g,
  match save_grid g with
  | Ok _ => Fit (s_faces g) (s_face_coords g) /\ Fit (s_edges g) (s_edge_coords g) /\ Fit (s_bounds g) (s_bound_coords g)
  | Err e => e = ValueError /\
      ~ (Fit (s_faces g) (s_face_coords g) /\ Fit (s_edges g) (s_edge_coords g) /\ Fit (s_bounds g) (s_bound_coords g))
  end.
Proof.
  assert (K : forall m loc t c, (exists l, save_coords m loc t c = Ok l /\ Fit t c) \/
                                (save_coords m loc t c = Err ValueError /\ ~ Fit t c)).
  { intros m loc t [c|]; [|left; exists []; split; [reflexivity|exact I]]. destruct t as [t|]; cbn [save_coords].
    - destruct (Nat.eqb_spec (length t) (length c)) as [E|E].
      + left. eexists. split; [reflexivity|]. exists t. auto.
      + right. split; auto. intros (e & X & Y). injection X as <-. auto.
    - right. split; auto. intros (e & X & Y). discriminate. }
  intros g. unfold save_grid. cbv zeta.
  destruct (K (s_mesh g) "face" (s_faces g) (s_face_coords g)) as [(l1 & -> & F1)|(-> & F1)]; cbn [bind]; [|split; [auto|tauto]].
  destruct (K (s_mesh g) "edge" (s_edges g) (s_edge_coords g)) as [(l2 & -> & F2)|(-> & F2)]; cbn [bind]; [|split; [auto|tauto]].
  destruct (K (s_mesh g) "boundary" (s_bounds g) (s_bound_coords g)) as [(l3 & -> & F3)|(-> & F3)]; cbn [bind]; [auto|split; [auto|tauto]].
Qed.
Print Assumptions c71_save_fits.
