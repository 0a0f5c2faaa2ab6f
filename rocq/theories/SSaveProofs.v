(** Lemmas about saving and loading staggered grids. *)
From Coq Require Import String Ascii QArith.
From Verif Require Import Common CommonProofs MaskModel MaskSpec MaskProofs GridTypeModel GridTypeSpec GridTypeProofs ChainModel VerdatModel
  SAttrModel SAttrSpec SAttrProofs SAttrParse SAttrProps SVarModel SVarSpec SVarProofs SVarProps UFileProofs SSaveModel SSaveSpec.
Open Scope string_scope.
Open Scope list_scope.
Open Scope nat_scope.

(** ** Lists and dictionaries *)
Lemma dget_nodup {V} (d : dict V) k v : NoDup (map fst d) -> In (k, v) d -> dget d k = Some v.
Proof.
  induction d as [|[k1 v1] d IH]; intros N H; [destruct H|]. cbn in N. inversion N; subst. cbn. destruct H as [H|H].
  - injection H as -> ->. now rewrite String.eqb_refl.
  - destruct (String.eqb_spec k k1) as [->|]; [|auto]. exfalso. apply H2. now apply (in_map fst) in H.
Qed.
Lemma dget_app {V} (d d' : dict V) k : dget (d ++ d') k = match dget d k with Some v => Some v | None => dget d' k end.
Proof. induction d as [|[k1 v1] d IH]; auto. cbn. now destruct (String.eqb k k1). Qed.
Lemma dget_opt k k' o : dget (opt_attr k' o) k = if String.eqb k k' then o else None.
Proof. destruct o; cbn; now destruct (String.eqb k k'). Qed.
Lemma mapM_inv {A B} (f : A -> result B) l : forall ys, mapM_res f l = Ok ys -> Forall2 (fun x y => f x = Ok y) l ys.
Proof.
  induction l as [|a l IH]; intros ys H; cbn in H.
  - injection H as <-. constructor.
  - apply bind_ok in H. destruct H as (b & E & H). apply bind_ok in H. destruct H as (bs & E' & H). injection H as <-. constructor; auto.
Qed.
Lemma mapM_all {A B} (f : A -> result B) l : (forall x, In x l -> exists y, f x = Ok y) -> exists ys, mapM_res f l = Ok ys.
Proof.
  induction l as [|a l IH]; intros H; [exists []; reflexivity|].
  destruct (H a (or_introl eq_refl)) as (b & E). destruct IH as (bs & E'); [intros x Hx; apply H; now right|].
  exists (b :: bs). cbn. now rewrite E, E'.
Qed.
Lemma forall2_in_l {A B} (P : A -> B -> Prop) l m x : Forall2 P l m -> In x l -> exists y, In y m /\ P x y.
Proof. induction 1; intros Hx; [destruct Hx|]. destruct Hx as [<-|Hx]; [exists y; split; [now left|auto]|]. destruct (IHForall2 Hx) as (z & A1 & A2). exists z. split; [now right|auto]. Qed.
Lemma forall2_in_r {A B} (P : A -> B -> Prop) l m y : Forall2 P l m -> In y m -> exists x, In x l /\ P x y.
Proof. induction 1; intros Hx; [destruct Hx|]. destruct Hx as [<-|Hx]; [exists x; split; [now left|auto]|]. destruct (IHForall2 Hx) as (z & A1 & A2). exists z. split; [now right|auto]. Qed.

Lemma nodup_left {A} (l m : list A) : NoDup (l ++ m) -> NoDup l.
Proof. induction l as [|a l IH]; intros H; [constructor|]. inversion H; subst. constructor; auto. intros I. apply H2. apply in_or_app. auto. Qed.
Lemma find_name {A} (name : A -> string) (l : list A) a : NoDup (map name l) -> In a l ->
  find (fun x => String.eqb (name a) (name x)) l = Some a.
Proof.
  induction l as [|b l IH]; intros N H; [destruct H|]. cbn in N. inversion N; subst. cbn [find].
  destruct (String.eqb_spec (name a) (name b)) as [E|E].
  - destruct H as [->|H]; auto. exfalso. apply H2. rewrite <- E. now apply in_map.
  - destruct H as [->|H]; [contradiction|]. auto.
Qed.
Lemma find_name_in {A} (name : A -> string) (l : list A) n a : find (fun x => String.eqb n (name x)) l = Some a -> In a l /\ name a = n.
Proof. intros H. apply find_some in H. destruct H as [H E]. apply String.eqb_eq in E. auto. Qed.
Lemma find_name_none {A} (name : A -> string) (l : list A) n : find (fun x => String.eqb n (name x)) l = None <-> ~ In n (map name l).
Proof.
  induction l as [|a l IH]; cbn; [tauto|]. destruct (String.eqb_spec n (name a)) as [E|E].
  - split; [discriminate|]. intros H. exfalso. apply H. now left.
  - rewrite IH. split; intros H; [intros [F|F]; [congruence|tauto]|tauto].
Qed.
Lemma read_in f d : NoDup (map sv_name (vars_of f)) -> In d (nf_vars f) -> read f (sv_name (fd_var d)) = Ok (sv_shape (fd_var d), fd_vals d).
Proof.
  intros N H. unfold read. unfold vars_of in N. rewrite map_map in N.
  now rewrite (find_name (fun d => sv_name (fd_var d)) _ _ N H).
Qed.
Lemma read_inv f n v : read f n = Ok v -> exists d, In d (nf_vars f) /\ sv_name (fd_var d) = n /\ v = (sv_shape (fd_var d), fd_vals d).
Proof.
  unfold read. destruct (find _ (nf_vars f)) as [d|] eqn:E; [|discriminate]. intros H. injection H as <-.
  apply (find_name_in (fun d => sv_name (fd_var d))) in E. destruct E. eauto.
Qed.
Lemma lookup_in vs v : NoDup (map sv_name vs) -> In v vs -> lookup vs (sv_name v) = Some v.
Proof. apply find_name. Qed.

(** ** Texts *)
Lemma join_spaced l : join l = spaced l.
Proof. unfold join. induction l as [|a [|b r] IH]; auto. change (String.concat " " (a :: b :: r)) with (a ++ " " ++ String.concat " " (b :: r))%string. now rewrite IH. Qed.
Lemma split_nospace s : Forall NoSpace (split_on " " s).
Proof.
  induction s as [|c s IH]; cbn; [repeat constructor|]. destruct (Ascii.eqb_spec c " ") as [->|E]; [constructor; auto; exact I|].
  destruct (split_on " " s) as [|w ws]; [repeat constructor; auto|]. inversion IH; subst. constructor; auto. now split.
Qed.
Lemma split_nonempty s : split_on " " s <> [].
Proof. destruct s as [|c s]; cbn; [discriminate|]. destruct (Ascii.eqb c " "); [discriminate|]. now destruct (split_on " " s). Qed.
Lemma split_join l : l <> [] -> Forall NoSpace l -> split_on " " (join l) = l.
Proof. rewrite join_spaced. apply split_spaced. Qed.
Lemma gap_space : MaskSpec.Gap " ".
Proof. split; [unfold Blank; cbn; auto 9|exact I]. Qed.
Lemma words_are s l : Words s l -> Forall IsWord l.
Proof. induction 1; [constructor|constructor; [auto|constructor]|constructor; auto]. Qed.
Lemma words_join l : Forall IsWord l -> Words (join l) l.
Proof.
  unfold join. induction 1 as [|w [|v l] W F IH].
  - constructor. exact I.
  - replace (String.concat " " [w]) with ("" ++ w ++ "")%string by (cbn; apply str_nil_r). apply words_one; auto; exact I.
  - change (String.concat " " (w :: v :: l)) with ("" ++ w ++ " " ++ String.concat " " (v :: l))%string.
    apply words_cons; auto; try exact I; [exact gap_space|discriminate].
Qed.
Lemma split_strip_join s : split (strip (join (split (strip s)))) = split (strip s).
Proof.
  rewrite (split_strip (join _)). apply split_unique. apply words_join. eapply words_are. apply split_words.
Qed.

(** Axes that were read are written so as to be read the same. *)
Lemma steps_legal l : forall t, Forall LegalAxis l -> LegalOpt (fst (fst t)) -> LegalOpt (snd (fst t)) -> LegalOpt (snd t) ->
  let t' := fold_left put_axis l t in LegalOpt (fst (fst t')) /\ LegalOpt (snd (fst t')) /\ LegalOpt (snd t').
Proof.
  induction l as [|a l IH]; intros t F A B C; [cbn; auto|]. inversion F as [|? ? [_ P] F']; subst. cbn [fold_left].
  apply IH; auto; destruct t as [[x y] z]; destruct a as [c n]; unfold put_axis; cbn in *;
    repeat match goal with |- context [if ?b then _ else _] => destruct b end; cbn; auto.
Qed.
Lemma axes_legal s x y z : parse_axes s = Ok (x, y, z) -> LegalOpt x /\ LegalOpt y /\ LegalOpt z.
Proof.
  unfold parse_axes, findall. intros H.
  assert (P : Forall (Forall2 Fits axes_re) (scan axes_re 0 s)).
  { pose proof (scan_pieces (One is_alpha) [lit ":"; lit " "; Plus is_alpha_us] (String.length s) s (le_n _)) as P.
    fold axes_re in P. revert P. generalize (scan axes_re 0 s). generalize s. clear. intros s l P. induction P; constructor; auto. }
  assert (E : exists l, scan axes_re 0 s = map axis_pieces l /\ Forall LegalAxis l).
  { clear H. induction P as [|ws r W _ (l & IH & L)]; [exists []; split; [reflexivity|constructor]|].
    apply axis_fits in W. destruct W as (a & -> & A). exists (a :: l). cbn. rewrite IH. auto. }
  destruct E as (l & E & L). rewrite E in H. rewrite axis_steps_put in H by exact L. injection H as H.
  pose proof (steps_legal l (None, None, None) L I I I) as S. cbv zeta in S. rewrite H in S. exact S.
Qed.
Lemma axes_again s a : parse_axes s = Ok a -> parse_axes (write_axes a) = Ok a.
Proof. destruct a as [[x y] z]. intros H. apply axes_legal in H. destruct H as (A & B & C). now apply c60_axes_round_trip. Qed.

(** ** Descriptions of variables *)
Definition edge_of (ca : option nat * option nat) (loc : option string) : option string :=
  match loc with
  | Some l => if String.eqb l "edge" then match fst ca with Some 0 => Some "edge2" | Some 1 => Some "edge1" | _ => None end else Some l
  | None => None
  end.
Lemma create_inv g v d : create_variable g v = Ok d -> exists ca loc,
  match attr v "grid" with None => Ok (None, None) | Some _ => infer_avg_axes g (sv_dims v) end = Ok ca /\
  determine_variable_slicing g (sv_dims v) = Ok (ds_slicing d) /\
  match attr v "location" with Some l => Ok (Some l) | None => infer_variable_location g (sv_dims v) end = Ok loc /\
  match attr v "axes" with Some a => parse_axes a | None => Ok (None, None, None) end = Ok (ds_axes d) /\
  match attr v "standard_name" with Some s => parse_vector_axis s | None => Ok None end = Ok (ds_vector_axis d) /\
  ds_center_axis d = fst ca /\ ds_node_axis d = snd ca /\ ds_location d = edge_of ca loc /\
  ds_coordinates d = match attr v "coordinates" with Some c => Some (split (strip c)) | None => None end.
Proof.
  unfold create_variable. intros H. apply bind_ok in H. destruct H as (ca & E1 & H). apply bind_ok in H. destruct H as (sl & E2 & H).
  apply bind_ok in H. destruct H as (loc & E3 & H). cbv zeta in H. apply bind_ok in H. destruct H as (ax & E4 & H).
  apply bind_ok in H. destruct H as (va & E5 & H). injection H as <-. cbn. exists ca, loc. auto 9.
Qed.
Lemma create_ok g v ca sl loc ax va :
  match attr v "grid" with None => Ok (None, None) | Some _ => infer_avg_axes g (sv_dims v) end = Ok ca ->
  determine_variable_slicing g (sv_dims v) = Ok sl ->
  match attr v "location" with Some l => Ok (Some l) | None => infer_variable_location g (sv_dims v) end = Ok loc ->
  match attr v "axes" with Some a => parse_axes a | None => Ok (None, None, None) end = Ok ax ->
  match attr v "standard_name" with Some s => parse_vector_axis s | None => Ok None end = Ok va ->
  create_variable g v = Ok (mkDescribed (fst ca) (snd ca) sl (edge_of ca loc) ax va
    (match attr v "coordinates" with Some c => Some (split (strip c)) | None => None end)).
Proof. intros E1 E2 E3 E4 E5. unfold create_variable. rewrite E1. cbn [bind]. rewrite E2. cbn [bind]. rewrite E3. cbn [bind]. rewrite E4. cbn [bind]. rewrite E5. reflexivity. Qed.
(** Once a scalar variable can be sliced, locations can be inferred. *)
Lemma location_total g sl : determine_variable_slicing g [] = Ok sl -> forall dims, exists l, infer_variable_location g dims = Ok l.
Proof.
  unfold determine_variable_slicing. cbn [does_intersection_exist existsb]. intros H dims. apply bind_ok in H. destruct H as (l & A & _).
  unfold all_padding in A. apply bind_ok in A. destruct A as (f & F & A). apply bind_ok in A. destruct A as (l' & P & _).
  unfold infer_variable_location. rewrite F. cbn [bind]. destruct f as [f|]; [eauto|discriminate].
Qed.

(** ** Loading *)
Definition sgrid_of (g : grid) : sgrid :=
  mkSgrid (g_node_dimensions g) (snd (g_face_dims g)) (snd (g_edge1_dims g)) (snd (g_edge2_dims g)) (snd (g_vertical_dims g)).
Record Loaded (fte : values -> values -> result values) (f : nfile) (t : svar) (g : grid) : Prop := {
  ld_dims : g_dims g = nf_dims f;
  ld_topology : find_grid_topology_var (vars_of f) = Ok (g_topology g);
  ld_lookup : lookup (vars_of f) (g_topology g) = Some t;
  ld_nodes : get_node_coordinates (vars_of f) t = Ok (g_node_dimensions g, g_node_coordinates g);
  ld_e1 : get_dimension t "edge1_dimensions" = Ok (g_edge1_dims g);
  ld_e2 : get_dimension t "edge2_dimensions" = Ok (g_edge2_dims g);
  ld_c1 : get_attr_coordinates (vars_of f) t "edge1_coordinates" = Ok (g_edge1_coordinates g);
  ld_c2 : get_attr_coordinates (vars_of f) t "edge2_coordinates" = Ok (g_edge2_coordinates g);
  ld_cf : get_attr_coordinates (vars_of f) t "face_coordinates" = Ok (g_face_coordinates g);
  ld_center : lon_lat false f (g_face_coordinates g) = Ok (g_center g);
  ld_angles : get_angles fte f (g_center g) = Ok (g_angles g);
  ld_vd : get_dimension t "vertical_dimensions" = Ok (g_vertical_dims g);
  ld_node : lon_lat false f (g_node_coordinates g) = Ok (g_node g);
  ld_edge1 : lon_lat true f (g_edge1_coordinates g) = Ok (g_edge1 g);
  ld_edge2 : lon_lat false f (g_edge2_coordinates g) = Ok (g_edge2 g);
  ld_fd : get_dimension t "face_dimensions" = Ok (g_face_dims g);
  ld_masks : g_masks g = get_masks (vars_of f) (shape_of (g_node g)) (shape_of (g_center g)) (shape_of (g_edge1 g)) (shape_of (g_edge2 g));
  ld_vars : mapM_res (variable_of (sgrid_of g)) (vars_of f) = Ok (g_variables g) }.
Lemma load_inv fte f g : load fte f = Ok g -> exists t, Loaded fte f t g.
Proof.
  unfold load. intros H. apply bind_ok in H. destruct H as (n & E0 & H). destruct (lookup (vars_of f) n) as [t|] eqn:E1; [|discriminate].
  do 13 (apply bind_ok in H; let x := fresh "x" in let E := fresh "E" in destruct H as (x & E & H)).
  cbv zeta in H. apply bind_ok in H. destruct H as (vars & Ev & H). injection H as <-. exists t.
  match goal with E : get_node_coordinates _ _ = Ok ?x |- _ => destruct x as [nd nc] end. cbn [fst snd] in *.
  constructor; cbn; assumption || reflexivity.
Qed.
Lemma load_ok fte f t g : Loaded fte f t g -> load fte f = Ok g.
Proof.
  intros L. destruct L. unfold load. rewrite ld_topology0. cbn [bind]. rewrite ld_lookup0, ld_nodes0. cbn [bind fst snd].
  rewrite ld_e3. cbn [bind]. rewrite ld_e4. cbn [bind]. rewrite ld_c3. cbn [bind]. rewrite ld_c4. cbn [bind]. rewrite ld_cf0. cbn [bind].
  rewrite ld_center0. cbn [bind]. rewrite ld_angles0. cbn [bind]. rewrite ld_vd0. cbn [bind]. rewrite ld_node0. cbn [bind].
  rewrite ld_edge3. cbn [bind]. rewrite ld_edge4. cbn [bind]. rewrite ld_fd0. cbn [bind]. unfold sgrid_of in ld_vars0. cbv zeta.
  rewrite ld_vars0. cbn [bind]. rewrite <- ld_masks0, <- ld_dims0. now destruct g.
Qed.

Lemma dimension_same t t' a x : get_dimension t a = Ok x -> attr t' a = fst x -> get_dimension t' a = Ok x.
Proof.
  unfold get_dimension. destruct (attr t a) as [s|].
  - intros H E. apply bind_ok in H. destruct H as (p & P & H). injection H as <-. cbn in E. rewrite E, P. reflexivity.
  - intros H E. injection H as <-. cbn in E. now rewrite E.
Qed.
Lemma dimension_both t a x : get_dimension t a = Ok x -> snd x <> None -> fst x <> None.
Proof.
  unfold get_dimension. destruct (attr t a) as [s|]; intros H.
  - apply bind_ok in H. destruct H as (p & P & H). injection H as <-. discriminate.
  - injection H as <-. intros N. now contradict N.
Qed.
Lemma lon_lat_reads any f x y o : lon_lat any f (Some [x; y]) = Ok o -> exists a b, o = Some (a, b) /\ read f x = Ok a /\ read f y = Ok b.
Proof.
  unfold lon_lat. cbn [unpack2]. intros H. apply bind_ok in H. destruct H as (a & A & H). apply bind_ok in H. destruct H as (b & B & H).
  injection H as <-. eauto.
Qed.
Lemma by_location_two f loc l : find_coordinates_by_location f loc 2 = Ok (Some l) -> exists x y, l = [x; y].
Proof.
  unfold find_coordinates_by_location. intros H. apply bind_ok in H. destruct H as ([[x y] z] & _ & H). change (2 =? 2)%Z with true in H. cbv iota in H.
  destruct (forallb truthy [x; y]); [|discriminate]. injection H as <-. cbn. eauto.
Qed.

(** ** Saving what was loaded *)
Lemma others_shape g gvs : forall l, NoDup (map gv_name gvs) ->
  fold_left (fun l v => if made l (gv_name v) then l else l ++ [other_var g v]) gvs l =
  l ++ map (other_var g) (filter (fun v => negb (made l (gv_name v))) gvs).
Proof.
  induction gvs as [|v r IH]; intros l N; cbn [fold_left filter map]; [now rewrite app_nil_r|]. inversion N; subst.
  destruct (made l (gv_name v)) eqn:E; cbn [negb]; [auto|]. rewrite IH by auto. rewrite <- app_assoc. cbn [app map]. do 3 f_equal.
  apply filter_ext_in. intros w Hw. f_equal. unfold made. rewrite map_app. unfold isin. rewrite existsb_app. cbn [map existsb].
  change (sv_name (fd_var (other_var g v))) with (gv_name v).
  destruct (String.eqb_spec (gv_name w) (gv_name v)) as [F|F]; [exfalso; apply H1; rewrite <- F; now apply in_map|].
  apply orb_false_r.
Qed.

Section Saved.
Context (fte : values -> values -> result values) (f : nfile) (t : svar) (g : grid) (cx cy nx ny : string)
  (L : Loaded fte f t g) (W : WellFormed f) (R : Resavable f g cx cy nx ny).

Lemma sources : Forall2 (fun v w => variable_of (sgrid_of g) v = Ok w) (vars_of f) (g_variables g).
Proof. apply mapM_inv. exact (ld_vars _ _ _ _ L). Qed.
Lemma source_inv v w : variable_of (sgrid_of g) v = Ok w ->
  gv_name w = sv_name v /\ gv_dims w = sv_dims v /\ gv_grid w = attr v "grid" /\ gv_standard_name w = attr v "standard_name" /\
  create_variable (sgrid_of g) v = Ok (gv_desc w).
Proof. unfold variable_of. intros H. apply bind_ok in H. destruct H as (d & E & H). injection H as <-. cbn. auto. Qed.
Lemma source_names : map gv_name (g_variables g) = map sv_name (vars_of f).
Proof. pose proof sources as S. induction S; cbn; auto. apply source_inv in H. destruct H as (-> & _). now f_equal. Qed.
Lemma names_nodup : NoDup (map gv_name (g_variables g)).
Proof. rewrite source_names. exact (wf_names _ W). Qed.
Lemma sizes d : In d (nf_vars f) -> map (size_of g) (sv_dims (fd_var d)) = sv_shape (fd_var d).
Proof.
  intros H. apply (wf_shape _ W) in H. revert H. generalize (sv_dims (fd_var d)) (sv_shape (fd_var d)). intros a b H.
  induction H as [|s n a b H _ IH]; auto. cbn. rewrite IH. f_equal. unfold size_of. rewrite (ld_dims _ _ _ _ L).
  now rewrite (dget_nodup _ _ _ (wf_dims _ W) H).
Qed.
Lemma getvar_read n s vals : read f n = Ok (s, vals) ->
  exists v w, In v (vars_of f) /\ getvar g n = Ok w /\ sv_name v = n /\ variable_of (sgrid_of g) v = Ok w /\ gv_name w = n /\ gv_dims w = sv_dims v /\
    map (size_of g) (gv_dims w) = s.
Proof.
  intros H. apply read_inv in H. destruct H as (d & Hd & E & V). injection V as -> ->.
  assert (Hv : In (fd_var d) (vars_of f)) by (now apply in_map).
  destruct (forall2_in_l _ _ _ _ sources Hv) as (w & Hw & S). destruct (source_inv _ _ S) as (A & B & _).
  exists (fd_var d), w. repeat split; auto; [|congruence|rewrite B; now apply sizes].
  unfold getvar. rewrite <- E, <- A. now rewrite (find_name gv_name _ _ names_nodup Hw).
Qed.
Lemma topology_in : In t (vars_of f) /\ sv_name t = g_topology g /\ sv_dims t = [].
Proof.
  pose proof (ld_lookup _ _ _ _ L) as H. unfold lookup in H. apply find_name_in in H. destruct H as [A B].
  repeat split; auto. now apply (rs_topology _ _ _ _ _ _ R).
Qed.
Lemma scalar_slicing : exists sl, determine_variable_slicing (sgrid_of g) [] = Ok sl.
Proof.
  destruct topology_in as (A & _ & D). destruct (forall2_in_l _ _ _ _ sources A) as (w & _ & S). apply source_inv in S.
  destruct S as (_ & _ & _ & _ & C). apply create_inv in C. destruct C as (ca & loc & _ & C & _). rewrite D in C. eauto.
Qed.
Lemma face_dims_given : fst (g_face_dims g) <> None.
Proof.
  destruct scalar_slicing as (sl & H). eapply dimension_both; [exact (ld_fd _ _ _ _ L)|]. intros E.
  unfold determine_variable_slicing in H. cbn [does_intersection_exist existsb] in H. unfold all_padding, get_all_face_padding in H.
  cbn [sg_face sgrid_of] in H. rewrite E in H. discriminate.
Qed.

Definition coord (n : string) (vals : values) : fdata :=
  match getvar g n with Ok w => new_var g n (gv_dims w) [] (snd vals) | Err _ => new_var g n [] [] (snd vals) end.
Lemma written_read n v : read f n = Ok v -> exists w, getvar g n = Ok w /\ written g w v = Ok (coord n v) /\ sv_shape (fd_var (coord n v)) = fst v.
Proof.
  destruct v as [s vals]. intros H. destruct (getvar_read _ _ _ H) as (v & w & Hv & G & N & S & Nw & D & Sz). exists w. split; auto.
  unfold coord. rewrite G. unfold written. cbn [fst snd]. rewrite Sz, (proj2 (shape_eqb_iff s s) eq_refl), Nw. split; auto.
Qed.
Definition center_vals := match g_center g with Some p => p | None => (([], []), ([], [])) end.
Definition node_vals := match g_node g with Some p => p | None => (([], []), ([], [])) end.
Lemma center_read : g_center g = Some center_vals /\ read f cx = Ok (fst center_vals) /\ read f cy = Ok (snd center_vals).
Proof.
  pose proof (ld_center _ _ _ _ L) as H. rewrite (rs_face _ _ _ _ _ _ R) in H. apply lon_lat_reads in H. destruct H as (a & b & E & A & B).
  unfold center_vals. rewrite E. auto.
Qed.
Lemma node_read : g_node g = Some node_vals /\ read f nx = Ok (fst node_vals) /\ read f ny = Ok (snd node_vals).
Proof.
  pose proof (ld_node _ _ _ _ L) as H. rewrite (rs_node _ _ _ _ _ _ R) in H. apply lon_lat_reads in H. destruct H as (a & b & E & A & B).
  unfold node_vals. rewrite E. auto.
Qed.
Definition angle_vars : list fdata := match getvar g "angle" with Ok _ => [coord "angle" (g_angles g)] | Err _ => [] end.
Definition base : list fdata :=
  [coord cx (fst center_vals); coord cy (snd center_vals); coord nx (fst node_vals); coord ny (snd node_vals); topology_var g] ++ angle_vars.
Lemma coord_name n v : sv_name (fd_var (coord n v)) = n.
Proof. unfold coord. now destruct (getvar g n). Qed.
Lemma angle_read : (exists w, getvar g "angle" = Ok w /\ read f "angle" = Ok (g_angles g)) \/ (exists e e', getvar g "angle" = Err e /\ read f "angle" = Err e').
Proof.
  destruct (read f "angle") as [[s vals]|e] eqn:E.
  - left. destruct (getvar_read _ _ _ E) as (v & w & _ & G & _). exists w. split; auto.
    pose proof (ld_angles _ _ _ _ L) as H. pose proof (rs_angle _ _ _ _ _ _ R _ _ E) as N. unfold get_angles in H. rewrite E in H.
    destruct s as [|[|k] s]; [discriminate|cbn in N; contradiction|]. now rewrite H.
  - right. destruct (getvar g "angle") as [w|e'] eqn:G; [|eauto]. exfalso.
    unfold getvar in G. destruct (find _ _) as [w'|] eqn:F; [|discriminate]. apply find_name_in in F. destruct F as [F1 F2].
    destruct (forall2_in_r _ _ _ _ sources F1) as (v & Hv & S). apply source_inv in S. destruct S as (S & _).
    unfold vars_of in Hv. apply in_map_iff in Hv. destruct Hv as (d & <- & Hd). pose proof (read_in f d (wf_names _ W) Hd) as Rd.
    congruence.
Qed.
Lemma base_names : map (fun d => sv_name (fd_var d)) base = [cx; cy; nx; ny; g_topology g] ++ map (fun d => sv_name (fd_var d)) angle_vars.
Proof. unfold base. rewrite map_app. cbn [map]. now rewrite !coord_name. Qed.
Lemma base_nodup : NoDup (map (fun d => sv_name (fd_var d)) base).
Proof.
  rewrite base_names. unfold angle_vars. pose proof (rs_distinct _ _ _ _ _ _ R) as D. destruct (getvar g "angle"); cbn [map].
  - now rewrite coord_name.
  - rewrite app_nil_r. change [cx; cy; nx; ny; g_topology g; "angle"] with ([cx; cy; nx; ny; g_topology g] ++ ["angle"]) in D.
    apply NoDup_remove_1 in D. now rewrite app_nil_r in D.
Qed.
Lemma create_new l d : ~ In (sv_name (fd_var d)) (map (fun d => sv_name (fd_var d)) l) -> create l d = Ok (l ++ [d]).
Proof. intros H. unfold create, made. rewrite <- isin_in in H. destruct (isin _ _); [now contradict H|reflexivity]. Qed.
Definition saved : nfile :=
  mkNfile (g_dims g) (base ++ map (other_var g) (filter (fun v => negb (made base (gv_name v))) (g_variables g))).
Lemma save_saved : save g = Ok saved.
Proof.
  destruct center_read as (C & Cx & Cy), node_read as (N & Nx & Ny).
  destruct (written_read _ _ Cx) as (wcx & G1 & W1 & _), (written_read _ _ Cy) as (wcy & G2 & W2 & _),
    (written_read _ _ Nx) as (wnx & G3 & W3 & _), (written_read _ _ Ny) as (wny & G4 & W4 & _).
  pose proof base_nodup as B. rewrite base_names in B.
  assert (D : NoDup [cx; cy; nx; ny; g_topology g]) by (now apply nodup_left in B).
  inversion D as [|? ? D1 D']; subst. inversion D' as [|? ? D2 D'']; subst. inversion D'' as [|? ? D3 D3']; subst.
  inversion D3' as [|? ? D4 D4']; subst. cbn [In] in D1, D2, D3, D4.
  unfold save. rewrite (rs_face _ _ _ _ _ _ R). cbn [unpack2 bind].
  unfold pair_vars at 1. cbn [fst snd]. rewrite G1. cbn [bind]. rewrite G2, C. cbn [bind]. destruct center_vals as [clon clat] eqn:Ec. cbn [fst snd] in *.
  rewrite W1. cbn [bind]. rewrite W2. cbn [bind]. rewrite create_new by auto. cbn [bind app].
  rewrite create_new by (cbn [map In]; rewrite !coord_name; intuition congruence). cbn [bind app].
  rewrite (rs_node _ _ _ _ _ _ R). cbn [unpack2]. unfold pair_vars. cbn [fst snd]. rewrite G3. cbn [bind]. rewrite G4, N. cbn [bind].
  destruct node_vals as [nlon nlat] eqn:En. cbn [fst snd] in *. rewrite W3. cbn [bind]. rewrite W4. cbn [bind].
  rewrite create_new by (cbn [map In]; rewrite !coord_name; intuition congruence). cbn [bind app].
  rewrite create_new by (cbn [map In]; rewrite !coord_name; intuition congruence). cbn [bind app].
  assert (GT : exists w, getvar g (g_topology g) = Ok w).
  { destruct topology_in as (A & E & _). destruct (forall2_in_l _ _ _ _ sources A) as (w & Hw & S). apply source_inv in S. destruct S as (S & _).
    exists w. unfold getvar. rewrite <- E, <- S. now rewrite (find_name gv_name _ _ names_nodup Hw). }
  destruct GT as (wt & ->). cbn [bind].
  rewrite create_new by (cbn [map In topology_var fd_var sv_name]; rewrite !coord_name; intuition congruence). cbn [bind app].
  assert (E : match getvar g "angle" with
    | Ok v => do d <- written g v (g_angles g); create [coord cx clon; coord cy clat; coord nx nlon; coord ny nlat; topology_var g] d
    | Err _ => Ok [coord cx clon; coord cy clat; coord nx nlon; coord ny nlat; topology_var g] end = Ok base).
  { unfold base, angle_vars. rewrite Ec, En. cbn [fst snd]. destruct angle_read as [(w & Ga & Ra)|(e & e' & Ga & _)].
    - destruct (written_read _ _ Ra) as (w' & Ga' & Wa & _). rewrite Ga in Ga'. injection Ga' as <-. rewrite Ga, Wa. cbn [bind].
      rewrite create_new; [reflexivity|]. rewrite coord_name. cbn [map In topology_var fd_var sv_name]. rewrite !coord_name.
      pose proof (rs_distinct _ _ _ _ _ _ R) as D0. apply NoDup_remove_2 with (l := [cx; cy; nx; ny; g_topology g]) (l' := []) in D0.
      now rewrite app_nil_r in D0.
    - rewrite Ga. reflexivity. }
  rewrite E. cbn [bind]. unfold others. rewrite others_shape by exact names_nodup.
  pose proof face_dims_given as F. destruct (fst (g_face_dims g)); [reflexivity|contradiction].
Qed.

(** ** Loading it again *)
Definition rest : list sgvar := filter (fun v => negb (made base (gv_name v))) (g_variables g).
Lemma saved_vars : vars_of saved = map fd_var base ++ map (fun w => fd_var (other_var g w)) rest.
Proof. unfold vars_of, saved. cbn [nf_vars]. rewrite map_app, map_map. reflexivity. Qed.
Lemma base_name_vars : map sv_name (map fd_var base) = map (fun d => sv_name (fd_var d)) base.
Proof. now rewrite map_map. Qed.
Lemma nodup_app {A} (l m : list A) : NoDup l -> NoDup m -> (forall a, In a l -> ~ In a m) -> NoDup (l ++ m).
Proof.
  induction 1 as [|a l N _ IH]; intros M D; [exact M|]. cbn. constructor.
  - rewrite in_app_iff. intros [H|H]; [contradiction|]. apply (D a); [now left|exact H].
  - apply IH; auto. intros b B. apply D. now right.
Qed.
Lemma nodup_filter {A B} (p : A -> bool) (h : A -> B) l : NoDup (map h l) -> NoDup (map h (filter p l)).
Proof.
  induction l as [|a l IH]; intros N; cbn; [constructor|]. inversion N; subst. destruct (p a); cbn; auto. constructor; auto.
  intros H. apply H1. apply in_map_iff in H. destruct H as (b & <- & H). apply filter_In in H. now apply in_map.
Qed.
Lemma saved_nodup : NoDup (map sv_name (vars_of saved)).
Proof.
  rewrite saved_vars, map_app, base_name_vars, map_map. cbn [other_var new_var fd_var sv_name]. apply nodup_app.
  - exact base_nodup.
  - apply nodup_filter. exact names_nodup.
  - intros n H I. apply in_map_iff in I. destruct I as (w & <- & I). apply filter_In in I. destruct I as [_ I]. unfold made in I.
    apply isin_in in H. rewrite H in I. discriminate.
Qed.
Lemma named n : In n (map sv_name (vars_of f)) <-> exists v, read f n = Ok v.
Proof.
  split.
  - unfold vars_of. rewrite map_map. intros H. apply in_map_iff in H. destruct H as (d & <- & H). eexists. apply read_in; [exact (wf_names _ W)|exact H].
  - intros (v & H). apply read_inv in H. destruct H as (d & Hd & <- & _). unfold vars_of. rewrite map_map. now apply (in_map (fun d => sv_name (fd_var d))).
Qed.
Lemma base_named n : In n (map (fun d => sv_name (fd_var d)) base) -> In n (map sv_name (vars_of f)).
Proof.
  rewrite base_names. destruct center_read as (_ & A & B), node_read as (_ & C & D). destruct topology_in as (T & E & _).
  intros H. apply in_app_or in H. destruct H as [[<-|[<-|[<-|[<-|[<-|[]]]]]]|H]; try solve [apply named; eauto].
  - rewrite <- E. now apply in_map.
  - unfold angle_vars in H. destruct angle_read as [(w & Gw & Rw)|(e & e' & Gw & _)]; rewrite Gw in H; [|destruct H].
    cbn [map In] in H. rewrite coord_name in H. destruct H as [<-|[]]. apply named. eauto.
Qed.
Lemma saved_names n : In n (map sv_name (vars_of saved)) <-> In n (map sv_name (vars_of f)).
Proof.
  rewrite saved_vars, map_app, base_name_vars, map_map. cbn [other_var new_var fd_var sv_name]. rewrite in_app_iff, <- source_names. split.
  - intros [H|H]; [rewrite source_names; now apply base_named|]. apply in_map_iff in H. destruct H as (w & <- & H). apply filter_In in H. now apply in_map.
  - intros H. destruct (isin n (map (fun d => sv_name (fd_var d)) base)) eqn:E; [left; now apply isin_in|]. right.
    apply in_map_iff in H. destruct H as (w & <- & H). apply in_map. apply filter_In. split; auto. unfold made. now rewrite E.
Qed.
Lemma attr_other w k : attr (fd_var (other_var g w)) k =
  if String.eqb k "grid" then option_map (fun _ => g_topology g) (gv_grid w)
  else if String.eqb k "standard_name" then gv_standard_name w
  else if String.eqb k "coordinates" then option_map join (ds_coordinates (gv_desc w))
  else if String.eqb k "axes" then match ds_axes (gv_desc w) with (None, None, None) => None | a => Some (write_axes a) end
  else None.
Proof.
  unfold attr, other_var, new_var. cbn [fd_var sv_attrs]. rewrite !dget_app, !dget_opt.
  destruct (String.eqb_spec k "grid") as [->|]; [cbn; destruct (gv_grid w), (ds_axes (gv_desc w)) as [[[?|] [?|]] [?|]]; reflexivity|].
  destruct (String.eqb_spec k "standard_name") as [->|]; [cbn; destruct (gv_standard_name w), (ds_axes (gv_desc w)) as [[[?|] [?|]] [?|]]; reflexivity|].
  destruct (String.eqb_spec k "coordinates") as [->|]; [cbn; destruct (ds_coordinates (gv_desc w)), (ds_axes (gv_desc w)) as [[[?|] [?|]] [?|]]; reflexivity|].
  destruct (String.eqb_spec k "axes") as [->|N]; [destruct (ds_axes (gv_desc w)) as [[[?|] [?|]] [?|]]; reflexivity|].
  apply String.eqb_neq in N. destruct (ds_axes (gv_desc w)) as [[[?|] [?|]] [?|]]; cbn [dget]; rewrite ?N; reflexivity.
Qed.
Lemma attr_coord n v k : attr (fd_var (coord n v)) k = None.
Proof. unfold coord. now destruct (getvar g n). Qed.
Definition tvar := fd_var (topology_var g).
Lemma base_cases d : In d base -> d = topology_var g \/ exists n v, d = coord n v /\ In n [cx; cy; nx; ny; "angle"] /\ read f n = Ok v.
Proof.
  destruct center_read as (_ & A & B), node_read as (_ & C & D).
  unfold base. intros H. apply in_app_or in H. destruct H as [[<-|[<-|[<-|[<-|[<-|[]]]]]]|H]; [right; eexists _, _; cbn [In]; eauto 9..|now left|].
  right. unfold angle_vars in H. destruct angle_read as [(w & Gw & Rw)|(e & e' & Gw & _)]; rewrite Gw in H; [|destruct H].
  destruct H as [<-|[]]. eexists _, _. cbn [In]. eauto 9.
Qed.
Lemma saved_cases d : In d (nf_vars saved) -> In d base \/ exists w, In w rest /\ d = other_var g w.
Proof. cbn [saved nf_vars]. intros H. apply in_app_or in H. destruct H as [H|H]; auto. right. apply in_map_iff in H. destruct H as (w & <- & H). eauto. Qed.
Lemma filter_none {A} (p : A -> bool) l : (forall a, In a l -> p a = false) -> filter p l = [].
Proof. induction l as [|a l IH]; intros H; auto. cbn. rewrite (H a (or_introl eq_refl)). apply IH. intros b B. apply H. now right. Qed.
Lemma saved_topology : find_grid_topology_var (vars_of saved) = Ok (g_topology g).
Proof.
  assert (C : forall n v, has_role (fd_var (coord n v)) = false) by (intros n v; unfold has_role; now rewrite attr_coord).
  assert (E : filter has_role (vars_of saved) = [tvar]).
  { rewrite saved_vars, filter_app. rewrite (filter_none has_role (map (fun w => fd_var (other_var g w)) rest)).
    - rewrite app_nil_r. unfold base. rewrite map_app, filter_app. cbn [map filter]. rewrite !C.
      change (has_role (fd_var (topology_var g))) with true. cbv iota. unfold angle_vars. destruct (getvar g "angle"); cbn [map filter app]; rewrite ?C; reflexivity.
    - intros v H. apply in_map_iff in H. destruct H as (w & <- & _). unfold has_role. now rewrite attr_other. }
  unfold find_grid_topology_var. rewrite E. reflexivity.
Qed.
Lemma topology_saved : In (topology_var g) (nf_vars saved).
Proof. cbn [saved nf_vars]. apply in_or_app. left. unfold base. apply in_or_app. left. cbn [In]. auto 9. Qed.
Lemma saved_lookup : lookup (vars_of saved) (g_topology g) = Some tvar.
Proof. change (g_topology g) with (sv_name tvar). apply lookup_in; [exact saved_nodup|]. apply in_map. exact topology_saved. Qed.
Lemma dget_skip k k' o (d : dict string) : String.eqb k k' = false -> dget (opt_attr k' o ++ d) k = dget d k.
Proof. intros H. rewrite dget_app, dget_opt, H. reflexivity. Qed.
Lemma dget_hit k o (d : dict string) : dget (opt_attr k o ++ d) k = match o with Some v => Some v | None => dget d k end.
Proof. rewrite dget_app, dget_opt, String.eqb_refl. reflexivity. Qed.
Lemma opt_id {A} (o : option A) : match o with Some v => Some v | None => None end = o.
Proof. now destruct o. Qed.
Lemma topo_attrs : attr tvar "node_dimensions" = Some (g_node_dimensions g) /\
  attr tvar "edge1_dimensions" = fst (g_edge1_dims g) /\ attr tvar "edge2_dimensions" = fst (g_edge2_dims g) /\
  attr tvar "node_coordinates" = option_map join (g_node_coordinates g) /\
  attr tvar "edge1_coordinates" = option_map join (g_edge1_coordinates g) /\ attr tvar "edge2_coordinates" = option_map join (g_edge2_coordinates g) /\
  attr tvar "face_dimensions" = fst (g_face_dims g) /\ attr tvar "vertical_dimensions" = fst (g_vertical_dims g) /\
  attr tvar "face_coordinates" = option_map join (g_face_coordinates g) /\ attr tvar "grid" = None /\ attr tvar "location" = None /\
  attr tvar "axes" = None /\ attr tvar "standard_name" = None /\ attr tvar "coordinates" = None.
Proof.
  unfold tvar, topology_var, attr; cbn [fd_var sv_attrs].
  repeat split; cbn [app dget String.eqb Ascii.eqb Bool.eqb]; try reflexivity;
    repeat (rewrite dget_skip by reflexivity); rewrite ?dget_hit; repeat (rewrite dget_skip by reflexivity); rewrite dget_opt;
    cbn [String.eqb Ascii.eqb Bool.eqb]; rewrite ?opt_id; reflexivity.
Qed.
Lemma no_location loc : find_coordinates_by_location (vars_of saved) loc 2 = Ok None.
Proof.
  apply c69_no_location. intros v Hv. unfold vars_of in Hv. apply in_map_iff in Hv. destruct Hv as (d & <- & Hd). unfold Carries.
  destruct (saved_cases d Hd) as [B|(w & _ & ->)].
  - destruct (base_cases d B) as [->|(n & v & -> & _)].
    + destruct topo_attrs as (_ & _ & _ & _ & _ & _ & _ & _ & _ & _ & T & _). unfold tvar in T. rewrite T. discriminate.
    + rewrite attr_coord. discriminate.
  - rewrite attr_other. discriminate.
Qed.
Lemma coordinates_again name c any o : attr tvar name = option_map join c -> get_attr_coordinates (vars_of f) t name = Ok c ->
  lon_lat any f c = Ok o -> get_attr_coordinates (vars_of saved) tvar name = Ok c.
Proof.
  intros A G Ll. unfold get_attr_coordinates at 1. rewrite A. destruct c as [l|]; cbn [option_map]; [|apply no_location].
  rewrite split_join; auto.
  - unfold get_attr_coordinates in G. destruct (attr t name) as [raw|]; [injection G as <-; apply split_nonempty|].
    apply by_location_two in G. destruct G as (x & y & ->). discriminate.
  - unfold get_attr_coordinates in G. destruct (attr t name) as [raw|]; [injection G as <-; apply split_nospace|].
    apply by_location_two in G. destruct G as (x & y & ->). apply lon_lat_reads in Ll. destruct Ll as (a & b & _ & Rx & Ry).
    apply read_inv in Rx, Ry. destruct Rx as (d & Hd & <- & _), Ry as (d' & Hd' & <- & _).
    repeat constructor; apply (rs_spaces _ _ _ _ _ _ R); now apply in_map.
Qed.
Lemma coord_again n v : In (coord n v) (nf_vars saved) -> read f n = Ok v -> read saved n = Ok v.
Proof.
  intros H Rn. pose proof (read_in saved _ saved_nodup H) as E. rewrite coord_name in E. rewrite E.
  destruct (written_read _ _ Rn) as (w & Gw & _ & S). rewrite S. destruct v as [s vals]. f_equal. f_equal. unfold coord. rewrite Gw. reflexivity.
Qed.
Lemma in_base d : In d base -> In d (nf_vars saved).
Proof. intros H. cbn [saved nf_vars]. apply in_or_app. now left. Qed.
Lemma read_again n v : read f n = Ok v -> exists v', read saved n = Ok v' /\ fst v' = fst v /\ (~ In n [cx; cy; nx; ny; "angle"] -> Masked v').
Proof.
  intros H. assert (I : In n (map sv_name (vars_of saved))) by (apply saved_names; apply named; eauto).
  unfold vars_of in I. rewrite map_map in I. apply in_map_iff in I. destruct I as (d & E & Hd).
  pose proof (read_in saved _ saved_nodup Hd) as Rd. rewrite E in Rd.
  destruct (saved_cases d Hd) as [B|(w & Hw & ->)].
  - destruct (base_cases d B) as [->|(m & v' & -> & M & Rm)].
    + exists ([], [None]). split; [exact Rd|]. split.
      * apply read_inv in H. destruct H as (d & Hd' & En & ->). cbn [fst]. pose proof (wf_shape _ W d Hd') as S.
        cbn [topology_var fd_var sv_name] in E. rewrite (rs_topology _ _ _ _ _ _ R (fd_var d)) in S by (try (now apply in_map); congruence).
        now inversion S.
      * intros _ x Hx. cbn in Hx. destruct Hx as [<-|[]]. reflexivity.
    + rewrite coord_name in E. subst m. exists v. rewrite Rm in H. injection H as ->. split; [|split; [reflexivity|intros N; contradiction]].
      now apply coord_again.
  - eexists. split; [exact Rd|]. cbn [other_var new_var fd_var sv_shape fd_vals fst]. cbn [other_var new_var fd_var sv_name] in E. split.
    + destruct v as [s vals]. destruct (getvar_read _ _ _ H) as (v & w' & _ & Gw & _ & _ & _ & _ & S). cbn [fst].
      unfold getvar in Gw. apply filter_In in Hw. destruct Hw as [Hw _]. rewrite <- E, (find_name gv_name _ _ names_nodup Hw) in Gw. injection Gw as <-. exact S.
    + intros _ x Hx. cbn [snd] in Hx. unfold blank in Hx. now apply repeat_spec in Hx.
Qed.
Lemma angles_again : get_angles fte saved (g_center g) = Ok (g_angles g).
Proof.
  pose proof (ld_angles _ _ _ _ L) as H. unfold get_angles in *. destruct angle_read as [(w & Gw & Rw)|(e & e' & Gw & Rw)].
  - rewrite (coord_again "angle" (g_angles g)); auto.
    + rewrite Rw in H. pose proof (rs_angle _ _ _ _ _ _ R). destruct (g_angles g) as [s vals]. specialize (H0 _ _ Rw).
      destruct s as [|[|k] s]; [discriminate|cbn in H0; contradiction|reflexivity].
    + apply in_base. unfold base, angle_vars. rewrite Gw. apply in_or_app. right. now left.
  - rewrite Rw in H. destruct (read saved "angle") as [v|e2] eqn:E; [|exact H]. exfalso.
    assert (I : In "angle" (map sv_name (vars_of f))).
    { apply saved_names. apply read_inv in E. destruct E as (d & Hd & <- & _). unfold vars_of. rewrite map_map. now apply (in_map (fun d => sv_name (fd_var d))). }
    apply named in I. destruct I as (v' & I). congruence.
Qed.
Lemma edge_again any c o : lon_lat any f c = Ok o -> exists o', lon_lat any saved c = Ok o' /\ shape_of o' = shape_of o /\
  (match c with Some l => forall n, In n l -> ~ In n [cx; cy; nx; ny; "angle"] | None => True end -> Emptied o o').
Proof.
  unfold lon_lat. destruct (unpack2 c) as [[x y]|e] eqn:U.
  - intros H. apply bind_ok in H. destruct H as (a & A & H). apply bind_ok in H. destruct H as (b & B & H). injection H as <-.
    destruct (read_again _ _ A) as (a' & A' & Sa & Ma), (read_again _ _ B) as (b' & B' & Sb & Mb).
    rewrite A'. cbn [bind]. rewrite B'. cbn [bind]. eexists. split; [reflexivity|]. split; [cbn; now rewrite Sa|].
    intros Hc. destruct c as [[|x0 [|y0 [|z0 r]]]|]; try discriminate. injection U as -> ->. cbn. repeat split; auto.
    + apply Ma. apply Hc. now left.
    + apply Mb. apply Hc. right. now left.
  - destruct e; try (destruct any; [|discriminate]); intros H; injection H as <-; exists None; repeat split.
Qed.
(** Descriptions. *)
Lemma location_ok dims : exists l, infer_variable_location (sgrid_of g) dims = Ok l.
Proof. destruct scalar_slicing as (sl & H). eapply location_total; eauto. Qed.
Lemma base_described d : In d base -> exists w, variable_of (sgrid_of g) (fd_var d) = Ok w.
Proof.
  assert (P : forall v sl, (forall k, In k ["grid"; "location"; "axes"; "standard_name"; "coordinates"] -> attr v k = None) ->
    determine_variable_slicing (sgrid_of g) (sv_dims v) = Ok sl -> exists w, variable_of (sgrid_of g) v = Ok w).
  { intros v sl A S. destruct (location_ok (sv_dims v)) as (loc & Hl). unfold variable_of.
    rewrite (create_ok (sgrid_of g) v (None, None) sl loc (None, None, None) None); [cbn [bind]; eauto| | | | |].
    - now rewrite (A "grid" ltac:(cbn; auto 9)).
    - exact S.
    - now rewrite (A "location" ltac:(cbn; auto 9)).
    - now rewrite (A "axes" ltac:(cbn; auto 9)).
    - now rewrite (A "standard_name" ltac:(cbn; auto 9)). }
  intros H. destruct (base_cases d H) as [->|(n & v & -> & _ & Rn)].
  - destruct scalar_slicing as (sl & S). apply (P _ sl); [|exact S].
    destruct topo_attrs as (_ & _ & _ & _ & _ & _ & _ & _ & _ & T). intros k Hk. cbn [In] in Hk. destruct T as (T1 & T2 & T3 & T4 & T5).
    destruct Hk as [<-|[<-|[<-|[<-|[<-|[]]]]]]; assumption.
  - destruct v as [s vals]. destruct (getvar_read _ _ _ Rn) as (v & w & _ & Gw & _ & S & _ & D & _).
    destruct (source_inv _ _ S) as (_ & _ & _ & _ & C). apply create_inv in C. destruct C as (ca & loc & _ & C & _).
    apply (P _ (ds_slicing (gv_desc w))); [intros k _; apply attr_coord|]. unfold coord. rewrite Gw. cbn [new_var fd_var sv_dims]. now rewrite D.
Qed.
Lemma other_described v w : variable_of (sgrid_of g) v = Ok w ->
  exists w', variable_of (sgrid_of g) (fd_var (other_var g w)) = Ok w' /\ SameDescription (g_topology g) w w' /\
    (attr v "location" = None -> ds_location (gv_desc w') = ds_location (gv_desc w)).
Proof.
  intros S. destruct (source_inv _ _ S) as (N & D & Gr & St & C). apply create_inv in C.
  destruct C as (ca & loc & E1 & E2 & E3 & E4 & E5 & A1 & A2 & A3 & A4).
  destruct (location_ok (sv_dims v)) as (loc' & Hl).
  assert (Ed : sv_dims (fd_var (other_var g w)) = sv_dims v) by (cbn; exact D).
  assert (X : create_variable (sgrid_of g) (fd_var (other_var g w)) = Ok (mkDescribed (fst ca) (snd ca) (ds_slicing (gv_desc w)) (edge_of ca loc')
    (ds_axes (gv_desc w)) (ds_vector_axis (gv_desc w)) (ds_coordinates (gv_desc w)))).
  { erewrite create_ok.
    - do 2 f_equal. rewrite attr_other. cbn [String.eqb Ascii.eqb Bool.eqb]. rewrite A4. destruct (attr v "coordinates") as [c|]; [|reflexivity].
      cbn [option_map]. now rewrite split_strip_join.
    - rewrite attr_other, Ed. cbn [String.eqb Ascii.eqb Bool.eqb]. rewrite Gr. destruct (attr v "grid"); exact E1.
    - rewrite Ed. exact E2.
    - rewrite attr_other, Ed. exact Hl.
    - rewrite attr_other. cbn [String.eqb Ascii.eqb Bool.eqb].
      assert (P : parse_axes (write_axes (ds_axes (gv_desc w))) = Ok (ds_axes (gv_desc w))).
      { destruct (attr v "axes") as [s|]; [now apply axes_again in E4|]. injection E4 as <-. reflexivity. }
      destruct (ds_axes (gv_desc w)) as [[[?|] [?|]] [?|]]; exact P || reflexivity.
    - rewrite attr_other. cbn [String.eqb Ascii.eqb Bool.eqb]. rewrite St. exact E5. }
  unfold variable_of. rewrite X. cbn [bind]. eexists. split; [reflexivity|]. split.
  - unfold SameDescription. cbn [gv_name gv_dims gv_standard_name gv_grid gv_desc ds_center_axis ds_node_axis ds_slicing ds_axes ds_vector_axis ds_coordinates].
    rewrite !attr_other. cbn [String.eqb Ascii.eqb Bool.eqb]. repeat split; auto.
    + intros E. now rewrite E.
    + intros E. destruct (gv_grid w); [reflexivity|contradiction].
  - intros E. rewrite E in E3. cbn [gv_desc ds_location]. rewrite A3. congruence.
Qed.
Lemma saved_described : exists ws, mapM_res (variable_of (sgrid_of g)) (vars_of saved) = Ok ws.
Proof.
  apply mapM_all. intros v Hv. unfold vars_of in Hv. apply in_map_iff in Hv. destruct Hv as (d & <- & Hd).
  destruct (saved_cases d Hd) as [B|(w & Hw & ->)]; [now apply base_described|].
  apply filter_In in Hw. destruct Hw as [Hw _]. destruct (forall2_in_r _ _ _ _ sources Hw) as (v & _ & S).
  destruct (other_described _ _ S) as (w' & H & _). eauto.
Qed.
Lemma load_saved : exists g', Loaded fte saved tvar g' /\ g_dims g' = g_dims g /\ g_topology g' = g_topology g /\
  g_node_dimensions g' = g_node_dimensions g /\ g_node_coordinates g' = g_node_coordinates g /\
  g_edge1_dims g' = g_edge1_dims g /\ g_edge2_dims g' = g_edge2_dims g /\ g_face_dims g' = g_face_dims g /\ g_vertical_dims g' = g_vertical_dims g /\
  g_edge1_coordinates g' = g_edge1_coordinates g /\ g_edge2_coordinates g' = g_edge2_coordinates g /\ g_face_coordinates g' = g_face_coordinates g /\
  g_angles g' = g_angles g /\ g_node g' = g_node g /\ g_center g' = g_center g /\
  shape_of (g_edge1 g') = shape_of (g_edge1 g) /\ shape_of (g_edge2 g') = shape_of (g_edge2 g).
Proof.
  destruct topo_attrs as (T1 & T2 & T3 & T4 & T5 & T6 & T7 & T8 & T9 & _).
  destruct (edge_again _ _ _ (ld_edge1 _ _ _ _ L)) as (o1 & O1 & S1 & _), (edge_again _ _ _ (ld_edge2 _ _ _ _ L)) as (o2 & O2 & S2 & _).
  destruct saved_described as (ws & Hw).
  destruct center_read as (C & Cx & Cy), node_read as (N & Nx & Ny).
  exists (mkGrid (g_dims g) (g_topology g) (g_node_dimensions g) (g_node_coordinates g) (g_edge1_dims g) (g_edge2_dims g) (g_face_dims g) (g_vertical_dims g)
    (g_edge1_coordinates g) (g_edge2_coordinates g) (g_face_coordinates g) (g_angles g) (g_node g) (g_center g) o1 o2
    (get_masks (vars_of saved) (shape_of (g_node g)) (shape_of (g_center g)) (shape_of o1) (shape_of o2)) ws).
  split; [|cbn; auto 20].
  constructor; cbn [g_dims g_topology g_node_dimensions g_node_coordinates g_edge1_dims g_edge2_dims g_face_dims g_vertical_dims g_edge1_coordinates
    g_edge2_coordinates g_face_coordinates g_angles g_node g_center g_edge1 g_edge2 g_masks g_variables].
  - reflexivity.
  - exact saved_topology.
  - exact saved_lookup.
  - unfold get_node_coordinates. rewrite T1, T4, (rs_node _ _ _ _ _ _ R). cbn [option_map]. rewrite split_join; [reflexivity|discriminate|].
    apply read_inv in Nx, Ny. destruct Nx as (d & Hd & <- & _), Ny as (d' & Hd' & <- & _).
    repeat constructor; apply (rs_spaces _ _ _ _ _ _ R); now apply in_map.
  - eapply dimension_same; [exact (ld_e1 _ _ _ _ L)|exact T2].
  - eapply dimension_same; [exact (ld_e2 _ _ _ _ L)|exact T3].
  - eapply coordinates_again; [exact T5|exact (ld_c1 _ _ _ _ L)|exact (ld_edge1 _ _ _ _ L)].
  - eapply coordinates_again; [exact T6|exact (ld_c2 _ _ _ _ L)|exact (ld_edge2 _ _ _ _ L)].
  - eapply coordinates_again; [exact T9|exact (ld_cf _ _ _ _ L)|exact (ld_center _ _ _ _ L)].
  - rewrite (rs_face _ _ _ _ _ _ R). unfold lon_lat. cbn [unpack2].
    rewrite (coord_again cx (fst center_vals)) by (auto; apply in_base; unfold base; cbn [app In]; auto 9). cbn [bind].
    rewrite (coord_again cy (snd center_vals)) by (auto; apply in_base; unfold base; cbn [app In]; auto 9). cbn [bind].
    rewrite C. now destruct center_vals.
  - exact angles_again.
  - eapply dimension_same; [exact (ld_vd _ _ _ _ L)|exact T8].
  - rewrite (rs_node _ _ _ _ _ _ R). unfold lon_lat. cbn [unpack2].
    rewrite (coord_again nx (fst node_vals)) by (auto; apply in_base; unfold base; cbn [app In]; auto 9). cbn [bind].
    rewrite (coord_again ny (snd node_vals)) by (auto; apply in_base; unfold base; cbn [app In]; auto 9). cbn [bind].
    rewrite N. now destruct node_vals.
  - exact O1.
  - exact O2.
  - eapply dimension_same; [exact (ld_fd _ _ _ _ L)|exact T7].
  - reflexivity.
  - exact Hw.
Qed.
End Saved.
