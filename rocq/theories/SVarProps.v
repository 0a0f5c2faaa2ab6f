(** C69: SGRID coordinate and mask discovery.  C70: slicing, axes and location
    of the variables. *)
From Coq Require Import String Ascii.
From Verif Require Import Common CommonProofs MaskModel GridTypeModel GridTypeSpec GridTypeProofs ChainModel VerdatModel VerdatText
  SAttrModel SAttrSpec SAttrProofs SAttrParse MaskSpec MaskProofs UFileProofs SVarModel SVarSpec SVarProofs.
Open Scope string_scope.
Open Scope list_scope.
Open Scope nat_scope.

Definition plain_var (n : string) (dims : list string) : svar := mkSvar n dims [] None [].

(** ** C69 *)
(** The topology variable: the only one with the role, of dimension 2. *)
Theorem c69_topology_variable : forall f n,
  find_grid_topology_var f = Ok n <->
  exists v, OnlyWith (fun w => attr w "cf_role" = Some "grid_topology") f v /\ sv_topology_dimension v = Some 2%Z /\ sv_name v = n.
Proof.
  intros f n. unfold find_grid_topology_var. split.
  - destruct (filter has_role f) as [|v [|w r]] eqn:E; try discriminate.
    apply (filter_one _ _ _ _ has_role_iff) in E.
    destruct (sv_topology_dimension v) as [d|] eqn:D; [|discriminate].
    destruct (d =? 2)%Z eqn:D2; [|discriminate]. apply Z.eqb_eq in D2. subst d. intros H. injection H as <-. eauto.
  - intros (v & O & D & <-). apply (filter_one _ _ _ _ has_role_iff) in O. rewrite O, D. reflexivity.
Qed.
Print Assumptions c69_topology_variable.
Theorem c69_topology_error : forall f, (forall n, find_grid_topology_var f <> Ok n) -> find_grid_topology_var f = Err ValueError.
Proof.
  intros f H. unfold find_grid_topology_var in *. destruct (filter has_role f) as [|v [|w r]]; auto.
  destruct (sv_topology_dimension v) as [d|]; auto. destruct (d =? 2)%Z; auto. exfalso. eapply H. reflexivity.
Qed.
Print Assumptions c69_topology_error.
Definition topo_var : svar := mkSvar "grid" [] [("cf_role", "grid_topology"); ("node_dimensions", "xi_psi eta_psi")] (Some 2%Z) [].
Example c69_topology_ex : find_grid_topology_var [plain_var "lon" ["xi_psi"; "eta_psi"]; topo_var] = Ok "grid" /\
  find_grid_topology_var [topo_var; topo_var] = Err ValueError.
Proof. split; reflexivity. Qed.

(** What is returned as node coordinates lies on the node dimensions and is
    named like a coordinate. *)
Theorem c69_node_coordinates : forall f nd dims x y,
  split_on " " nd = dims -> find_node_coordinates f nd = Some (x, y) ->
  (exists v, In v f /\ sv_name v = x /\ Lies v dims /\ XLike v) /\
  (exists v, In v f /\ sv_name v = y /\ Lies v dims /\ YLike v /\ ~ XLike v).
Proof.
  intros f nd dims x y <- H. unfold find_node_coordinates in H.
  destruct (node_loop_spec (split_on " " nd) f [] (None, None)) as (read & left & E & X & Y & _); try (now cbn); auto.
  destruct (node_loop (split_on " " nd) f (None, None)) as [[a|] [b|]]; try discriminate. injection H as <- <-.
  cbn in E, X, Y. subst f. destruct X as (v & V & Px & Nx), Y as (w & W & Py & Ny). split.
  - exists v. apply xvar_iff in Px. split; [apply in_or_app; auto|]. tauto.
  - exists w. apply yvar_iff in Py. split; [apply in_or_app; auto|]. tauto.
Qed.
Print Assumptions c69_node_coordinates.
(** They are found exactly when the file has one of each. *)
Theorem c69_node_coordinates_found : forall f nd dims, split_on " " nd = dims ->
  (find_node_coordinates f nd <> None <->
   (exists v, In v f /\ Lies v dims /\ XLike v) /\ (exists v, In v f /\ Lies v dims /\ YLike v /\ ~ XLike v)).
Proof.
  intros f nd dims E. split.
  - intros H. destruct (find_node_coordinates f nd) as [[x y]|] eqn:F; [|contradiction].
    destruct (c69_node_coordinates _ _ _ _ _ E F) as [(v & A & _ & B) (w & C & _ & D)]. eauto 6.
  - intros [(v & V & Pv) (w & W & Pw)] H. unfold find_node_coordinates in H. rewrite E in H.
    destruct (node_loop_spec dims f [] (None, None)) as (read & left & Er & X & Y & S); try (now cbn); auto.
    cbn in Er. apply xvar_iff in Pv. apply yvar_iff in Pw.
    destruct (node_loop dims f (None, None)) as [[a|] [b|]]; cbn in *; try discriminate.
    all: destruct S as [->|[S1 S2]]; [rewrite app_nil_r in Er; subst read|congruence].
    + specialize (Y w W). congruence.
    + specialize (X v V). congruence.
    + specialize (Y w W). congruence.
Qed.
Print Assumptions c69_node_coordinates_found.
(** With one candidate of each kind those are the ones. *)
Theorem c69_node_coordinates_unique : forall f nd dims v w, split_on " " nd = dims ->
  OnlyWith (fun u => Lies u dims /\ XLike u) f v -> OnlyWith (fun u => Lies u dims /\ YLike u /\ ~ XLike u) f w ->
  find_node_coordinates f nd = Some (sv_name v, sv_name w).
Proof.
  intros f nd dims v w E Ov Ow.
  assert (U : forall (P : svar -> Prop) a b, OnlyWith P f a -> In b f -> P b -> a = b).
  { intros P a b (pre & post & -> & Pa & N) I Pb. apply in_app_or in I. destruct I as [I|[I|I]]; auto;
    exfalso; apply (N b); auto; apply in_or_app; auto. }
  assert (I : forall (P : svar -> Prop) a, OnlyWith P f a -> In a f /\ P a).
  { intros P a (pre & post & -> & Pa & _). split; auto. apply in_elt. }
  destruct (find_node_coordinates f nd) as [[x y]|] eqn:F.
  - destruct (c69_node_coordinates _ _ _ _ _ E F) as [(v' & A & <- & B) (w' & C & <- & D)].
    rewrite (U _ _ _ Ov A B), (U _ _ _ Ow C D). reflexivity.
  - exfalso. destruct (I _ _ Ov) as [A B], (I _ _ Ow) as [C D].
    apply (proj2 (c69_node_coordinates_found f nd dims E)); eauto 6.
Qed.
Print Assumptions c69_node_coordinates_unique.
Definition roms_file : sfile :=
  [topo_var; plain_var "LAT_psi" ["eta_psi"; "xi_psi"]; plain_var "h" ["eta_psi"; "xi_psi"];
   plain_var "lon_rho" ["eta_rho"; "xi_rho"]; mkSvar "g" ["eta_psi"; "xi_psi"] [("standard_name", "Longitude")] None []].
Example c69_node_ex : find_node_coordinates roms_file "xi_psi eta_psi" = Some ("g", "LAT_psi") /\
  find_node_coordinates roms_file "xi_psi" = None.
Proof. split; reflexivity. Qed.
(** Ordinary names are mistaken: any name with an x in it is an x coordinate,
    so latitudes called lat_vertex are, and the pair is not found ... *)
Theorem c69_vertex_refuted : exists f, f = [plain_var "lon_vertex" ["n"; "m"]; plain_var "lat_vertex" ["n"; "m"]] /\
  find_node_coordinates f "n m" = None.
Proof. eexists. split; reflexivity. Qed.
Print Assumptions c69_vertex_refuted.
(** ... and a data variable on the nodes takes the place of the longitude. *)
Theorem c69_flux_refuted : exists f, f = [plain_var "lon" ["n"; "m"]; plain_var "flux" ["n"; "m"]; plain_var "lat" ["n"; "m"]] /\
  find_node_coordinates f "n m" = Some ("flux", "lat").
Proof. eexists. split; reflexivity. Qed.
Print Assumptions c69_flux_refuted.

(** Coordinates by location. *)
Lemma first_filter {A} (p : A -> bool) (P : A -> Prop) l x : (forall y, p y = true <-> P y) -> FirstOf P l x ->
  exists r, filter p l = x :: r.
Proof.
  intros H (pre & post & -> & Px & N). induction pre as [|a pre IH]; cbn.
  - rewrite (proj2 (H x) Px). eauto.
  - destruct (p a) eqn:E.
    + exfalso. apply (N a); [now left|now apply H].
    + apply IH. intros y Hy. apply N. now right.
Qed.
Lemma carries_iff loc v : (match attr v "location" with Some l => String.eqb l loc | None => false end) = true <-> Carries loc v.
Proof.
  unfold Carries. destruct (attr v "location") as [l|]; [|split; discriminate]. rewrite String.eqb_eq. split; congruence.
Qed.
Definition LonName (f : sfile) (n : string) : Prop := exists w, lookup f n = Some w /\ Lon w.
Definition LatName (f : sfile) (n : string) : Prop := exists w, lookup f n = Some w /\ Lat w /\ ~ Lon w.
Lemma named_steps_ok f : forall names c, (forall n, In n names -> lookup f n <> None) ->
  exists x y, named_steps f names c = Ok (x, y, snd c) /\
    ((exists n, In n names /\ LonName f n /\ x = Some n) \/ ((forall n, In n names -> ~ LonName f n) /\ x = fst (fst c))) /\
    ((exists n, In n names /\ LatName f n /\ y = Some n) \/ ((forall n, In n names -> ~ LatName f n) /\ y = snd (fst c))).
Proof.
  induction names as [|n names IH]; intros [[x y] z] H.
  - exists x, y. cbn. split; auto.
  - cbn [named_steps]. destruct (lookup f n) as [w|] eqn:E; [|exfalso; apply (H n); auto; now left].
    set (c' := if named_lon w then set_x (x, y, z) n else if named_lat w then set_y (x, y, z) n else (x, y, z)).
    destruct (IH c') as (x' & y' & Ec & X & Y); [intros m Hm; apply H; now right|].
    exists x', y'. split.
    { rewrite Ec. subst c'. destruct (named_lon w); [reflexivity|]. destruct (named_lat w); reflexivity. }
    pose proof (named_lon_iff w) as Lo. pose proof (named_lat_iff w) as La.
    assert (HLon : LonName f n <-> named_lon w = true).
    { rewrite Lo. split; [intros (w' & E' & L)|intros L; exists w; auto]. congruence. }
    assert (HLat : LatName f n <-> (named_lat w = true /\ named_lon w = false)).
    { rewrite La. split.
      - intros (w' & E' & L & NL). assert (w' = w) by congruence. subst w'. split; auto.
        destruct (named_lon w); auto. exfalso. apply NL. now apply Lo.
      - intros [L NL]. exists w. repeat split; auto. rewrite <- Lo. congruence. }
    cbn [In fst snd]. split.
    + destruct X as [(m & Hm & Lm & ->)|[Nm ->]]; [left; exists m; auto|].
      subst c'. destruct (named_lon w) eqn:El; cbn [set_x set_y fst snd].
      * left. exists n. repeat split; auto. now apply HLon.
      * right. split; [|destruct (named_lat w); reflexivity]. intros m [<-|Hm]; auto. rewrite HLon. discriminate.
    + destruct Y as [(m & Hm & Lm & ->)|[Nm ->]]; [left; exists m; auto|].
      subst c'. destruct (named_lon w) eqn:El; cbn [set_x set_y fst snd].
      * right. split; auto. intros m [<-|Hm]; auto. rewrite HLat. intuition discriminate.
      * destruct (named_lat w) eqn:Et; cbn [set_y fst snd].
        -- left. exists n. repeat split; auto. now apply HLat.
        -- right. split; auto. intros m [<-|Hm]; auto. rewrite HLat. intuition discriminate.
Qed.
(** The first variable with that location that names its coordinates decides:
    its longitude and its latitude, in whatever order it names them. *)
Theorem c69_by_location : forall f loc v names a b,
  FirstOf (Carries loc) f v -> attr v "coordinates" = Some (spaced names) -> strip (spaced names) = spaced names ->
  Forall NoSpace names -> a <> "" -> b <> "" ->
  (forall n, In n names -> lookup f n <> None) ->
  OnlyWith (LonName f) names a -> OnlyWith (LatName f) names b ->
  find_coordinates_by_location f loc 2 = Ok (Some [a; b]).
Proof.
  intros f loc v names a b F At St NS Na Nb Lk Oa Ob. unfold find_coordinates_by_location, with_location.
  destruct (first_filter _ _ _ _ (carries_iff loc) F) as (r & ->). cbn [location_loop]. rewrite At, St.
  assert (NE : names <> []) by (destruct Oa as (pre & post & -> & _); destruct pre; discriminate).
  rewrite split_spaced by auto.
  destruct (named_steps_ok f names (None, None, None) Lk) as (x & y & -> & X & Y). cbn [bind fst snd].
  assert (U : forall (P : string -> Prop) c n, OnlyWith P names c -> In n names -> P n -> n = c).
  { intros P c n (pre & post & -> & Pc & N) I Pn. apply in_app_or in I. destruct I as [I|[I|I]]; auto;
    exfalso; apply (N n); auto; apply in_or_app; auto. }
  assert (X' : x = Some a).
  { destruct X as [(n & I & L & ->)|[N _]]; [f_equal; eapply U; eauto|].
    exfalso. destruct Oa as (pre & post & -> & Pa & _). apply (N a); auto. apply in_elt. }
  assert (Y' : y = Some b).
  { destruct Y as [(n & I & L & ->)|[N _]]; [f_equal; eapply U; eauto|].
    exfalso. destruct Ob as (pre & post & -> & Pb & _). apply (N b); auto. apply in_elt. }
  subst x y. apply String.eqb_neq in Na, Nb.
  destruct (length names =? 3); cbn [set_z bind Z.eqb Pos.eqb forallb truthy map]; rewrite Na, Nb; reflexivity.
Qed.
Print Assumptions c69_by_location.
Definition face_var : svar := mkSvar "zeta" ["t"; "eta_rho"; "xi_rho"] [("location", "face"); ("coordinates", "lat_rho time lon_rho")] None [].
Definition loc_file : sfile := [plain_var "lon_rho" ["eta_rho"; "xi_rho"]; plain_var "lat_rho" ["eta_rho"; "xi_rho"]; plain_var "time" ["t"]; face_var].
Example c69_by_location_ex : find_coordinates_by_location loc_file "face" 2 = Ok (Some ["lon_rho"; "lat_rho"]) /\
  FirstOf (Carries "face") loc_file face_var /\ attr face_var "coordinates" = Some (spaced ["lat_rho"; "time"; "lon_rho"]).
Proof.
  split; [reflexivity|]. split; [|reflexivity].
  exists (firstn 3 loc_file), []. repeat split. intros y [<-|[<-|[<-|[]]]]; discriminate.
Qed.
(** No variable with that location: nothing. *)
Theorem c69_no_location : forall f loc d, (forall v, In v f -> ~ Carries loc v) -> find_coordinates_by_location f loc d = Ok None.
Proof.
  intros f loc d H. unfold find_coordinates_by_location, with_location.
  replace (filter _ f) with (@nil svar).
  - cbn. now destruct (d =? 2)%Z.
  - symmetry. induction f as [|v f IH]; auto. cbn [filter].
    destruct (match attr v "location" with Some l => String.eqb l loc | None => false end) eqn:E.
    + exfalso. apply carries_iff in E. apply (H v); auto. now left.
    + apply IH. intros w Hw. apply H. now right.
Qed.
Print Assumptions c69_no_location.
(** A coordinate that is not in the file, and two spaces between names, both
    end the search with KeyError. *)
Theorem c69_double_space_refuted : exists f v, In v f /\ attr v "coordinates" = Some "lon_rho  lat_rho" /\
  lookup f "lon_rho" <> None /\ lookup f "lat_rho" <> None /\ find_coordinates_by_location f "face" 2 = Err KeyError.
Proof.
  exists [plain_var "lon_rho" ["n"]; plain_var "lat_rho" ["n"]; mkSvar "z" ["n"] [("location", "face"); ("coordinates", "lon_rho  lat_rho")] None []].
  eexists. split; [right; right; left; reflexivity|]. repeat split; discriminate.
Qed.
Print Assumptions c69_double_space_refuted.

(** Coordinates of a location: those the topology variable names, else those of
    the variables at that location. *)
Theorem c69_attr_coordinates : forall f t loc,
  (forall names, names <> [] -> Forall NoSpace names -> attr t (loc ++ "_coordinates") = Some (spaced names) ->
     get_attr_coordinates f t (loc ++ "_coordinates") = Ok (Some names)) /\
  (Every (fun c => c <> "_"%char) loc -> attr t (loc ++ "_coordinates") = None ->
     get_attr_coordinates f t (loc ++ "_coordinates") = find_coordinates_by_location f loc 2).
Proof.
  intros f t loc. unfold get_attr_coordinates. split.
  - intros names N F ->. now rewrite split_spaced.
  - intros E ->. change "_coordinates" with (String "_" "coordinates"). now rewrite split_on_app.
Qed.
Print Assumptions c69_attr_coordinates.
Example c69_attr_coordinates_ex :
  let f := [plain_var "lon_rho" ["n"]; plain_var "lat_rho" ["n"]; mkSvar "z" ["n"] [("location", "face"); ("coordinates", "lon_rho lat_rho")] None []] in
  get_attr_coordinates f (plain_var "grid" []) "face_coordinates" = Ok (Some ["lon_rho"; "lat_rho"]) /\
  get_attr_coordinates f (plain_var "grid" []) "node_coordinates" = Ok None.
Proof. split; reflexivity. Qed.

(** Without a coordinates attribute the guess comes from variables on the
    dimensions of a variable with that location. *)
Definition Beside (f : sfile) (loc : string) (n : string) (P : svar -> Prop) : Prop :=
  exists v w, In v f /\ Carries loc v /\ In w f /\ incl (sv_dims w) (sv_dims v) /\ sv_name w <> sv_name v /\ sv_dims w <> [] /\
    P w /\ sv_name w = n.
Lemma guess_fold f loc v : In v f -> Carries loc v -> forall l c, incl l (potential f v) ->
  (forall n, fst (fst c) = Some n -> Beside f loc n XLike) -> (forall n, snd (fst c) = Some n -> Beside f loc n (fun w => YLike w /\ ~ XLike w)) ->
  let c' := fold_left guess_step l c in
  (forall n, fst (fst c') = Some n -> Beside f loc n XLike) /\ (forall n, snd (fst c') = Some n -> Beside f loc n (fun w => YLike w /\ ~ XLike w)).
Proof.
  intros V C. induction l as [|w l IH]; intros [[x y] z] I X Y; [cbn; auto|]. cbn [fold_left]. apply IH.
  - intros u Hu. apply I. now right.
  - unfold guess_step. destruct (looks x_coordinates w) eqn:Lx; [|destruct (looks y_coordinates w); cbn; auto].
    cbn. intros n E. injection E as <-. assert (W : In w (potential f v)) by (apply I; now left).
    unfold potential in W. apply filter_In in W. destruct W as [W B]. rewrite !andb_true_iff, subset_iff, !negb_true_iff in B.
    destruct B as [[B1 B2] B3]. exists v, w. repeat split; auto.
    + intros E. rewrite E, String.eqb_refl in B2. discriminate.
    + intros E. rewrite E in B3. discriminate.
    + now apply looks_x.
  - unfold guess_step. destruct (looks x_coordinates w) eqn:Lx; [cbn; auto|]. destruct (looks y_coordinates w) eqn:Ly; [|cbn; auto].
    cbn. intros n E. injection E as <-. assert (W : In w (potential f v)) by (apply I; now left).
    unfold potential in W. apply filter_In in W. destruct W as [W B]. rewrite !andb_true_iff, subset_iff, !negb_true_iff in B.
    destruct B as [[B1 B2] B3]. exists v, w. repeat split; auto.
    + intros E. rewrite E, String.eqb_refl in B2. discriminate.
    + intros E. rewrite E in B3. discriminate.
    + now apply looks_y.
    + rewrite <- looks_x. congruence.
Qed.
Theorem c69_guessed_by_location : forall f loc names,
  (forall v, In v f -> Carries loc v -> attr v "coordinates" = None) ->
  find_coordinates_by_location f loc 2 = Ok (Some names) ->
  exists x y, names = [x; y] /\ Beside f loc x XLike /\ Beside f loc y (fun w => YLike w /\ ~ XLike w).
Proof.
  intros f loc names NC H. unfold find_coordinates_by_location in H.
  assert (G : forall vs c, (forall v, In v vs -> In v f /\ Carries loc v) ->
    (forall n, fst (fst c) = Some n -> Beside f loc n XLike) -> (forall n, snd (fst c) = Some n -> Beside f loc n (fun w => YLike w /\ ~ XLike w)) ->
    exists c', location_loop f vs c = Ok c' /\
    (forall n, fst (fst c') = Some n -> Beside f loc n XLike) /\ (forall n, snd (fst c') = Some n -> Beside f loc n (fun w => YLike w /\ ~ XLike w))).
  { induction vs as [|v vs IH]; intros c V X Y; [exists c; auto|]. cbn [location_loop].
    destruct (V v (or_introl eq_refl)) as [V1 V2]. rewrite (NC v V1 V2).
    destruct (guess_fold f loc v V1 V2 (potential f v) c (incl_refl _) X Y) as [X' Y'].
    apply IH; auto. intros w Hw. apply V. now right. }
  destruct (G (with_location f loc) (None, None, None)) as ([[x y] z] & E & X & Y).
  { intros v Hv. unfold with_location in Hv. apply filter_In in Hv. destruct Hv as [I C]. split; auto. now apply carries_iff. }
  { discriminate. } { discriminate. }
  rewrite E in H. cbn [bind Z.eqb Pos.eqb fst snd] in H, X, Y. cbv zeta in H.
  destruct (forallb truthy [x; y]) eqn:T; [|discriminate]. cbn [forallb] in T. rewrite !andb_true_iff in T. destruct T as (Tx & Ty & _).
  destruct x as [x|]; [|discriminate]. destruct y as [y|]; [|discriminate]. cbn [map] in H. injection H as <-. exists x, y. auto.
Qed.
Print Assumptions c69_guessed_by_location.
Example c69_guessed_ex : find_coordinates_by_location
  [plain_var "lonr" ["m"; "n"]; plain_var "latr" ["m"; "n"]; mkSvar "zeta" ["t"; "m"; "n"] [("location", "face")] None []] "face" 2
  = Ok (Some ["lonr"; "latr"]).
Proof. reflexivity. Qed.

(** Masks: the first mask variable with the shape of the location. *)
Lemma shape_eqb_iff a : forall b, shape_eqb a b = true <-> a = b.
Proof.
  induction a as [|x a IH]; intros [|y b]; cbn; try (split; congruence).
  rewrite andb_true_iff, Nat.eqb_eq, IH. split; [intros [-> ->]; auto|intros E; injection E; auto].
Qed.
Lemma mask_candidate_iff v : mask_candidate v = true <-> MaskVar v.
Proof.
  unfold mask_candidate, MaskVar. rewrite orb_true_iff, contains_spec. split.
  - intros [H|H]; auto. right. destruct (attr v "long_name") as [l|]; [|discriminate]. exists l. split; auto. now apply contains_spec.
  - intros [H|(l & E & M)]; auto. right. rewrite E. now apply contains_spec.
Qed.
Definition MaskOf (f : sfile) (shape : option (list nat)) (m : option string) : Prop :=
  match m with
  | Some n => exists s v, shape = Some s /\ s <> [] /\ FirstOf (fun w => MaskVar w /\ sv_shape w = s) f v /\ sv_name v = n
  | None => forall s v, shape = Some s -> s <> [] -> In v f -> MaskVar v -> sv_shape v <> s
  end.
Definition mask_fold (shape : option (list nat)) (l : list svar) (m : option string) : option string :=
  fold_left (fun m v => take_mask shape v m) l m.
Lemma masks_split node center edge1 edge2 : forall l n c e1 e2,
  fold_left (fun m v => let '(n, c, e1, e2) := m in
              (take_mask node v n, take_mask center v c, take_mask edge1 v e1, take_mask edge2 v e2)) l (n, c, e1, e2)
  = (mask_fold node l n, mask_fold center l c, mask_fold edge1 l e1, mask_fold edge2 l e2).
Proof. induction l as [|v l IH]; intros; cbn [fold_left]; auto. rewrite IH. reflexivity. Qed.
Lemma mask_fold_some shape l : forall n, mask_fold shape l (Some n) = Some n.
Proof. unfold mask_fold. induction l as [|v l IH]; intros; cbn [fold_left]; auto. destruct shape as [[|]|]; cbn; apply IH. Qed.
Lemma mask_fold_none l : mask_fold None l None = None /\ mask_fold (Some []) l None = None.
Proof. unfold mask_fold. induction l as [|v l IH]; cbn; auto. Qed.
Lemma mask_fold_first a s f : 
  match mask_fold (Some (a :: s)) (filter mask_candidate f) None with
  | Some n => exists v, FirstOf (fun w => MaskVar w /\ sv_shape w = a :: s) f v /\ sv_name v = n
  | None => forall v, In v f -> MaskVar v -> sv_shape v <> a :: s
  end.
Proof.
  induction f as [|v f IH]; [intros v []|]. cbn [filter].
  assert (Skip : ~ (MaskVar v /\ sv_shape v = a :: s) ->
    match mask_fold (Some (a :: s)) (filter mask_candidate f) None with
    | Some n => exists u, FirstOf (fun w => MaskVar w /\ sv_shape w = a :: s) (v :: f) u /\ sv_name u = n
    | None => forall u, In u (v :: f) -> MaskVar u -> sv_shape u <> a :: s
    end).
  { intros N. destruct (mask_fold (Some (a :: s)) (filter mask_candidate f) None) as [n|].
    - destruct IH as (u & (pre & post & -> & Pu & Np) & E). exists u. split; auto. exists (v :: pre), post. repeat split; try apply Pu.
      intros y [<-|Hy]; auto.
    - intros u [<-|Hu] M E; [apply N; auto|now apply (IH u Hu M)]. }
  destruct (mask_candidate v) eqn:C.
  - change (mask_fold (Some (a :: s)) (v :: filter mask_candidate f) None)
      with (mask_fold (Some (a :: s)) (filter mask_candidate f) (if shape_eqb (sv_shape v) (a :: s) then Some (sv_name v) else None)).
    destruct (shape_eqb (sv_shape v) (a :: s)) eqn:E.
    + rewrite mask_fold_some.
      exists v. split; auto. exists [], f. repeat split; [now apply mask_candidate_iff|now apply shape_eqb_iff|intros y []].
    + apply Skip. intros [_ S]. apply shape_eqb_iff in S. congruence.
  - apply Skip. intros [M _]. apply mask_candidate_iff in M. congruence.
Qed.
Theorem c69_masks : forall f node center edge1 edge2 n c e1 e2,
  get_masks f node center edge1 edge2 = (n, c, e1, e2) ->
  MaskOf f node n /\ MaskOf f center c /\ MaskOf f edge1 e1 /\ MaskOf f edge2 e2.
Proof.
  assert (G : forall f shape, MaskOf f shape (mask_fold shape (filter mask_candidate f) None)).
  { intros f [[|a s]|].
    - rewrite (proj2 (mask_fold_none _)). intros s v E N. now injection E as <-.
    - pose proof (mask_fold_first a s f) as H. destruct (mask_fold _ _ None) as [n|]; cbn.
      + destruct H as (v & F & E). exists (a :: s), v. repeat split; auto. discriminate.
      + intros s' v E N I M. injection E as <-. now apply H.
    - rewrite (proj1 (mask_fold_none _)). intros s v E. discriminate. }
  intros f node center edge1 edge2 n c e1 e2 H. unfold get_masks in H. rewrite masks_split in H.
  injection H as <- <- <- <-. repeat split; apply G.
Qed.
Print Assumptions c69_masks.
Definition shaped (n : string) (s : list nat) : svar := mkSvar n [] [] None s.
Example c69_masks_ex :
  get_masks [shaped "h" [5; 6]; shaped "mask_rho" [5; 6]; shaped "mask_psi" [4; 5]; mkSvar "wet" [] [("long_name", "u mask")] None [5; 5]; shaped "mask_other" [4; 5]]
    (Some [4; 5]) (Some [5; 6]) (Some [5; 5]) None
  = (Some "mask_psi", Some "mask_rho", Some "wet", None).
Proof. reflexivity. Qed.
(** Locations of equal shape get the same mask, whatever the masks are
    called. *)
Theorem c69_equal_shapes_refuted : exists f, f = [shaped "mask_rho" [5; 5]; shaped "mask_u" [5; 5]] /\
  get_masks f None (Some [5; 5]) (Some [5; 5]) None = (None, Some "mask_rho", Some "mask_rho", None).
Proof. eexists. split; reflexivity. Qed.
Print Assumptions c69_equal_shapes_refuted.

(** ** C70 *)
(** Each dimension is sliced by the entry that governs it; the others are
    left whole. *)
Definition SliceIs (l : list padding) (d : string) (s : option Z * option Z) : Prop :=
  (Ungoverned l d /\ s = (None, None)) \/
  (exists p, Governs l d p /\
    ((pad_type p = "both" /\ s = (Some 1, Some (-1))%Z) \/ (pad_type p = "none" /\ s = (None, None)) \/
     (pad_type p = "low" /\ s = (Some 1%Z, None)) \/ (pad_type p = "high" /\ s = (None, Some 1%Z)))).
Lemma slice_is l d s : SliceFor l d s -> SliceIs l d s.
Proof.
  intros [H|(p & G & E)]; [now left|]. right. exists p. split; auto.
  unfold padding_slices in E. cbn [dget] in E.
  destruct (String.eqb (pad_type p) "both") eqn:E1; [apply String.eqb_eq in E1; injection E as <-; auto|].
  destruct (String.eqb (pad_type p) "none") eqn:E2; [apply String.eqb_eq in E2; injection E as <-; auto|].
  destruct (String.eqb (pad_type p) "low") eqn:E3; [apply String.eqb_eq in E3; injection E as <-; auto|].
  destruct (String.eqb (pad_type p) "high") eqn:E4; [apply String.eqb_eq in E4; injection E as <-; auto 6|discriminate].
Qed.
Theorem c70_slicing : forall g nd dims l ss, Complete g -> split_on " " (sg_node_dimensions g) = nd -> applicable g nd dims l ->
  determine_variable_slicing g dims = Ok ss -> Forall2 (SliceIs l) dims ss.
Proof.
  intros g nd dims l ss C E A H. rewrite (slicing_ok _ _ _ _ C A E) in H. apply slices_of_spec in H.
  clear - H. induction H; constructor; auto. now apply slice_is.
Qed.
Print Assumptions c70_slicing.
(** Unknown padding words raise KeyError; known ones always work. *)
Theorem c70_slicing_total : forall g dims, Complete g -> KnownWords g -> exists ss, determine_variable_slicing g dims = Ok ss.
Proof.
  intros g dims C K.
  destruct (does_intersection_exist dims (split_on " " (sg_node_dimensions g))) eqn:E.
  - rewrite (slicing_ok g _ dims (entries (sg_face g)) C (or_introl (conj (proj1 (shares_iff _ _) E) eq_refl)) eq_refl).
    apply slices_of_ok. intros p Hp. apply K. apply in_or_app. auto.
  - assert (N : ~ Shares dims (split_on " " (sg_node_dimensions g))) by (rewrite <- shares_iff; congruence).
    rewrite (slicing_ok g _ dims _ C (or_intror (conj N eq_refl)) eq_refl). apply slices_of_ok. exact K.
Qed.
Print Assumptions c70_slicing_total.
(** The slice for a dimension of [n] cells with padding keeps just the cells
    for every word but "high". *)
Theorem c70_cut_back_partial : forall l d s p a b n i, SliceIs l d s -> Governs l d p -> PadWord (pad_type p) a b -> pad_type p <> "high" ->
  (Kept (a + n + b) s i <-> a <= i < a + n).
Proof.
  intros l d s p a b n i S G W NH.
  destruct S as [[U _]|(q & Gq & S)]; [exfalso; apply first_of_in in G; destruct G as [I E]; now apply (U p)|].
  assert (q = p) by (eapply first_of_unique; eauto). subst q.
  unfold Kept. remember (pad_type p) as w eqn:Ew. clear Ew G Gq.
  destruct W; destruct S as [[E ->]|[[E ->]|[[E ->]|[E ->]]]]; try discriminate; try contradiction; cbn [fst snd].
  - unfold bound. cbn [Z.ltb Z.compare]. lia.
  - lia.
  - unfold bound. cbn [Z.ltb Z.compare]. lia.
Qed.
Print Assumptions c70_cut_back_partial.
(** "high" keeps the first entry only, whatever the number of cells. *)
Theorem c70_high_refuted : forall l d p s n, SliceIs l d s -> Governs l d p -> pad_type p = "high" ->
  forall i, Kept (n + 1) s i <-> i = 0.
Proof.
  intros l d p s n S G H i.
  destruct S as [[U _]|(q & Gq & S)]; [exfalso; apply first_of_in in G; destruct G as [I E]; now apply (U p)|].
  assert (q = p) by (eapply first_of_unique; eauto). subst q. rewrite H in S.
  destruct S as [[E ->]|[[E ->]|[[E ->]|[E ->]]]]; try discriminate. unfold Kept, bound. cbn [fst snd Z.ltb Z.compare]. lia.
Qed.
Print Assumptions c70_high_refuted.
Definition roms_grid : sgrid := mkSgrid "xi_psi eta_psi"
  (Some [mkPadding "xi_rho" "xi_psi" "both"; mkPadding "eta_rho" "eta_psi" "both"])
  (Some [mkPadding "xi_u" "xi_psi" "both"; mkPadding "eta_u" "eta_psi" "both"])
  (Some [mkPadding "xi_v" "xi_psi" "both"; mkPadding "eta_v" "eta_psi" "both"])
  (Some [mkPadding "s_rho" "s_w" "none"]).
Example c70_slicing_ex : Complete roms_grid /\ KnownWords roms_grid /\
  determine_variable_slicing roms_grid ["time"; "s_rho"; "eta_rho"; "xi_rho"]
  = Ok [(None, None); (None, None); (Some 1, Some (-1)); (Some 1, Some (-1))]%Z /\
  determine_variable_slicing (mkSgrid "x_n y_n" (Some [mkPadding "x" "x_n" "high"; mkPadding "y" "y_n" "low"]) None None (Some [])) ["y"; "x"]
  = Ok [(Some 1%Z, None); (None, Some 1%Z)].
Proof.
  split; [|split; [|split; reflexivity]].
  - split; [do 3 eexists; reflexivity|discriminate].
  - intros p H. cbn in H. assert (T : pad_type p = "both" \/ pad_type p = "none") by (intuition (subst; auto)).
    destruct T as [-> | ->]; do 2 eexists; constructor.
Qed.

(** The axes to average over: counted from the last, the position of the
    first padded dimension; for the nodes, the other of the last two. *)
Theorem c70_axes : forall g nd dims l, (exists p q r, sg_face g = Some (p :: q :: r)) ->
  split_on " " (sg_node_dimensions g) = nd -> applicable2 g nd dims l -> dims <> [] ->
  (forall pre d post p, dims = pre ++ d :: post -> Governs l d p -> (forall e, In e pre -> Ungoverned l e) ->
     infer_avg_axes g dims = Ok (Some (length post), match length post with 0 => Some 1 | 1 => Some 0 | _ => None end)) /\
  ((forall d, In d dims -> Ungoverned l d) -> infer_avg_axes g dims = Ok (None, None)).
Proof.
  intros g nd dims l F E A N. rewrite (axes_ok _ _ _ _ F A E N). cbv zeta.
  pose proof (first_padded_spec l dims) as P.
  assert (GU : forall d p, Governs l d p -> Ungoverned l d -> False).
  { intros d p G U. apply first_of_in in G. destruct G as [I Ed]. now apply (U p). }
  split.
  - intros pre d post p D G Up. destruct (first_padded l dims) as [d'|].
    + destruct P as (pre' & post' & p' & D' & G' & U').
      assert (Eq : pre' = pre /\ d' = d /\ post' = post).
      { rewrite D in D'. clear - D' GU G Up G' U'. revert pre' D' U'. induction pre as [|a pre IH]; intros [|b pre'] D' U'; cbn in D'; injection D' as -> D'.
        - auto.
        - exfalso. eapply GU; [exact G|]. apply U'. now left.
        - exfalso. eapply GU; [exact G'|]. apply Up. now left.
        - destruct (IH (fun e He => Up e (or_intror He)) pre' D' (fun e He => U' e (or_intror He))) as (-> & -> & ->). auto. }
      destruct Eq as (-> & -> & ->). rewrite D, index_of_app, app_length.
      * cbn [length]. replace (length pre + S (length post) - length pre - 1) with (length post) by lia.
        destruct (length post) as [|[|k]]; reflexivity.
      * intros I. eapply GU; [exact G|]. now apply Up.
    + exfalso. eapply GU; [exact G|]. apply P. rewrite D. apply in_elt.
  - intros U. destruct (first_padded l dims) as [d'|]; auto. destruct P as (pre' & post' & p' & -> & G' & U').
    exfalso. eapply GU; [exact G'|]. apply U. apply in_elt.
Qed.
Print Assumptions c70_axes.
Example c70_axes_ex : infer_avg_axes roms_grid ["time"; "eta_psi"; "xi_rho"] = Ok (Some 0, Some 1) /\
  infer_avg_axes roms_grid ["time"; "eta_u"; "xi_u"] = Ok (Some 1, Some 0) /\
  infer_avg_axes roms_grid ["time"] = Ok (None, None).
Proof. repeat split. Qed.
(** A variable with a grid attribute and no dimensions stops the load. *)
Theorem c70_scalar_refuted : forall g v, (exists p q r, sg_face g = Some (p :: q :: r)) -> attr v "grid" <> None -> sv_dims v = [] ->
  create_variable g v = Err UnboundLocalError.
Proof.
  intros g v F A D. unfold create_variable. destruct (attr v "grid"); [|contradiction]. rewrite D.
  unfold infer_avg_axes. rewrite (face_ok _ F). cbn [bind].
  replace (does_intersection_exist (split_on " " (sg_node_dimensions g)) []) with false.
  - destruct F as (p & q & r & ->). reflexivity.
  - symmetry. unfold does_intersection_exist. induction (split_on " " (sg_node_dimensions g)); auto.
Qed.
Print Assumptions c70_scalar_refuted.

(** The location from the dimensions. *)
Theorem c70_location : forall g nd fd ed dims, (exists p q r, sg_face g = Some (p :: q :: r)) ->
  split_on " " (sg_node_dimensions g) = nd -> map face_dim (entries (sg_face g)) = fd ->
  map face_dim (entries (sg_edge1 g) ++ entries (sg_edge2 g)) = ed ->
  (Shares dims fd -> ~ Shares dims nd -> infer_variable_location g dims = Ok (Some "face")) /\
  (Shares dims fd -> Shares dims nd -> infer_variable_location g dims = Ok (Some "edge")) /\
  (~ Shares dims fd -> Shares dims ed -> infer_variable_location g dims = Ok (Some "edge")) /\
  (~ Shares dims fd -> ~ Shares dims ed -> infer_variable_location g dims = Ok None).
Proof.
  intros g nd fd ed dims F <- <- <-. unfold infer_variable_location. rewrite (face_ok _ F).
  destruct F as (p & q & r & ->). cbn [bind entries]. rewrite edge_entries. rewrite <- !shares_iff.
  destruct (does_intersection_exist dims (map face_dim (p :: q :: r))), (does_intersection_exist dims (split_on " " (sg_node_dimensions g))),
    (does_intersection_exist dims (map face_dim (entries (sg_edge1 g) ++ entries (sg_edge2 g))));
    repeat split; intros; try reflexivity; try congruence; exfalso; try tauto; auto.
Qed.
Print Assumptions c70_location.
(** Edges are told apart by the axis to average over. *)
Theorem c70_edges : forall g v d, attr v "grid" <> None -> create_variable g v = Ok d ->
  (attr v "location" = Some "edge" \/ (attr v "location" = None /\ infer_variable_location g (sv_dims v) = Ok (Some "edge"))) ->
  (ds_center_axis d = Some 0 -> ds_location d = Some "edge2") /\ (ds_center_axis d = Some 1 -> ds_location d = Some "edge1") /\
  (ds_center_axis d <> Some 0 -> ds_center_axis d <> Some 1 -> ds_location d = None).
Proof.
  intros g v d A H L. unfold create_variable in H. destruct (attr v "grid"); [|contradiction].
  apply bind_ok in H. destruct H as (ca & _ & H). apply bind_ok in H. destruct H as (sl & _ & H).
  apply bind_ok in H. destruct H as (loc & Hl & H).
  assert (loc = Some "edge").
  { destruct L as [L|[L L']]; rewrite L in Hl; [congruence|]. rewrite L' in Hl. congruence. }
  subst loc. cbv zeta in H. apply bind_ok in H. destruct H as (ax & _ & H). apply bind_ok in H. destruct H as (va & _ & H).
  injection H as <-. cbn [ds_center_axis ds_location]. destruct ca as [[[|[|k]]|] na]; cbn; repeat split; intros; try reflexivity; try discriminate; congruence.
Qed.
Print Assumptions c70_edges.
(** A declared location other than "edge" is kept. *)
Theorem c70_declared_location : forall g v d l, attr v "location" = Some l -> l <> "edge" -> create_variable g v = Ok d -> ds_location d = Some l.
Proof.
  intros g v d l A N H. unfold create_variable in H. apply bind_ok in H. destruct H as (ca & _ & H).
  apply bind_ok in H. destruct H as (sl & _ & H). rewrite A in H. cbn [bind] in H. cbv zeta in H.
  apply bind_ok in H. destruct H as (ax & _ & H). apply bind_ok in H. destruct H as (va & _ & H). injection H as <-.
  cbn. apply String.eqb_neq in N. now rewrite N.
Qed.
Print Assumptions c70_declared_location.

(** The names in the coordinates attribute are its words. *)
Theorem c70_coordinates : forall g v d, create_variable g v = Ok d ->
  (attr v "coordinates" = None -> ds_coordinates d = None) /\
  (forall text names, attr v "coordinates" = Some text -> Words text names -> ds_coordinates d = Some names).
Proof.
  intros g v d H. unfold create_variable in H. apply bind_ok in H. destruct H as (ca & _ & H).
  apply bind_ok in H. destruct H as (sl & _ & H). apply bind_ok in H. destruct H as (loc & _ & H).
  apply bind_ok in H. destruct H as (ax & _ & H). apply bind_ok in H. destruct H as (va & _ & H). injection H as <-.
  cbn [ds_coordinates]. split.
  - now intros ->.
  - intros text names -> W. rewrite split_strip. now rewrite (split_unique _ _ W).
Qed.
Print Assumptions c70_coordinates.

(** Loading describes every variable, in order, when the file declares face
    and vertical dimensions with known padding words ... *)
Theorem c70_loads_partial : forall g f, Complete g -> KnownWords g ->
  (forall v, In v f -> attr v "grid" <> None -> sv_dims v <> []) ->
  exists ds, load_variables g f = Ok ds /\ map fst ds = map sv_name f /\
    forall v, In v f -> exists d, create_variable g v = Ok d /\ In (sv_name v, d) ds.
Proof.
  intros g f C K H.
  assert (One : forall v, (attr v "grid" <> None -> sv_dims v <> []) -> exists d, create_variable g v = Ok d).
  { intros v Hv. unfold create_variable.
    assert (CA : exists ca, match attr v "grid" with None => Ok (None, None) | Some _ => infer_avg_axes g (sv_dims v) end = Ok ca).
    { destruct (attr v "grid"); [|eauto]. specialize (Hv ltac:(discriminate)).
      destruct (does_intersection_exist (sv_dims v) (split_on " " (sg_node_dimensions g))) eqn:E.
      - rewrite (axes_ok g _ (sv_dims v) (entries (sg_face g)) (proj1 C) (or_introl (conj (proj1 (shares_iff _ _) E) eq_refl)) eq_refl Hv). eexists. reflexivity.
      - assert (N : ~ Shares (sv_dims v) (split_on " " (sg_node_dimensions g))) by (rewrite <- shares_iff; congruence).
        rewrite (axes_ok g _ (sv_dims v) _ (proj1 C) (or_intror (conj N eq_refl)) eq_refl Hv). eexists. reflexivity. }
    destruct CA as (ca & ->). cbn [bind]. destruct (c70_slicing_total g (sv_dims v) C K) as (ss & ->). cbn [bind].
    assert (LO : exists lo, match attr v "location" with Some l => Ok (Some l) | None => infer_variable_location g (sv_dims v) end = Ok lo).
    { destruct (attr v "location"); [eauto|]. unfold infer_variable_location. rewrite (face_ok _ (proj1 C)).
      destruct C as [(p & q & r & ->) _]. cbn [bind]. eexists. reflexivity. }
    destruct LO as (lo & ->). cbn [bind]. cbv zeta.
    assert (AX : exists a, match attr v "axes" with Some a => parse_axes a | None => Ok (None, None, None) end = Ok a).
    { destruct (attr v "axes"); [apply parse_axes_total|eauto]. }
    destruct AX as (ax & ->). cbn [bind].
    assert (VA : exists a, match attr v "standard_name" with Some s => parse_vector_axis s | None => Ok None end = Ok a).
    { destruct (attr v "standard_name"); [apply vector_total|eauto]. }
    destruct VA as (va & ->). cbn [bind]. eexists. reflexivity. }
  unfold load_variables. induction f as [|v f IH].
  - exists []. repeat split. intros v [].
  - destruct (One v (H v (or_introl eq_refl))) as (d & Hd).
    destruct IH as (ds & E & M & A); [intros w Hw; apply H; now right|].
    exists ((sv_name v, d) :: ds). cbn [mapM_res]. rewrite Hd. cbn [bind]. rewrite E. cbn [bind map fst]. rewrite M.
    repeat split. intros w [<-|Hw]; [exists d; split; auto; now left|].
    destruct (A w Hw) as (d' & ? & ?). exists d'. split; auto. now right.
Qed.
Print Assumptions c70_loads_partial.
Definition u_var : svar := mkSvar "u" ["time"; "eta_u"; "xi_u"] [("grid", "grid"); ("axes", "X: xi_u Y: eta_u"); ("standard_name", "sea_water_x_velocity")] None [].
Example c70_loads_ex : load_variables roms_grid [topo_var; u_var] =
  Ok [("grid", mkDescribed None None [] None (None, None, None) None None);
      ("u", mkDescribed (Some 1) (Some 0) [(None, None); (Some 1, Some (-1)); (Some 1, Some (-1))]%Z (Some "edge1")
              (Some "xi_u", Some "eta_u", None) (Some "X") None)].
Proof. reflexivity. Qed.
(** ... but without vertical dimensions, which the convention makes optional,
    every file fails: its own topology variable has no dimensions. *)
Theorem c70_no_vertical_refuted : forall g f v, (exists p q r, sg_face g = Some (p :: q :: r)) -> sg_vertical g = None ->
  In v f -> sv_dims v = [] -> attr v "grid" = None -> exists e, load_variables g f = Err e.
Proof.
  intros g f v F V I D A.
  assert (B : create_variable g v = Err TypeError).
  { unfold create_variable. rewrite A, D. cbn [bind]. unfold determine_variable_slicing. cbn [does_intersection_exist existsb].
    unfold all_padding. rewrite (face_ok _ F), V. destruct F as (p & q & r & ->). reflexivity. }
  unfold load_variables. induction f as [|w f IH]; [destruct I|]. cbn [mapM_res].
  destruct (create_variable g w) as [d|e] eqn:E; cbn [bind]; [|eauto].
  destruct I as [->|I]; [congruence|]. destruct (IH I) as (e & ->). cbn [bind]. eauto.
Qed.
Print Assumptions c70_no_vertical_refuted.
Example c70_no_vertical_ex :
  load_variables (mkSgrid "xi_psi eta_psi" (sg_face roms_grid) None None None) [topo_var] = Err TypeError.
Proof. reflexivity. Qed.
