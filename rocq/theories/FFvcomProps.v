(** C107: from a file of FVCOM, with a mesh and terrain-following levels, to the
    answers of its variables. *)
From Coq Require Import String Lqa.
From Verif Require Import Common CommonProofs TimeModel TimeSpec TimeProofs GridTypeModel GridTypeSpec VariableModel VariableSpec VariableProofs DepthModel DepthSpec
  UGridGeomModel UGridGeomSpec UGridLocProofs TFileModel TFileSpec TFileProps LoadModel LoadSpec LoadProofs VLoadModel UFileModel UFileSpec WholeModel WholeSpec WholeProofs WholeProps
  TerrModel TerrSpec TerrProofs TerrProps FMeshModel FMeshSpec FMeshProofs FMeshProps FRectSpec FRectProofs FStagSpec FStagProps FRomsModel FRomsSpec FFvcomModel FFvcomSpec FFvcomRead FFvcomProofs.
Open Scope string_scope.
Open Scope list_scope.
Open Scope nat_scope.

(** It opens, when every variable has no place on the mesh or is properly sampled. *)
Theorem c107_opens :
  forall dateutil cftime now f p n nodes faces g,
  FvcomFile f p n nodes faces g -> length (t_data now) <= 1 -> FvcomSound cftime f p n (length nodes) (length faces) (wa_surface g) ->
  exists m vs, open_fvcom_dataset dateutil cftime now f = Ok (m, vs).
Proof. intros dateutil cftime now f p n nodes faces g F Nw H. destruct (fvcom_opens dateutil cftime now f p n nodes faces g F Nw H) as (vs & E). eauto. Qed.
Print Assumptions c107_opens.
Theorem c107_grid :
  forall dateutil cftime now f p n nodes faces g m vs,
  FvcomFile f p n nodes faces g -> open_fvcom_dataset dateutil cftime now f = Ok (m, vs) -> me_nodes m = nodes /\ me_faces m = faces.
Proof. intros dateutil cftime now f p n nodes faces g m vs F O. destruct (fvcom_inv dateutil cftime now f p n nodes faces g F (m, vs) O) as (E & _). cbn [fst] in E. rewrite E. split; reflexivity. Qed.
Print Assumptions c107_grid.
(** The coordinates and the faces are left out, and what has no place. *)
Theorem c107_left_out :
  forall dateutil cftime now f p n nodes faces g m vs k w,
  FvcomFile f p n nodes faces g -> open_fvcom_dataset dateutil cftime now f = Ok (m, vs) -> In (k, w) (fi_vars f) ->
  In k (mesh_names p n) \/ Off (length nodes) (length faces) w -> dget vs k = None.
Proof. intros dateutil cftime now f p n nodes faces g m vs k w F O I. exact (fvcom_left_out dateutil cftime now f p n nodes faces g F (m, vs) O k w I). Qed.
Print Assumptions c107_left_out.
Theorem c107_variable :
  forall dateutil cftime now f p n nodes faces g m vs k w len loc ts lead,
  FvcomFile f p n nodes faces g -> open_fvcom_dataset dateutil cftime now f = Ok (m, vs) -> In (k, w) (fi_vars f) -> ~ In k (mesh_names p n) ->
  On (length nodes) (length faces) w len loc -> InstantsIn cftime f w ts -> fm_shape w = [length ts] ++ lead ++ [len] ->
  exists v tm nm, dget vs k = Some v /\ va_loc v = loc /\ va_varname v = k /\ va_shape v = fm_shape w /\
    va_time v = TimeRead tm nm /\ t_data tm = ts /\ va_depth v = if length lead =? 1 then DepthRead else DepthNone.
Proof.
  intros dateutil cftime now f p n nodes faces g m vs k w len loc ts lead F O I NG On_ In_ Sh.
  exact (fvcom_opened dateutil cftime now f p n nodes faces g F (m, vs) O k w I NG len loc On_ ts lead In_ Sh).
Qed.
Print Assumptions c107_variable.
(** With the label the layers are the levels: one variable is read for both. *)
Theorem c107_labelled :
  forall f p n nodes faces g k w a,
  FvcomFile f p n nodes faces g -> In (k, w) (fi_vars f) -> In a ["long_name"; "standard_name"] -> Attr w a sigma_label -> wa_layers g = wa_levels g.
Proof.
  intros f p n nodes faces g k w a (NM & _ & (lev & lay & V & A & B) & _) I Ia Wa.
  assert (lev = lay) as <-.
  { destruct V as [N1 N2|x _|x _ _]; [exfalso|reflexivity|reflexivity]. cbn [In] in Ia. destruct Ia as [<-|[<-|[]]]; [exact (N1 k w I Wa)|exact (N2 k w I Wa)]. }
  destruct A as (wa & Ia' & Sa & Pa). destruct B as (wb & Ib & Sb & Pb). destruct NM as (U & _).
  assert (wa = wb) as <- by (pose proof (dget_unique _ _ _ U Ia'); pose proof (dget_unique _ _ _ U Ib); congruence).
  assert (L : length (wa_levels g) = length (wa_layers g)) by congruence. apply eq_sym.
  assert (K : forall k, nth_error (wa_levels g) k = nth_error (wa_layers g) k).
  { intros j. destruct (nth_error (wa_levels g) j) as [ra|] eqn:Ea.
    - destruct (nth_error_lt_Some (wa_layers g) j) as [rb Eb]; [rewrite <- L; eapply nth_error_Some_lt; eauto|]. rewrite Eb. f_equal.
      pose proof (Pa j ra Ea) as X. rewrite (Pb j rb Eb) in X. revert X. clear. revert ra. induction rb as [|x rb IH]; intros [|y ra] X; try discriminate; [reflexivity|]. injection X as -> X. f_equal. auto.
    - symmetry. apply nth_error_None. rewrite <- L. now apply nth_error_None. }
  clear - K. revert K. generalize (wa_levels g) (wa_layers g). induction l as [|x l IH]; intros [|y m] K; [reflexivity|discriminate (K 0)|discriminate (K 0)|].
  pose proof (K 0) as X. cbn in X. injection X as ->. f_equal. apply IH. intros j. exact (K (S j)).
Qed.
Print Assumptions c107_labelled.

Section Asked.
  Context (dateutil : string -> dparse) (cftime : string -> option (Z * Z * Z)) (now : time_obj).
  Context (tree : list pt -> list (list Z) -> list pt -> list Z) (hist : list nat -> list spot -> list ug_op) (find : point -> Z).
  Context (f : file) (p : pair) (n : string) (nodes : list point) (faces : list (list Z)) (g : water).
  Context (F : FvcomFile f p n nodes faces g) (m : mesh) (vs : dict variable) (O : open_fvcom_dataset dateutil cftime now f = Ok (m, vs)).
  Context (HT : forall ps, tree nodes faces ps = map find ps) (HH : forall ix ps, Forall asks (hist ix ps)) (FF : FindsFaces nodes faces find).
  Context (k : string) (w : mvar) (I : In (k, w) (fi_vars f)) (NG : ~ In k (mesh_names p n)).
  Context (len : nat) (loc : string) (On_ : On (length nodes) (length faces) w len loc).
  Context (ts : list Z) (In_ : InstantsIn cftime f w ts) (n' : nat) (Sh : fm_shape w = [length ts; n'; len]).
  Context (Hn : forall nt, wa_surface g = Some nt -> nt = length ts).
  Context (h : point -> Q) (zeta : Z -> point -> Q) (sigma : nat -> point -> Q) (q qz : Z) (ex : bool) (pts : list spot).
  Context (W : WaterOf f nodes faces g h zeta sigma ts ex q qz (map place pts)).
  Let z s k := level_depth h zeta sigma qz k (place s).
  Context (HD : forall s, In s pts -> find (place s) <> (-1)%Z -> GoesDown (length (wa_levels g)) (z s)).
  Context (X : Z -> nat -> point -> Q) (q' : Z) (TO : TimeOk (Some ts) ex q q').
  Context (HF : FieldAt nodes faces find ts n' (fm_part w) loc X) (HSt : TimeSteady ts X).
  Lemma surface_samples h' z' tm : t_data tm = ts -> (wa_surface g <> None -> In ("zeta", z') (fi_vars f)) ->
    ZetaSamples nodes faces (fterr f g h' z' tm) q ex zeta qz pts.
  Proof.
    intros Td Iz. destruct W as (_ & _ & _ & _ & _ & Su). destruct (TO ts eq_refl) as (SI & Ne & _). unfold ZetaSamples, fterr, SurfaceSamples in *. cbn [te_zeta] in *. destruct (wa_surface g) as [nt|].
    - destruct Su as (TA & LT & Sm). rewrite Td. split; [exact SI|]. split; [exact Ne|]. split; [exact TA|]. split; [exact LT|]. apply Sm. apply Iz. discriminate.
    - destruct Su as [Z0 OE]. split; [exact Z0|]. clear - OE. induction pts; cbn [map] in OE; inversion OE; subst; constructor; auto.
  Qed.
  Lemma asked_levels : length (wa_levels g) <= n' -> n' <> length (wa_layers g) ->
    exists cs, ask_fvcom dateutil cftime now tree hist f k q ex pts = Ok cs /\
    Forall2 (fun s c => (find (place s) <> (-1)%Z -> ColumnAnswer (length (wa_levels g)) (z s) (fun k => X q' k (place s)) true (deep s) c) /\
      (find (place s) = (-1)%Z -> OutsideAnswer true (deep s) c)) pts cs.
  Proof.
    intros Le Nl. destruct (fvcom_asked dateutil cftime now f p n nodes faces g F (m, vs) O k w I NG len loc On_ ts [n'] In_ Sh tree hist n' eq_refl Hn) as (tm & h' & z' & Td & Ih & Iz & E). rewrite E.
    pose proof (surface_samples h' z' tm Td Iz) as ZS. destruct W as (Sg & L2 & NL & Top & Bd & _). destruct (TO ts eq_refl) as (SI & Ne & TA). subst ts.
    refine (sigma_levels tree hist nodes faces find (fterr f g h' z' tm) q ex HT HH (proj1 (proj2 F)) FF h zeta sigma qz (Bd h' Ih) Sg (length (wa_levels g)) eq_refl L2 NL Top _ pts ZS _ BExtrapolate DepthModel.BMask
      tm q' n' (fm_part w) loc X SI Ne TA HF HSt len eq_refl Le Nl).
    - intros H. discriminate H.
    - intros s j j' Hi Hf Hj. apply HD; auto.
  Qed.
  Lemma asked_layers : length (wa_levels g) - 1 <= n' -> n' = length (wa_layers g) ->
    (forall s, In s pts -> if Z.eq_dec (find (place s)) (-1) then (0 <= deep s)%Q else (z s 0%nat <= deep s)%Q) ->
    exists cs, ask_fvcom dateutil cftime now tree hist f k q ex pts = Ok cs /\
    Forall2 (fun s c => (find (place s) <> (-1)%Z -> LayerAnswer (length (wa_levels g)) (z s) (fun k => X q' k (place s)) (deep s) c) /\
      (find (place s) = (-1)%Z -> c = CMasked)) pts cs.
  Proof.
    intros Le Nl Be. destruct (fvcom_asked dateutil cftime now f p n nodes faces g F (m, vs) O k w I NG len loc On_ ts [n'] In_ Sh tree hist n' eq_refl Hn) as (tm & h' & z' & Td & Ih & Iz & E). rewrite E.
    pose proof (surface_samples h' z' tm Td Iz) as ZS. destruct W as (Sg & L2 & NL & Top & Bd & _). destruct (TO ts eq_refl) as (SI & Ne & TA). subst ts.
    refine (sigma_layers tree hist nodes faces find (fterr f g h' z' tm) q ex HT HH (proj1 (proj2 F)) FF h zeta sigma qz (Bd h' Ih) Sg (length (wa_levels g)) eq_refl L2 NL Top _ pts ZS _ BExtrapolate DepthModel.BMask
      tm q' n' (fm_part w) loc X SI Ne TA HF HSt len eq_refl Le Nl _).
    - intros H. discriminate H.
    - intros s j j' Hi Hf Hj. apply HD; auto.
    - intros s Hi _. exact (Be s Hi).
  Qed.
End Asked.

(** Data on the levels: between the levels about the point its values blended, the
    first above the first level, masked at the last and below it.  Masked values
    are C109.  Missing: data of more dimensions, other grids than of triangles. *)
Theorem c107_levels_partial :
  forall dateutil cftime now tree hist find f p n nodes faces g m vs k w len loc ts n' h zeta sigma q qz ex pts X q',
  FvcomFile f p n nodes faces g -> open_fvcom_dataset dateutil cftime now f = Ok (m, vs) ->
  (forall ps, tree nodes faces ps = map find ps) -> (forall ix ps, Forall asks (hist ix ps)) -> FindsFaces nodes faces find ->
  In (k, w) (fi_vars f) -> ~ In k (mesh_names p n) -> On (length nodes) (length faces) w len loc ->
  InstantsIn cftime f w ts -> fm_shape w = [length ts; n'; len] -> (forall nt, wa_surface g = Some nt -> nt = length ts) ->
  WaterOf f nodes faces g h zeta sigma ts ex q qz (map place pts) ->
  let z s k := level_depth h zeta sigma qz k (place s) in
  (forall s, In s pts -> find (place s) <> (-1)%Z -> GoesDown (length (wa_levels g)) (z s)) ->
  TimeOk (Some ts) ex q q' -> FieldAt nodes faces find ts n' (fm_part w) loc X -> TimeSteady ts X ->
  length (wa_levels g) <= n' -> n' <> length (wa_layers g) ->
  exists cs, ask_fvcom dateutil cftime now tree hist f k q ex pts = Ok cs /\
    Forall2 (fun s c => (find (place s) <> (-1)%Z -> ColumnAnswer (length (wa_levels g)) (z s) (fun k => X q' k (place s)) true (deep s) c) /\
      (find (place s) = (-1)%Z -> OutsideAnswer true (deep s) c)) pts cs.
Proof. intros. eapply asked_levels; eauto. Qed.
Print Assumptions c107_levels_partial.
(** Data that changes linearly with depth in each column: the answers are exact. *)
Theorem c107_linear_in_depth_partial :
  forall dateutil cftime now tree hist find f p n nodes faces g m vs k w len loc ts n' h zeta sigma q qz ex pts X q' (a b : point -> Q),
  FvcomFile f p n nodes faces g -> open_fvcom_dataset dateutil cftime now f = Ok (m, vs) ->
  (forall ps, tree nodes faces ps = map find ps) -> (forall ix ps, Forall asks (hist ix ps)) -> FindsFaces nodes faces find ->
  In (k, w) (fi_vars f) -> ~ In k (mesh_names p n) -> On (length nodes) (length faces) w len loc ->
  InstantsIn cftime f w ts -> fm_shape w = [length ts; n'; len] -> (forall nt, wa_surface g = Some nt -> nt = length ts) ->
  WaterOf f nodes faces g h zeta sigma ts ex q qz (map place pts) ->
  let z s k := level_depth h zeta sigma qz k (place s) in
  (forall s, In s pts -> find (place s) <> (-1)%Z -> GoesDown (length (wa_levels g)) (z s)) ->
  TimeOk (Some ts) ex q q' -> FieldAt nodes faces find ts n' (fm_part w) loc X -> TimeSteady ts X ->
  length (wa_levels g) <= n' -> n' <> length (wa_layers g) ->
  (forall s k, In s pts -> (X q' k (place s) == a (place s) + b (place s) * z s k)%Q) ->
  (forall s, In s pts -> find (place s) <> (-1)%Z /\ (z s 0%nat <= deep s < z s (length (wa_levels g) - 1)%nat)%Q) ->
  exists cs, ask_fvcom dateutil cftime now tree hist f k q ex pts = Ok cs /\
    Forall2 (fun s c => Shows (a (place s) + b (place s) * deep s) c) pts cs.
Proof.
  intros dateutil cftime now tree hist find f p n nodes faces g m vs k w len loc ts n' h zeta sigma q qz ex pts X q' a b F O HT HH FF I NG On_ In_ Sh Hn W z HD TO HF HSt Le Nl HX Hin.
  destruct (c107_levels_partial dateutil cftime now tree hist find f p n nodes faces g m vs k w len loc ts n' h zeta sigma q qz ex pts X q' F O HT HH FF I NG On_ In_ Sh Hn W HD TO HF HSt Le Nl) as (cs & E & V).
  exists cs. split; [exact E|]. clear - V HX Hin. fold z in V. revert HX Hin. induction V as [|s c l l' [A _] _ IH]; intros HX Hin; constructor; [|apply IH; intros; [apply HX|apply Hin]; right; auto].
  destruct (Hin s (or_introl eq_refl)) as [Hf B]. destruct (A Hf) as (_ & _ & Y). destruct (Y B) as (x & (j & u0 & u1 & v0 & v1 & r & Z0 & Z1 & V0 & V1 & Br & Ed & Ex) & v & -> & Ev).
  assert (S j < length (wa_levels g)) as Lj. { apply nth_error_Some_lt in Z1. unfold column in Z1. now rewrite map_length, seq_length in Z1. }
  rewrite nth_depths in Z0, Z1, V0, V1 by lia. injection Z0 as <-. injection Z1 as <-. injection V0 as <-. injection V1 as <-.
  exists v. split; [reflexivity|]. rewrite Ev, Ex, !HX by (left; reflexivity). rewrite Ed. unfold z. ring.
Qed.
Print Assumptions c107_linear_in_depth_partial.
(** Data on the layers, at points not above the first level: the layer about the
    point.  Missing: as for the levels, and see [c107_above_refuted]. *)
Theorem c107_layers_partial :
  forall dateutil cftime now tree hist find f p n nodes faces g m vs k w len loc ts n' h zeta sigma q qz ex pts X q',
  FvcomFile f p n nodes faces g -> open_fvcom_dataset dateutil cftime now f = Ok (m, vs) ->
  (forall ps, tree nodes faces ps = map find ps) -> (forall ix ps, Forall asks (hist ix ps)) -> FindsFaces nodes faces find ->
  In (k, w) (fi_vars f) -> ~ In k (mesh_names p n) -> On (length nodes) (length faces) w len loc ->
  InstantsIn cftime f w ts -> fm_shape w = [length ts; n'; len] -> (forall nt, wa_surface g = Some nt -> nt = length ts) ->
  WaterOf f nodes faces g h zeta sigma ts ex q qz (map place pts) ->
  let z s k := level_depth h zeta sigma qz k (place s) in
  (forall s, In s pts -> find (place s) <> (-1)%Z -> GoesDown (length (wa_levels g)) (z s)) ->
  TimeOk (Some ts) ex q q' -> FieldAt nodes faces find ts n' (fm_part w) loc X -> TimeSteady ts X ->
  length (wa_levels g) - 1 <= n' -> n' = length (wa_layers g) ->
  (forall s, In s pts -> if Z.eq_dec (find (place s)) (-1) then (0 <= deep s)%Q else (z s 0%nat <= deep s)%Q) ->
  exists cs, ask_fvcom dateutil cftime now tree hist f k q ex pts = Ok cs /\
    Forall2 (fun s c => (find (place s) <> (-1)%Z -> LayerAnswer (length (wa_levels g)) (z s) (fun k => X q' k (place s)) (deep s) c) /\
      (find (place s) = (-1)%Z -> c = CMasked)) pts cs.
Proof. intros. eapply asked_layers; eauto. Qed.
Print Assumptions c107_layers_partial.

(** Data over time only, as the free surface itself: at the nodes, and at the faces. *)
Theorem c107_nodes_partial :
  forall dateutil cftime now tree hist find f p n nodes faces g m vs k w ts (X : Z -> point -> Q) q q' ex pts,
  FvcomFile f p n nodes faces g -> open_fvcom_dataset dateutil cftime now f = Ok (m, vs) ->
  (forall ps, tree nodes faces ps = map find ps) -> (forall ix ps, Forall asks (hist ix ps)) -> FindsFaces nodes faces find ->
  In (k, w) (fi_vars f) -> ~ In k (mesh_names p n) -> On (length nodes) (length faces) w (length nodes) "node" ->
  InstantsIn cftime f w ts -> fm_shape w = [length ts; length nodes] -> TimeOk (Some ts) ex q q' ->
  (forall i t, nth_error ts i = Some t -> Sampled nodes faces (X t) (fm_part w [i])) -> (forall s, LinearInTime ts (fun t => X t s)) ->
  exists cs, ask_fvcom dateutil cftime now tree hist f k q ex pts = Ok cs /\
    Forall2 (fun s c => (find (place s) <> (-1)%Z -> Shows (X q' (place s)) c) /\ (find (place s) = (-1)%Z -> Shows 0 c)) pts cs.
Proof.
  intros dateutil cftime now tree hist find f p n nodes faces g m vs k w ts X q q' ex pts F O HT HH FF I NG On_ In_ Sh TO Sm LT.
  destruct (fvcom_flat_asked dateutil cftime now f p n nodes faces g F (m, vs) O k w I NG (length nodes) "node" On_ ts [] In_ Sh tree hist eq_refl) as (tm & Td & E). rewrite E. subst ts.
  refine (c94_mesh_nodes_partial tree hist nodes faces find (fm_part w) (Some tm) None default_sbc default_bbc q q' ex (fun t _ => X t) (fun z => z) pts HT HH (proj1 (proj2 F)) FF TO _ _ _ _).
  - intros l H. discriminate H.
  - intros s _ l H. discriminate H.
  - split; [|intros l H; discriminate H]. intros l H d r. cbn in H. injection H as <-. apply LT.
  - intros ix t d (i & -> & Hi). exact (Sm i t Hi).
Qed.
Print Assumptions c107_nodes_partial.
Theorem c107_faces_partial :
  forall dateutil cftime now tree hist find f p n nodes faces g m vs k w ts (X : Z -> nat -> Q) q q' ex pts,
  FvcomFile f p n nodes faces g -> open_fvcom_dataset dateutil cftime now f = Ok (m, vs) ->
  (forall ps, tree nodes faces ps = map find ps) -> (forall ix ps, Forall asks (hist ix ps)) -> FindsFaces nodes faces find ->
  In (k, w) (fi_vars f) -> ~ In k (mesh_names p n) -> On (length nodes) (length faces) w (length faces) "face" ->
  InstantsIn cftime f w ts -> fm_shape w = [length ts; length faces] -> TimeOk (Some ts) ex q q' ->
  (forall i t, nth_error ts i = Some t -> length (fm_part w [i]) = length faces /\ forall j c, nth_error (fm_part w [i]) j = Some c -> Shows (X t j) c) ->
  (forall j, LinearInTime ts (fun t => X t j)) ->
  exists cs, ask_fvcom dateutil cftime now tree hist f k q ex pts = Ok cs /\
    Forall2 (fun s c => (forall j, find (place s) = Z.of_nat j -> Shows (X q' j) c) /\ (find (place s) = (-1)%Z -> Shows 0 c)) pts cs.
Proof.
  intros dateutil cftime now tree hist find f p n nodes faces g m vs k w ts X q q' ex pts F O HT HH FF I NG On_ In_ Sh TO Sm LT.
  destruct (fvcom_flat_asked dateutil cftime now f p n nodes faces g F (m, vs) O k w I NG (length faces) "face" On_ ts [] In_ Sh tree hist eq_refl) as (tm & Td & E). rewrite E. subst ts.
  refine (c94_mesh_faces_partial tree hist nodes faces find (fm_part w) (Some tm) None default_sbc default_bbc q q' ex (fun t _ => X t) (fun z => z) pts HT HH (proj1 (proj1 (proj2 F))) FF TO _ _ _ _).
  - intros l H. discriminate H.
  - intros s _ l H. discriminate H.
  - split; [|intros l H; discriminate H]. intros l H d r. cbn in H. injection H as <-. apply LT.
  - intros ix t d (i & -> & Hi). exact (Sm i t Hi).
Qed.
Print Assumptions c107_faces_partial.

(** ** A file of FVCOM: the mesh of C94, the water 10 to 20 deep under a surface that
    rises by a tenth in an hour, three levels. *)
Definition c107_times : list Z := [hour; 2 * hour; 3 * hour]%Z.
Definition c107_time : mvar := mkMvar ["time"] [3] [("units", "hours since 2024-01-01T00:00:00")] None None None [1; 2; 3]%Z [] [] (fun _ => []).
Definition c107_siglev (at_ : dict string) : mvar := mkMvar ["siglev"; "node"] [3; 4] at_ None None None [] [] []
  (fun ix => match ix with [k] => map CVal (map (c97_sigma k) c94_nodes) | _ => [] end).
Definition c107_mid (k : nat) (p : point) : Q := (c97_sigma k p - (1 # 4))%Q.
Definition c107_siglay (at_ : dict string) : mvar := mkMvar ["siglay"; "node"] [2; 4] at_ None None None [] [] []
  (fun ix => match ix with [k] => map CVal (map (c107_mid k) c94_nodes) | _ => [] end).
Definition c107_h : mvar := mkMvar ["node"] [4] [("standard_name", "sea_floor_depth_below_geoid")] None None None [] [] [] (fun _ => map (fun p => CVal (c97_bathy p)) c94_nodes).
Definition c107_rise (t : Z) (p : point) : Q := Qred (inject_Z t / inject_Z (10 * hour)).
Definition c107_zeta : mvar := c102_var ["time"; "node"] [3; 4] []
  (fun ix => match ix with [i] => map (fun p => CVal (c107_rise (nth i c107_times 0%Z) p)) c94_nodes | _ => [] end).
(** Linear in depth; on the layers hundreds; at the faces ten times the number of
    the face. *)
Definition c107_field (t : Z) (k : nat) (p : point) : Q := (3 + 2 * level_depth c97_bathy c107_rise c97_sigma t k p + snd p)%Q.
Definition c107_layered (t : Z) (k : nat) (p : point) : Q := (100 * inject_Z (Z.of_nat (S k)) + fst p)%Q.
Definition c107_on (n : nat) (level : string) (F : Z -> nat -> point -> Q) : mvar := c102_var ["time"; level; "node"] [3; n; 4] []
  (fun ix => match ix with [i; k] => map (fun p => CVal (F (nth i c107_times 0%Z) k p)) c94_nodes | _ => [] end).
Definition c107_each (k j : nat) : Q := (inject_Z (Z.of_nat k) + 10 * inject_Z (Z.of_nat j))%Q.
Definition c107_u : mvar := c102_var ["time"; "siglay"; "nele"] [3; 2; 2] []
  (fun ix => match ix with [i; k] => map (fun j => CVal (c107_each k j)) [0; 1] | _ => [] end).
Definition c107_mesh : dict mvar := [("lon", c102_coord "longitude" (map fst c94_nodes)); ("lat", c102_coord "latitude" (map snd c94_nodes)); ("nv", c102_nv); ("time", c107_time)].
Definition c107_file (sig data : dict mvar) : file := mkFile None ["time"; "siglev"; "siglay"; "node"; "nele"] (c107_mesh ++ sig ++ [("h", c107_h); ("zeta", c107_zeta)] ++ data).
Definition c107_data : dict mvar := [("omega", c107_on 3 "siglev" c107_field); ("temp", c107_on 2 "siglay" c107_layered); ("u", c107_u)].
Definition c107_fvcom : file := c107_file [("siglay", c107_siglay [("long_name", "Sigma Layers")]); ("siglev", c107_siglev [("long_name", "Sigma Levels")])] c107_data.
Definition c107_ask := ask_fvcom demo_dateutil demo_cftime (mkTime [0%Z] None None) c94_tree (fun _ _ => []).
Definition c107_half : Z := (hour + 1800000000)%Z.

Definition c107_named : file := c107_file [("siglay", c107_siglay [("standard_name", sigma_label)]); ("siglev", c107_siglev [("standard_name", sigma_label)])] c107_data.
Definition c107_late : file := c107_file [("siglay", c107_siglay []); ("siglev", c107_siglev [])]
  [("time2", mkMvar ["time2"] [2] [("units", "hours since 2024-01-01T00:00:00")] None None None [1; 2]%Z [] [] (fun _ => []));
   ("temp", c102_var ["time2"; "siglay"; "node"] [2; 2; 4] [] (fun _ => map (fun _ => CVal 1%Q) c94_nodes))].

Lemma c107_faces_table : TableOf (length c94_nodes) c94_faces (fm_table c102_nv).
Proof.
  exists 1%Z. split; [right; split; [reflexivity|]; exists [1; 3; 2]%Z; split; [right; left; reflexivity|right; left; reflexivity]|right].
  split; [reflexivity|]. split; [repeat constructor|]. intros i j Hi Hj. destruct i as [|[|i]]; [| |cbn in Hi; lia]; (destruct j as [|[|[|j]]]; [| | |lia]); reflexivity.
Qed.
Ltac each_of I := cbn [c107_fvcom c107_named c107_late c107_file c107_mesh c107_data fi_vars app In] in I; repeat (destruct I as [I|I]; [injection I as <- <-|]); [..|destruct I].
Ltac one_of I := cbn [c107_fvcom c107_named c107_late c107_file c107_mesh c107_data fi_vars app In] in I; repeat (destruct I as [I|I]; [first [discriminate I|injection I as <-]|]); [..|destruct I].
Ltac no_mark := intros n v a l I [<-|[<-|[]]] A Il; cbn [In] in Il; each_of I; first [reflexivity|discriminate A|injection A as <-; exfalso; repeat (destruct Il as [Il|Il]; [discriminate Il|]); destruct Il].
Ltac mesh_ok := split; [unfold UniqueNames; cbn [c107_fvcom c107_named c107_late c107_file c107_mesh c107_data fi_vars app map fst]; once distinct|]; split; [intros g H; discriminate H|];
  split; [intros n v r I; each_of I; intros A; discriminate A|]; split; [eapply (one_pair _ [("node_lon", "node_lat")]); reflexivity|];
  split; [intros x I; one_of I; split; reflexivity|]; split; [intros y I; one_of I; reflexivity|];
  split; [exists ["faces"; "tris"], ["ele"; "nele"]; split; [reflexivity|]; split; [eapply called_present, called_named; reflexivity|]; intros y [<-|[<-|[]]] P; apply present_named in P; apply P; reflexivity|];
  exists "nv"; split; [apply called_named; reflexivity|]; intros x I; one_of I; exact c107_faces_table.
Ltac others := intros n v I; each_of I; (split; [intros H; repeat (destruct H as [H|H]; [discriminate H|]); exact H|]); intros a l [<-|[<-|[]]] A; try discriminate A; injection A as <-; cbn [In]; intros H; repeat (destruct H as [H|H]; [discriminate H|]); exact H.
Definition c107_levs : list (list Q) := map (fun k => map (c97_sigma k) c94_nodes) [0; 1; 2].
Definition c107_lays : list (list Q) := map (fun k => map (c107_mid k) c94_nodes) [0; 1].
Definition c107_pair : pair := mkPair "lon" "lat" "lon" "lat".
Lemma c107_lev_table f a : In ("siglev", c107_siglev a) (fi_vars f) -> SigmaTable f "siglev" 4 c107_levs.
Proof. intros I. eexists. split; [exact I|]. split; [reflexivity|]. intros [|[|[|k]]] row H; cbn in H; [..|destruct k; discriminate H]; injection H as <-; reflexivity. Qed.
Lemma c107_lay_table f a : In ("siglay", c107_siglay a) (fi_vars f) -> SigmaTable f "siglay" 4 c107_lays.
Proof. intros I. eexists. split; [exact I|]. split; [reflexivity|]. intros [|[|k]] row H; cbn in H; [..|destruct k; discriminate H]; injection H as <-; reflexivity. Qed.
Definition c107_water : water := mkWater c107_levs c107_lays (Some 3).
Lemma c107_ok : FvcomFile c107_fvcom c107_pair "nv" c94_nodes c94_faces c107_water.
Proof.
  split; [mesh_ok|split; [exact c94_mesh|]].
  split; [exists "siglev", "siglay"; split; [apply ByName; intros n v I; each_of I; intros A; discriminate A|]|split; [others|split]].
  - split; [eapply c107_lev_table; do 5 right; left; reflexivity|eapply c107_lay_table; do 4 right; left; reflexivity].
  - eexists. split; [split; [do 6 right; left; reflexivity|no_mark]|reflexivity].
  - eexists. split; [split; [do 7 right; left; reflexivity|no_mark]|reflexivity].
Qed.
Lemma c107_named_ok : FvcomFile c107_named c107_pair "nv" c94_nodes c94_faces (mkWater c107_lays c107_lays (Some 3)).
Proof.
  split; [mesh_ok|split; [exact c94_mesh|]].
  split; [exists "siglay", "siglay"; split; [apply ByStandardName; [intros n v I; each_of I; intros A; discriminate A|]|]|split; [others|split]].
  - exists c107_mesh. do 2 eexists. split; [reflexivity|]. split; [reflexivity|]. intros n v I. each_of I; intros A; discriminate A.
  - split; eapply c107_lay_table; do 4 right; left; reflexivity.
  - eexists. split; [split; [do 6 right; left; reflexivity|no_mark]|reflexivity].
  - eexists. split; [split; [do 7 right; left; reflexivity|no_mark]|reflexivity].
Qed.
Lemma c107_late_ok : FvcomFile c107_late c107_pair "nv" c94_nodes c94_faces c107_water.
Proof.
  split; [mesh_ok|split; [exact c94_mesh|]].
  split; [exists "siglev", "siglay"; split; [apply ByName; intros n v I; each_of I; intros A; discriminate A|]|split; [others|split]].
  - split; [eapply c107_lev_table; do 5 right; left; reflexivity|eapply c107_lay_table; do 4 right; left; reflexivity].
  - eexists. split; [split; [do 6 right; left; reflexivity|no_mark]|reflexivity].
  - eexists. split; [split; [do 7 right; left; reflexivity|no_mark]|reflexivity].
Qed.
Lemma c107_inc : StrictlyIncreasing c107_times.
Proof.
  intros i j a b Hij Ha Hb. destruct i as [|[|[|i]]], j as [|[|[|j]]]; cbn in Ha, Hb; try discriminate; try lia; try (destruct j; discriminate); try (destruct i; discriminate); injection Ha as <-; injection Hb as <-; reflexivity.
Qed.
Lemma c107_instants f w : In ("time", c107_time) (fi_vars f) -> (exists r, fm_dims w = "time" :: r) -> dget (fm_attrs w) "time" = None -> InstantsIn demo_cftime f w c107_times.
Proof.
  intros If (r & Hr) Ha. exists "time", c107_time. split; [|split; [exact If|]].
  - right. split; [intros n [A _]; cbn [to_load lv_attrs] in A; congruence|]. split; [exists r; exact Hr|]. exists "", "". reflexivity.
  - split; [|split].
    + exists "hours since 2024-01-01T00:00:00", hour, 0%Z, 0%Z. split; [reflexivity|]. split; [reflexivity|]. repeat constructor.
    + exists "hours since 2024-01-01T00:00:00". split; [reflexivity|]. exists "hours ", " 2024-01-01T00:00:00". reflexivity.
    + exact c107_inc.
Qed.
Lemma c107_time_ok : TimeOk (Some c107_times) false c107_half c107_half.
Proof. intros l H. injection H as <-. split; [exact c107_inc|split; [discriminate|]]. left. split; [|reflexivity]. exists hour, (3 * hour)%Z. repeat split; auto; vm_compute; discriminate. Qed.
Lemma c107_rises t p : (c107_rise t p == inject_Z t * (1 # 36000000000))%Q.
Proof. unfold c107_rise. rewrite Qred_correct. reflexivity. Qed.
Lemma c107_sigmas : SigmaSamples c94_nodes c94_faces c97_sigma c107_levs.
Proof.
  intros k row H. assert (row = map (c97_sigma k) c94_nodes) as ->. { destruct k as [|[|[|k]]]; cbn in H; [| | |destruct k; discriminate]; now injection H as <-. }
  rewrite map_map. apply (c97_sampled (c97_sigma k)). exists (- inject_Z (Z.of_nat k) / 2)%Q, 0%Q, 0%Q. intros p. unfold c97_sigma. ring.
Qed.
Lemma c107_bed f : (forall w, In ("h", w) (fi_vars f) -> w = c107_h) -> BedSamples f c94_nodes c94_faces c97_bathy.
Proof. intros H w I. rewrite (H w I). apply c97_sampled. exists 10%Q, 10%Q, 0%Q. intros p. unfold c97_bathy. ring. Qed.
Lemma c107_water_of pts : WaterOf c107_fvcom c94_nodes c94_faces c107_water c97_bathy c107_rise c97_sigma c107_times false c107_half c107_half pts.
Proof.
  split; [exact c107_sigmas|]. split; [cbn; lia|]. split; [left; discriminate|]. split; [|split].
  - intros p _ j k Hjk. unfold c97_sigma. assert (inject_Z (Z.of_nat j) < inject_Z (Z.of_nat k))%Q by (rewrite <- Zlt_Qlt; lia).
    apply Qlt_shift_div_r; [reflexivity|]. setoid_replace (- inject_Z (Z.of_nat j) / 2 * 2)%Q with (- inject_Z (Z.of_nat j))%Q by field. lra.
  - apply c107_bed. intros w I. one_of I. reflexivity.
  - split; [apply (c107_time_ok c107_times eq_refl)|]. split.
    + intros p k t0 t1 q0 _ _ _. rewrite !c107_rises. ring.
    + intros w I. one_of I. intros i u Hu. apply nth_error_nth with (d := 0%Z) in Hu. cbn [c107_zeta c102_var fm_part]. rewrite Hu. apply (c97_sampled (c107_rise u)).
      exists (inject_Z u * (1 # 36000000000))%Q, 0%Q, 0%Q. intros p. rewrite c107_rises. ring.
Qed.
Lemma c107_steady : TimeSteady c107_times c107_field.
Proof. intros k p i t0 t1 q0 _ _ _. unfold c107_field, level_depth. rewrite !c107_rises. ring. Qed.
Lemma c107_fields : FieldAt c94_nodes c94_faces c94_find c107_times 3 (fm_part (c107_on 3 "siglev" c107_field)) "node" c107_field.
Proof.
  apply AtNodes. intros i t k Ht _. apply nth_error_nth with (d := 0%Z) in Ht. cbn [c107_on c102_var fm_part]. rewrite Ht. apply (c97_sampled (c107_field t k)).
  set (s := (inject_Z (Z.of_nat k) / 2)%Q). exists (3 + 2 * ((inject_Z t * (1 # 36000000000) + 10) * s))%Q, (2 * (10 * s))%Q, 1%Q.
  intros p. unfold c107_field, level_depth. rewrite !c107_rises. unfold c97_bathy, c97_sigma, s, Qdiv. ring.
Qed.
Definition c107_z (s : spot) (k : nat) : Q := level_depth c97_bathy c107_rise c97_sigma c107_half k (place s).
Lemma c107_down s : (0 <= fst (place s))%Q -> GoesDown 3 (c107_z s).
Proof.
  intros H j k Hjk. unfold c107_z, level_depth. setoid_rewrite c107_rises. unfold c97_bathy, c97_sigma. apply c97_deeper; [|rewrite <- Zlt_Qlt; lia].
  change (inject_Z c107_half * (1 # 36000000000))%Q with (5400000000 # 36000000000)%Q. lra.
Qed.

(** The file opens and its data on the levels are answered. *)
Ltac sits := right; split; [intros l A; discriminate A|first [apply AtNode; reflexivity|apply AtFace; [discriminate|reflexivity]]].
Lemma c107_sound : FvcomSound demo_cftime c107_fvcom c107_pair "nv" 4 2 (Some 3).
Proof.
  assert (T : forall w, (exists r, fm_dims w = "time" :: r) -> dget (fm_attrs w) "time" = None -> InstantsIn demo_cftime c107_fvcom w c107_times)
    by (intros w; apply c107_instants; do 3 right; left; reflexivity).
  intros k w I. each_of I.
  - left. left. reflexivity.
  - left. right. left. reflexivity.
  - left. right. right. left. reflexivity.
  - right. left. split; [intros l A; discriminate A|]. right. exists [], 3. repeat split; discriminate.
  - right. right. exists 4, "node". split; [sits|]. left. split; [eapply c105_timeless; reflexivity|right; exists 2; reflexivity].
  - right. right. exists 4, "node". split; [sits|]. left. split; [eapply c105_timeless; reflexivity|right; exists 3; reflexivity].
  - right. right. exists 4, "node". split; [sits|]. left. split; [eapply c105_timeless; reflexivity|left; reflexivity].
  - right. right. exists 4, "node". split; [sits|]. right. exists c107_times, []. split; [apply T; [eexists; reflexivity|reflexivity]|]. split; [reflexivity|left; reflexivity].
  - right. right. exists 4, "node". split; [sits|]. right. exists c107_times, [3]. split; [apply T; [eexists; reflexivity|reflexivity]|]. split; [reflexivity|right]. exists 3. split; [reflexivity|]. intros nt H. injection H as <-. reflexivity.
  - right. right. exists 4, "node". split; [sits|]. right. exists c107_times, [2]. split; [apply T; [eexists; reflexivity|reflexivity]|]. split; [reflexivity|right]. exists 2. split; [reflexivity|]. intros nt H. injection H as <-. reflexivity.
  - right. right. exists 2, "face". split; [sits|]. right. exists c107_times, [2]. split; [apply T; [eexists; reflexivity|reflexivity]|]. split; [reflexivity|right]. exists 2. split; [reflexivity|]. intros nt H. injection H as <-. reflexivity.
Qed.
Lemma c107_opened : exists m vs, open_fvcom_dataset demo_dateutil demo_cftime (mkTime [0%Z] None None) c107_fvcom = Ok (m, vs).
Proof. apply (c107_opens _ _ _ _ _ _ _ _ _ c107_ok); [cbn; lia|exact c107_sound]. Qed.
Definition c107_pts : list spot := [((1 # 2, 1 # 4), 4); ((1 # 2, 1 # 4), 20); ((3, 0), 7); ((3 # 4, 3 # 4), -1)]%Q.
Example c107_levels_example :
  exists cs, c107_ask c107_fvcom "omega" c107_half false c107_pts = Ok cs /\
    Forall2 (fun s c => (c94_find (place s) <> (-1)%Z -> ColumnAnswer 3 (c107_z s) (fun k => c107_field c107_half k (place s)) true (deep s) c) /\
      (c94_find (place s) = (-1)%Z -> OutsideAnswer true (deep s) c)) c107_pts cs.
Proof.
  destruct c107_opened as (m & vs & O).
  refine (c107_levels_partial _ _ _ c94_tree (fun _ _ => []) c94_find c107_fvcom c107_pair "nv" c94_nodes c94_faces c107_water m vs "omega" _ 4 "node" c107_times 3 c97_bathy c107_rise c97_sigma c107_half c107_half false c107_pts
    c107_field c107_half c107_ok O _ _ c94_finds _ _ _ _ _ _ (c107_water_of _) _ c107_time_ok c107_fields c107_steady _ _).
  - reflexivity.
  - intros. constructor.
  - do 8 right; left; reflexivity.
  - intros [H|[H|[H|[]]]]; discriminate H.
  - sits.
  - apply c107_instants; [do 3 right; left; reflexivity|eexists; reflexivity|reflexivity].
  - reflexivity.
  - intros nt H. injection H as <-. reflexivity.
  - intros s Hs _. apply c107_down. cbn [c107_pts In] in Hs. repeat (destruct Hs as [<-|Hs]; [cbn; lra|]). destruct Hs.
  - cbn; lia.
  - discriminate.
Qed.
Definition Reads (r : result (list cell)) (l : list (option Q)) : Prop := exists cs, r = Ok cs /\ Forall2 (fun c o => match o with Some x => Shows x c | None => c = CMasked end) cs l.
Example c107_values :
  Reads (c107_ask c107_fvcom "omega" c107_half false c107_pts) [Some (45 # 4); None; None; Some (15 # 4)]%Q /\
  Reads (c107_ask c107_fvcom "temp" c107_half false [((1 # 2, 1 # 4), 4); ((1 # 2, 1 # 4), 11); ((1 # 2, 1 # 4), 20); ((3, 0), 7)]%Q) [Some (201 # 2); Some (401 # 2); None; None]%Q /\
  Reads (c107_ask c107_fvcom "u" c107_half false [((1 # 2, 1 # 4), 4); ((3 # 4, 3 # 4), 11); ((3 # 4, 3 # 4), 20); ((3, 0), 7)]%Q) [Some 0; Some 11; None; None]%Q /\
  Reads (c107_ask c107_fvcom "zeta" c107_half false c107_pts) [Some (3 # 20); Some (3 # 20); Some 0; Some (3 # 20)]%Q /\
  Reads (c107_ask c107_fvcom "h" c107_half false c107_pts) [Some 15; Some 15; Some 0; Some (35 # 2)]%Q.
Proof.
  repeat split; unfold Reads; (eexists; split; [vm_compute; reflexivity|]); repeat (constructor; [first [reflexivity|eexists; split; [reflexivity|vm_compute; reflexivity]]|]); constructor.
Qed.

(** Refuted: with the label the levels are not those of the file, even for data on
    them, linear in depth. *)
Theorem c107_labelled_refuted :
  exists f g w rows s x,
  FvcomFile f c107_pair "nv" c94_nodes c94_faces g /\ SigmaTable f "siglev" 4 rows /\ SigmaSamples c94_nodes c94_faces c97_sigma rows /\ length rows = 3 /\
  BedSamples f c94_nodes c94_faces c97_bathy /\
  In ("omega", w) (fi_vars f) /\ fm_shape w = [3; 3; 4] /\ FieldAt c94_nodes c94_faces c94_find c107_times 3 (fm_part w) "node" c107_field /\
  c94_find (place s) = 0%Z /\ (c107_z s 0 < deep s < c107_z s 2)%Q /\ c107_ask f "omega" c107_half false [s] = Ok [CVal x] /\
  (forall k, k < 3 -> (c107_field c107_half k (place s) == 3 + snd (place s) + 2 * c107_z s k)%Q) /\ ~ (x == 3 + snd (place s) + 2 * deep s)%Q.
Proof.
  exists c107_named. eexists. exists (c107_on 3 "siglev" c107_field), c107_levs, ((1 # 2, 1 # 4), 4)%Q. eexists.
  split; [exact c107_named_ok|]. split; [eapply c107_lev_table; do 5 right; left; reflexivity|]. split; [exact c107_sigmas|]. split; [reflexivity|].
  split; [apply c107_bed; intros w I; one_of I; reflexivity|]. split; [do 8 right; left; reflexivity|]. split; [reflexivity|]. split; [exact c107_fields|].
  split; [reflexivity|]. split; [split; vm_compute; reflexivity|]. split; [vm_compute; reflexivity|]. split; [intros k _; unfold c107_field, c107_z; ring|].
  vm_compute. discriminate.
Qed.
Print Assumptions c107_labelled_refuted.
(** Above the first level, data on the layers is not masked and not a number. *)
Theorem c107_above_refuted :
  exists f g w s, FvcomFile f c107_pair "nv" c94_nodes c94_faces g /\ In ("temp", w) (fi_vars f) /\ fm_shape w = [3; length (wa_layers g); 4] /\
  c94_find (place s) = 1%Z /\ (deep s < c107_z s 0)%Q /\ c107_ask f "temp" c107_half false [s] = Ok [CNaN].
Proof.
  exists c107_fvcom, c107_water. eexists. exists ((3 # 4, 3 # 4), -1)%Q. split; [exact c107_ok|]. split; [do 9 right; left; reflexivity|]. split; [reflexivity|].
  split; [reflexivity|]. split; vm_compute; reflexivity.
Qed.
Print Assumptions c107_above_refuted.
(** A file in which data is not sampled as often as the free surface does not open. *)
Theorem c107_other_times_refuted :
  exists f g w e, FvcomFile f c107_pair "nv" c94_nodes c94_faces g /\ wa_surface g = Some 3 /\ In ("temp", w) (fi_vars f) /\ InstantsIn demo_cftime f w c102_times /\
  fm_shape w = [2; length (wa_layers g); 4] /\ open_fvcom_dataset demo_dateutil demo_cftime (mkTime [0%Z] None None) f = Err e.
Proof.
  exists c107_late, c107_water. do 2 eexists. split; [exact c107_late_ok|]. split; [reflexivity|]. split; [do 9 right; left; reflexivity|].
  split; [|split; [reflexivity|vm_compute; reflexivity]].
  eexists "time2", _. split; [|split; [do 8 right; left; reflexivity|]].
  - right. split; [intros n [A _]; cbn in A; discriminate A|]. split; [eexists; reflexivity|]. exists "", "2". reflexivity.
  - split; [|split].
    + exists "hours since 2024-01-01T00:00:00", hour, 0%Z, 0%Z. split; [reflexivity|]. split; [reflexivity|]. repeat constructor.
    + exists "hours since 2024-01-01T00:00:00". split; [reflexivity|]. exists "hours ", " 2024-01-01T00:00:00". reflexivity.
    + intros i j a b Hij Ha Hb. destruct i as [|[|i]], j as [|[|j]]; cbn in Ha, Hb; try discriminate; try lia; try (destruct j; discriminate); try (destruct i; discriminate).
      injection Ha as <-. injection Hb as <-. reflexivity.
Qed.
Print Assumptions c107_other_times_refuted.
(** The sigmas are opened as data too; asked at the surface they answer with those
    of the last level. *)
Theorem c107_sigma_as_data_refuted :
  exists f g x, FvcomFile f c107_pair "nv" c94_nodes c94_faces g /\ SigmaSamples c94_nodes c94_faces c97_sigma (wa_levels g) /\ length (wa_levels g) = 3 /\
  c107_ask f "siglev" c107_half false [((1 # 2, 1 # 4), c107_z ((1 # 2, 1 # 4), 0) 0)]%Q = Ok [CVal x] /\ (x == c97_sigma 2 (1 # 2, 1 # 4))%Q /\ ~ (x == c97_sigma 0 (1 # 2, 1 # 4))%Q.
Proof.
  exists c107_fvcom, c107_water. eexists. split; [exact c107_ok|]. split; [exact c107_sigmas|]. split; [reflexivity|]. split; [vm_compute; reflexivity|]. split; vm_compute; [reflexivity|discriminate].
Qed.
Print Assumptions c107_sigma_as_data_refuted.
