(** C94, C102 and C104: data on layers asked beyond the level listed first. *)
From Coq Require Import String Lqa.
From Verif Require Import Common CommonProofs TimeModel TimeSpec TimeProofs GridTypeModel GridTypeSpec MaskModel MaskSpec MaskProofs VariableModel VariableSpec VariableProofs VariableInterpProofs DepthModel DepthSpec DepthProofs
  UGridGeomModel UGridGeomSpec RGridModel RGridSpec TFileModel TFileSpec TFileProps LoadModel LoadSpec VLoadModel UFileModel UFileSpec WholeModel WholeSpec WholeProofs WholeProps
  FMeshModel FMeshSpec FMeshProofs FMeshProps FRectModel FRectSpec FRectProofs FRectProps UpProofs SWholeSpec AnyDepthSpec LayerSpec LayerProofs LayerProps LFileProps.
From Verif Require UpProps.
Open Scope string_scope.
Open Scope list_scope.
Open Scope nat_scope.

(** On the far side of the level listed first, on a side where answers are not
    masked. *)
Definition BeforeFirst (ls : list Q) (sbc bbc : bcond) (z : Q) : Prop :=
  exists a, First ls a /\ ((Ascending ls /\ (z < a)%Q /\ bmask sbc = false) \/ (Descending ls /\ (a < z)%Q /\ bmask bbc = false)).

Section Loop.
  Context {P : Type} (nd : nat) (val : list P -> list Z -> result (list cell)) (slices : list Z) (pts : list P) (idxs : list (option Z)) (alphas : list Q).
  Lemma layer_loop_keeps k us : forall values vs, nth_error idxs k = Some (Some (-1)%Z) -> layer_loop val slices pts idxs us values = Ok vs ->
    nth_error vs k = nth_error values k.
  Proof.
    induction us as [|u us IH]; intros values vs Hk H; cbn [layer_loop] in H. { now injection H as <-. }
    apply bind_ok in H. destruct H as (v & _ & H). rewrite (IH _ _ Hk H). apply put_all_keeps. intros X. apply where_eq_in in X. destruct X as (m & -> & Hm).
    cbn [Nat.add] in Hk. rewrite Hk in Hm. injection Hm as Hm. destruct (Z.eqb_spec u (-1)); lia.
  Qed.
  Lemma depth_before k vs : nth_error idxs k = Some (Some (-1)%Z) -> depth_interp nd val slices pts idxs alphas nd = Ok vs -> nth_error vs k = Some CNaN.
  Proof.
    intros Hk H. unfold depth_interp in H. destruct (forallb _ idxs) eqn:Em.
    { rewrite forallb_forall in Em. pose proof (nth_error_In _ _ Hk) as X. apply Em in X. discriminate. }
    rewrite Nat.eqb_refl in H. rewrite (layer_loop_keeps k _ _ _ Hk H). now rewrite (map_nth_error _ _ _ Hk).
  Qed.
End Loop.
Section Before.
  Context (ls : list Q) (sbc bbc : bcond) (N : 2 <= length ls).
  Lemma before_row (pts : list spot) k s : nth_error pts k = Some s -> BeforeFirst ls sbc bbc (deep s) ->
    exists rows, l_alphas ls (Some (length ls)) sbc bbc (map deep pts) = Ok rows /\ nth_error rows k = Some (Some (-1)%Z, Some 1%Q).
  Proof.
    intros Hk (a & Ha & C). destruct (ends_exist ls N) as (_ & b & _ & Hb). assert (H1 : Some (length ls) <> Some 1) by (intros X; injection X; lia).
    destruct C as [(A & L & B)|(D & L & B)].
    - destruct (l_alphas_asc ls (Some (length ls)) sbc bbc (map deep pts) A N H1) as (rows & Er & _ & K). exists rows. split; [exact Er|].
      destruct (K k (deep s) (map_nth_error _ _ _ Hk)) as (r & Hr & R). destruct (R a b Ha Hb) as (R1 & _). rewrite Hr, (R1 L), B. reflexivity.
    - destruct (l_alphas_desc ls (Some (length ls)) sbc bbc (map deep pts) D N H1) as (rows & Er & _ & K). exists rows. split; [exact Er|].
      destruct (K k (deep s) (map_nth_error _ _ _ Hk)) as (r & Hr & R). destruct (R a b Ha Hb) as (R1 & _). rewrite Hr, (R1 L), B. reflexivity.
  Qed.
  Lemma v_depth_before order shape (val : list spot -> list Z -> result (list cell)) slices pts k s vs : dim_len order shape DDepth = Ok (length ls - 1) ->
    nth_error pts k = Some s -> BeforeFirst ls sbc bbc (deep s) ->
    v_depth order shape (Some (l_view deep ls (Some (length ls)) sbc bbc)) val pts slices = Ok vs -> nth_error vs k = Some CNaN.
  Proof.
    intros DL Hk B H. destruct (before_row pts k s Hk B) as (rows & Er & K). unfold v_depth in H. cbn [l_view dv_alphas dv_layers] in H. rewrite Er in H. unfold view_rows in H. cbn [bind] in H.
    rewrite DL in H. cbn [bind fst snd] in H. eapply depth_before; [exact (map_nth_error fst _ _ K)|exact H].
  Qed.
End Before.

(** Whatever the grid answers, a point beyond the level listed first is not given
    a number by data on layers. *)
Theorem c94_layers_unanswered :
  forall g interp time ls sbc bbc rest q ex pts k s vs,
  2 <= length ls -> nth_error pts k = Some s -> BeforeFirst ls sbc bbc (deep s) ->
  at_grid interp (order_of (some time) true g) (layer_shape time ls rest) time (Some (l_view deep ls (Some (length ls)) sbc bbc)) q ex pts = Ok vs ->
  nth_error vs k = Some CNaN.
Proof.
  intros g interp time ls sbc bbc rest q ex pts k s vs N Hk B H. destruct time as [t|].
  - assert (H' : time_interp t q ex (v_depth (order_of true true g) (layer_shape (Some t) ls rest) (Some (l_view deep ls (Some (length ls)) sbc bbc)) (grid_xy interp [length (t_data t); length ls - 1]) pts) [] = Ok vs)
      by (revert H; destruct g; exact (fun H => H)).
    revert H'. apply time_keeps. intros sl vs'. apply (v_depth_before ls sbc bbc N) with (s := s); auto; destruct g; reflexivity.
  - assert (H' : v_depth (order_of false true g) (layer_shape None ls rest) (Some (l_view deep ls (Some (length ls)) sbc bbc)) (grid_xy interp [length ls - 1]) pts [] = Ok vs) by (revert H; destruct g; exact (fun H => H)).
    revert H'. apply (v_depth_before ls sbc bbc N) with (s := s); auto; destruct g; reflexivity.
Qed.
Print Assumptions c94_layers_unanswered.

(** Past the level listed last, on a side where answers are not masked. *)
Definition PastLast (ls : list Q) (sbc bbc : bcond) (z : Q) : Prop :=
  exists b, Last ls b /\ ((Ascending ls /\ (b <= z)%Q /\ bmask bbc = false) \/ (Descending ls /\ (z <= b)%Q /\ bmask sbc = false)).

Lemma resolve_past m : forall lead sl r, resolve (lead ++ [m]) (sl ++ [Z.of_nat m]) <> Ok r.
Proof.
  induction lead as [|n lead IH]; intros [|z sl] r H.
  - cbn [app resolve] in H. unfold Common.py_index in H. destruct (Z.leb_spec 0 (Z.of_nat m)); [|lia]. destruct (Z.ltb_spec (Z.of_nat m) (Z.of_nat m)); [lia|discriminate H].
  - cbn [app resolve] in H. destruct (Common.py_index m z); [|discriminate H]. destruct sl; discriminate H.
  - cbn [app resolve] in H. destruct (Common.py_index n (Z.of_nat m)); [|discriminate H]. destruct lead; discriminate H.
  - cbn [app resolve] in H. destruct (Common.py_index n z); [|discriminate H]. apply bind_ok in H. destruct H as (r' & E & _). exact (IH _ _ E).
Qed.
Lemma layer_loop_fails {P} (val : list P -> list Z -> result (list cell)) slices pts idxs u : (u <> -1)%Z -> (forall ps vs, val ps (slices ++ [u]) <> Ok vs) ->
  forall us values vs, In u us -> layer_loop val slices pts idxs us values <> Ok vs.
Proof.
  intros Nu F. induction us as [|x us IH]; intros values vs Hu H; [exact Hu|]. cbn [layer_loop] in H. apply bind_ok in H. destruct H as (v & E & H).
  destruct Hu as [->|Hu]; [|exact (IH _ _ Hu H)]. rewrite (proj2 (Z.eqb_neq _ _) Nu) in E. exact (F _ _ E).
Qed.
Lemma time_fails t q ex (val : list Z -> result (list cell)) sl : (forall s vs, val s <> Ok vs) -> forall vs, time_interp t q ex val sl <> Ok vs.
Proof.
  intros V vs H. unfold time_interp in H. apply bind_ok in H. destruct H as (lo & _ & H). destruct (_ || _)%bool; [exact (V _ _ H)|].
  apply bind_ok in H. destruct H as (hi & _ & H). destruct (_ || _)%bool; [exact (V _ _ H)|].
  apply bind_ok in H. destruct H as (i & _ & H). apply bind_ok in H. destruct H as (v0 & H0 & _). exact (V _ _ H0).
Qed.
Section Past.
  Context (ls : list Q) (sbc bbc : bcond) (N : 2 <= length ls).
  Lemma past_row (pts : list spot) k s : nth_error pts k = Some s -> PastLast ls sbc bbc (deep s) ->
    exists rows, l_alphas ls (Some (length ls)) sbc bbc (map deep pts) = Ok rows /\ nth_error rows k = Some (Some (Z.of_nat (length ls) - 1)%Z, Some 0%Q).
  Proof.
    intros Hk (b & Hb & C). destruct (ends_exist ls N) as (a & _ & Ha & _). assert (H1 : Some (length ls) <> Some 1) by (intros X; injection X; lia).
    destruct C as [(A & L & B)|(D & L & B)].
    - destruct (l_alphas_asc ls (Some (length ls)) sbc bbc (map deep pts) A N H1) as (rows & Er & _ & K). exists rows. split; [exact Er|].
      destruct (K k (deep s) (map_nth_error _ _ _ Hk)) as (r & Hr & R). destruct (R a b Ha Hb) as (_ & R2 & _). rewrite Hr, (R2 L), B. reflexivity.
    - destruct (l_alphas_desc ls (Some (length ls)) sbc bbc (map deep pts) D N H1) as (rows & Er & _ & K). exists rows. split; [exact Er|].
      destruct (K k (deep s) (map_nth_error _ _ _ Hk)) as (r & Hr & R). destruct (R a b Ha Hb) as (_ & R2 & _). rewrite Hr, (R2 L), B. reflexivity.
  Qed.
  Lemma v_depth_past order shape (interp : list nat -> list spot -> result (list cell)) lead slices pts s vs : dim_len order shape DDepth = Ok (length ls - 1) ->
    In s pts -> PastLast ls sbc bbc (deep s) ->
    v_depth order shape (Some (l_view deep ls (Some (length ls)) sbc bbc)) (grid_xy interp (lead ++ [length ls - 1])) pts slices <> Ok vs.
  Proof.
    intros DL Hs B H. destruct (In_nth_error _ _ Hs) as (k & Hk). destruct (past_row pts k s Hk B) as (rows & Er & K). unfold v_depth in H. cbn [l_view dv_alphas dv_layers] in H. rewrite Er in H.
    unfold view_rows in H. cbn [bind] in H. rewrite DL in H. cbn [bind fst snd] in H. pose proof (nth_error_In _ _ (map_nth_error fst _ _ K)) as I. cbn [fst] in I.
    unfold depth_interp in H. destruct (forallb _ _) eqn:Em. { rewrite forallb_forall in Em. apply Em in I. discriminate I. }
    rewrite Nat.eqb_refl in H. revert H. apply (layer_loop_fails _ _ _ _ (Z.of_nat (length ls) - 1)%Z); [lia| |now apply unique_unmasked_in].
    intros ps vs' X. unfold grid_xy in X. apply bind_ok in X. destruct X as (ix & X & _). replace (Z.of_nat (length ls) - 1)%Z with (Z.of_nat (length ls - 1)) in X by lia. exact (resolve_past _ _ _ _ X).
  Qed.
End Past.
(** Whatever the grid answers, a question with a point past the level listed last
    has no answer at all: the layer after the last one is asked for. *)
Theorem c94_layers_past_raises :
  forall g interp time ls sbc bbc rest q ex pts s,
  2 <= length ls -> In s pts -> PastLast ls sbc bbc (deep s) -> forall vs,
  at_grid interp (order_of (some time) true g) (layer_shape time ls rest) time (Some (l_view deep ls (Some (length ls)) sbc bbc)) q ex pts <> Ok vs.
Proof.
  intros g interp time ls sbc bbc rest q ex pts s N Hs B vs H. destruct time as [t|].
  - assert (H' : time_interp t q ex (v_depth (order_of true true g) (layer_shape (Some t) ls rest) (Some (l_view deep ls (Some (length ls)) sbc bbc)) (grid_xy interp ([length (t_data t)] ++ [length ls - 1])) pts) [] = Ok vs)
      by (revert H; destruct g; exact (fun H => H)).
    revert H'. apply time_fails. intros sl vs'. apply (v_depth_past ls sbc bbc N) with (s := s); auto; destruct g; reflexivity.
  - assert (H' : v_depth (order_of false true g) (layer_shape None ls rest) (Some (l_view deep ls (Some (length ls)) sbc bbc)) (grid_xy interp ([] ++ [length ls - 1])) pts [] = Ok vs) by (revert H; destruct g; exact (fun H => H)).
    revert H'. apply (v_depth_past ls sbc bbc N) with (s := s); auto; destruct g; reflexivity.
Qed.
Print Assumptions c94_layers_past_raises.

(** Files with a mesh. *)
Theorem c102_layers_unanswered :
  forall dateutil cftime now tree hist f m vs mv nodes faces k w loc n ts ls q ex pts i s cs,
  UniqueNames f -> MeshVarOf f mv -> NodesIn f mv nodes -> FacesIn f mv faces -> TriMesh nodes faces ->
  open_dataset dateutil cftime f = Ok (m, vs) ->
  In (k, w) (fi_vars f) -> Unmentioned mv k -> Attr w "location" loc -> ValidLocation loc ->
  InstantsIn cftime f w ts -> LevelsIn f (Some ls) -> fm_shape w = [length ts; length ls - 1; n] ->
  nth_error pts i = Some s -> BeforeFirst ls default_sbc default_bbc (deep s) ->
  ask_file dateutil cftime now tree hist f k q ex pts = Ok cs -> nth_error cs i = Some CNaN.
Proof.
  intros dateutil cftime now tree hist f m vs mv nodes faces k w loc n ts ls q ex pts i s cs U MV NI FI T O I Un Lo VL In_ Lv Sh Hs B H.
  destruct (mesh_layers_asked dateutil cftime now tree hist f m vs mv nodes faces k loc w ts ls n U MV NI FI T O I Un Lo VL In_ Lv Sh) as (t & Td & L2 & Mo & E).
  rewrite E in H. eapply c94_layers_unanswered; eauto.
Qed.
Print Assumptions c102_layers_unanswered.
Theorem c102_layers_past_raises :
  forall dateutil cftime now tree hist f m vs mv nodes faces k w loc n ts ls q ex pts s,
  UniqueNames f -> MeshVarOf f mv -> NodesIn f mv nodes -> FacesIn f mv faces -> TriMesh nodes faces ->
  open_dataset dateutil cftime f = Ok (m, vs) ->
  In (k, w) (fi_vars f) -> Unmentioned mv k -> Attr w "location" loc -> ValidLocation loc ->
  InstantsIn cftime f w ts -> LevelsIn f (Some ls) -> fm_shape w = [length ts; length ls - 1; n] ->
  In s pts -> PastLast ls default_sbc default_bbc (deep s) ->
  forall cs, ask_file dateutil cftime now tree hist f k q ex pts <> Ok cs.
Proof.
  intros dateutil cftime now tree hist f m vs mv nodes faces k w loc n ts ls q ex pts s U MV NI FI T O I Un Lo VL In_ Lv Sh Hs B cs.
  destruct (mesh_layers_asked dateutil cftime now tree hist f m vs mv nodes faces k loc w ts ls n U MV NI FI T O I Un Lo VL In_ Lv Sh) as (t & Td & L2 & Mo & E).
  rewrite E. eapply c94_layers_past_raises; eauto.
Qed.
Print Assumptions c102_layers_past_raises.

(** Files with a rectangular grid. *)
Theorem c104_layers_unanswered :
  forall dateutil cftime now f ln la lon lat p k w ts ls loc a b q ex pts i s cs,
  RectFile f ln la lon lat -> open_rect_dataset dateutil cftime f = Ok p ->
  In (k, w) (fi_vars f) -> k <> ln -> k <> la -> LocationOf (rect_api (rect_of ln la lon lat)) (to_load w) loc ->
  InstantsIn cftime f w ts -> LevelsIn f (Some ls) -> fm_shape w = [length ts; length ls - 1; a; b] ->
  nth_error pts i = Some s -> BeforeFirst ls default_sbc default_bbc (deep s) ->
  ask_rect dateutil cftime now f k q ex pts = Ok cs -> nth_error cs i = Some CNaN.
Proof.
  intros dateutil cftime now f ln la lon lat p k w ts ls loc a b q ex pts i s cs R O I N1 N2 HL In_ Lv Sh Hs B H.
  destruct (rect_layers_asked dateutil cftime now f ln la lon lat p k w ts ls loc a b R O I N1 N2 HL In_ Lv Sh) as (t & Td & L2 & Mo & E).
  rewrite E in H. eapply c94_layers_unanswered; eauto.
Qed.
Print Assumptions c104_layers_unanswered.
Theorem c104_layers_past_raises :
  forall dateutil cftime now f ln la lon lat p k w ts ls loc a b q ex pts s,
  RectFile f ln la lon lat -> open_rect_dataset dateutil cftime f = Ok p ->
  In (k, w) (fi_vars f) -> k <> ln -> k <> la -> LocationOf (rect_api (rect_of ln la lon lat)) (to_load w) loc ->
  InstantsIn cftime f w ts -> LevelsIn f (Some ls) -> fm_shape w = [length ts; length ls - 1; a; b] ->
  In s pts -> PastLast ls default_sbc default_bbc (deep s) ->
  forall cs, ask_rect dateutil cftime now f k q ex pts <> Ok cs.
Proof.
  intros dateutil cftime now f ln la lon lat p k w ts ls loc a b q ex pts s R O I N1 N2 HL In_ Lv Sh Hs B cs.
  destruct (rect_layers_asked dateutil cftime now f ln la lon lat p k w ts ls loc a b R O I N1 N2 HL In_ Lv Sh) as (t & Td & L2 & Mo & E).
  rewrite E. eapply c94_layers_past_raises; eauto.
Qed.
Print Assumptions c104_layers_past_raises.

(** A question with a point above the surface and points in the water: the first
    is answered NaN. *)
Example c102_layers_unanswered_example :
  exists cs, c102_ask (lf_file c94_levels) "dens" lf_half false (((1 # 4, 1 # 4), -1)%Q :: lf_pts) = Ok cs /\ nth_error cs 0 = Some CNaN /\
    exists v, nth_error cs 1 = Some (CVal v).
Proof.
  destruct (lf_open c94_levels (or_introl eq_refl)) as ([m vs] & O).
  destruct (c102_ask (lf_file c94_levels) "dens" lf_half false (((1 # 4, 1 # 4), -1)%Q :: lf_pts)) as [cs|e] eqn:E; [|exfalso; vm_compute in E; discriminate E].
  exists cs. split; [reflexivity|]. split.
  - apply (c102_layers_unanswered demo_dateutil demo_cftime (mkTime [0%Z] None None) c94_tree (fun _ _ => []) (lf_file c94_levels) m vs c102_mesh_var c94_nodes c94_faces "dens" lf_dens "node"
      (length c94_nodes) c102_times c94_levels lf_half false (((1 # 4, 1 # 4), -1)%Q :: lf_pts) 0 ((1 # 4, 1 # 4), -1)%Q cs (lf_unique _) (lf_mesh_of _) (lf_nodes_of _) (lf_faces_of _) c94_mesh O).
    + do 7 right. left. reflexivity.
    + apply c102_unmentioned. cbn [In]. intros H. repeat (destruct H as [H|H]; [discriminate H|]). exact H.
    + reflexivity.
    + unfold ValidLocation; auto 10.
    + apply lf_instants; [eexists; reflexivity|reflexivity].
    + exact lf_levels_of.
    + reflexivity.
    + reflexivity.
    + exists 0%Q. split; [reflexivity|]. left. split; [exact ly_ascending|split; reflexivity].
    + exact E.
  - vm_compute in E. injection E as <-. eexists. reflexivity.
Qed.

(** Levels listed upwards: a point at the surface makes the question raise, next
    to a point in the water. *)
Example c102_layers_past_example :
  (exists v, c102_ask (lf_file UpProps.up_levels) "dens" lf_half false [((1 # 4, 1 # 4), 3)%Q] = Ok [CVal v]) /\
  forall cs, c102_ask (lf_file UpProps.up_levels) "dens" lf_half false [((1 # 4, 1 # 4), 3); ((1 # 4, 1 # 4), 0)]%Q <> Ok cs.
Proof.
  split. { eexists. vm_compute. reflexivity. }
  destruct (lf_open UpProps.up_levels (or_intror eq_refl)) as ([m vs] & O).
  apply (c102_layers_past_raises demo_dateutil demo_cftime (mkTime [0%Z] None None) c94_tree (fun _ _ => []) (lf_file UpProps.up_levels) m vs c102_mesh_var c94_nodes c94_faces "dens" lf_dens "node"
      (length c94_nodes) c102_times UpProps.up_levels lf_half false [((1 # 4, 1 # 4), 3); ((1 # 4, 1 # 4), 0)]%Q ((1 # 4, 1 # 4), 0)%Q (lf_unique _) (lf_mesh_of _) (lf_nodes_of _) (lf_faces_of _) c94_mesh O).
  - do 7 right. left. reflexivity.
  - apply c102_unmentioned. cbn [In]. intros H. repeat (destruct H as [H|H]; [discriminate H|]). exact H.
  - reflexivity.
  - unfold ValidLocation; auto 10.
  - apply lf_instants; [eexists; reflexivity|reflexivity].
  - exact lf_up_levels_of.
  - reflexivity.
  - right. left. reflexivity.
  - exists 0%Q. split; [reflexivity|]. right. split; [exact UpProps.up_descending|split; [apply Qle_refl|reflexivity]].
Qed.
