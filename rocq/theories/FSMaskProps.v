(** C115 for variables in files with staggered grids. *)
From Coq Require Import Reals String Ascii Lra.
From Verif Require Import Common CommonProofs VerdatModel SAttrModel SAttrSpec SAttrProofs SAttrProps SVarModel SVarSpec SVarProofs SVarProps TimeModel TimeSpec VariableSpec GridTypeModel GridTypeSpec GridTypeProofs MaskModel MaskSpec VariableModel DepthModel DepthSpec SGridModel SGridSpec
  SGridInterpModel SGridInterpSpec SGridInterpProps TFileModel TFileSpec TFileProps LoadModel LoadSpec LoadProofs VLoadModel FMeshModel FMeshSpec FMeshProofs FMeshProps FRectSpec FRectProofs WholeSpec WholeProofs WholeProps
  SWholeModel SWholeSpec SWholeProofs SWholeProps FStagModel FStagSpec FStagRead FStagProofs FStagProps FSgridModel FSgridSpec FSgridRead FSgridProofs FSgridProps SMaskSpec SMaskProofs SMaskProps.
Open Scope string_scope.
Open Scope list_scope.
Open Scope nat_scope.

(** ** Files with staggered coordinate variables: the samples in the file, whatever is missing in them, over time. *)
Theorem c115_stag_times :
  forall dateutil cftime now find s y p k w a b loc ts place_of col expct d q q' ex pts,
  StagFile (sf_file s) y -> MaskSized s y -> open_stag_dataset dateutil cftime s = Ok p -> In (k, w) (fi_vars (sf_file s)) -> ~ In k (grid_words y) ->
  SitsAt (a_r (sf_nums s (p_x (y_nodes y)))) (a_c (sf_nums s (p_x (y_nodes y)))) y w a b loc ->
  InstantsIn cftime (sf_file s) w ts -> fm_shape w = [length ts; a; b] ->
  let g := st_grid (fst p) in
  SameShape g -> Answers g (center_size s y) loc a b col expct -> Finds g find place_of (map fst pts) ->
  Stores (sf_data s k) (Some ts) None a b d -> TimeOk (Some ts) ex q q' ->
  exists cs, ask_stag dateutil cftime now find s k q ex pts = Ok cs /\
  Forall2 (fun x c => OverTime (Some ts) ex q (fun u => expct (d u 0) (fst x, place_of (fst x))) c) pts cs.
Proof.
  intros dateutil cftime now find s y p k w a b loc ts place_of col expct d q q' ex pts F M O I NG Si In_ Sh g SS An Fi Ho TO.
  destruct (sits_in dateutil cftime s y F M p O loc a b col expct An) as (Ep & St). unfold g in *. rewrite Ep in *.
  destruct (stag_asked dateutil cftime s y F p O k w I NG a b loc Si ts None In_ Logic.I Sh now find) as (tm & Td & E). rewrite E. subst ts. cbn [option_map].
  exact (c115_times (st_grid (stag_of s y)) find place_of loc a b col expct (sf_data s k) (Some tm) d q q' ex pts None SS St Fi Ho TO).
Qed.
Print Assumptions c115_stag_times.
(** On levels, at points other than the centers. *)
Theorem c115_stag_levels_partial :
  forall dateutil cftime now find s y p k w a b loc ts ls place_of expct d q q' ex pts z,
  StagFile (sf_file s) y -> MaskSized s y -> open_stag_dataset dateutil cftime s = Ok p -> In (k, w) (fi_vars (sf_file s)) -> ~ In k (grid_words y) ->
  SitsAt (a_r (sf_nums s (p_x (y_nodes y)))) (a_c (sf_nums s (p_x (y_nodes y)))) y w a b loc ->
  InstantsIn cftime (sf_file s) w ts -> LevelsIn (sf_file s) (Some ls) -> fm_shape w = [length ts; length ls; a; b] ->
  let g := st_grid (fst p) in
  SameShape g -> Answers g (center_size s y) loc a b false expct -> Finds g find place_of (map fst pts) ->
  Stores (sf_data s k) (Some ts) (Some (length ls)) a b d -> TimeOk (Some ts) ex q q' ->
  (forall x, In x pts -> DepthAsked ls default_sbc default_bbc (snd x) (z x)) ->
  exists cs, ask_stag dateutil cftime now find s k q ex pts = Ok cs /\
  Forall2 (fun x c => exists e, (forall u, OverDepth ls (snd x) (fun j => expct (d u j) (fst x, place_of (fst x))) (e u)) /\ OverTime (Some ts) ex q e c) pts cs.
Proof.
  intros dateutil cftime now find s y p k w a b loc ts ls place_of expct d q q' ex pts z F M O I NG Si In_ Lv Sh g SS An Fi Ho TO DA.
  destruct (sits_in dateutil cftime s y F M p O loc a b false expct An) as (Ep & St). unfold g in *. rewrite Ep in *.
  destruct (stag_asked dateutil cftime s y F p O k w I NG a b loc Si ts (Some ls) In_ Lv Sh now find) as (tm & Td & E). rewrite E. subst ts. cbn [option_map].
  destruct (levels_read (sf_file s) ls (proj1 F) Lv) as (_ & L2 & Mo).
  exact (c115_levels_partial (st_grid (stag_of s y)) find place_of loc a b expct (sf_data s k) (Some tm) ls d q q' ex pts default_sbc default_bbc z SS St Fi Ho TO L2 Mo DA).
Qed.
Print Assumptions c115_stag_levels_partial.
(** On levels, at any of the points, one point at a time. *)
Theorem c115_stag_one_point_partial :
  forall dateutil cftime now find s y p k w a b loc ts ls place_of col expct d q q' ex x z,
  StagFile (sf_file s) y -> MaskSized s y -> open_stag_dataset dateutil cftime s = Ok p -> In (k, w) (fi_vars (sf_file s)) -> ~ In k (grid_words y) ->
  SitsAt (a_r (sf_nums s (p_x (y_nodes y)))) (a_c (sf_nums s (p_x (y_nodes y)))) y w a b loc ->
  InstantsIn cftime (sf_file s) w ts -> LevelsIn (sf_file s) (Some ls) -> fm_shape w = [length ts; length ls; a; b] ->
  let g := st_grid (fst p) in
  SameShape g -> Answers g (center_size s y) loc a b col expct -> Finds g find place_of [fst x] ->
  Stores (sf_data s k) (Some ts) (Some (length ls)) a b d -> TimeOk (Some ts) ex q q' ->
  DepthAsked ls default_sbc default_bbc (snd x) z ->
  exists c e, ask_stag dateutil cftime now find s k q ex [x] = Ok [c] /\
  (forall u, OverDepth ls (snd x) (fun j => expct (d u j) (fst x, place_of (fst x))) (e u)) /\ OverTime (Some ts) ex q e c.
Proof.
  intros dateutil cftime now find s y p k w a b loc ts ls place_of col expct d q q' ex x z F M O I NG Si In_ Lv Sh g SS An Fi Ho TO DA.
  destruct (sits_in dateutil cftime s y F M p O loc a b col expct An) as (Ep & St). unfold g in *. rewrite Ep in *.
  destruct (stag_asked dateutil cftime s y F p O k w I NG a b loc Si ts (Some ls) In_ Lv Sh now find) as (tm & Td & E). rewrite E. subst ts. cbn [option_map].
  destruct (levels_read (sf_file s) ls (proj1 F) Lv) as (_ & L2 & Mo).
  exact (c115_one_point_partial (st_grid (stag_of s y)) find place_of loc a b col expct (sf_data s k) (Some tm) ls d q q' ex x default_sbc default_bbc z SS St Fi Ho TO L2 Mo DA).
Qed.
Print Assumptions c115_stag_one_point_partial.

(** ** Files with an SGRID topology variable: the samples in the file, whatever is missing in them, over time. *)
Theorem c115_sgrid_times :
  forall dateutil cftime now find s h t p k w a b loc ts place_of col expct d q q' ex pts,
  SgridFile (sf_file s) h t -> open_sgrid_dataset dateutil cftime s = Ok p -> In (k, w) (fi_vars (sf_file s)) -> ~ TopologyWord t k ->
  SitsAt (a_r (sf_nums s (fst (h_nodes h)))) (a_c (sf_nums s (fst (h_nodes h)))) (places h) w a b loc ->
  InstantsIn cftime (sf_file s) w ts -> fm_shape w = [length ts; a; b] ->
  let g := st_grid (fst p) in
  SameShape g -> OnChart g h (fm_dims w) loc a b col expct -> Finds g find place_of (map fst pts) ->
  Stores (sf_data s k) (Some ts) None a b d -> TimeOk (Some ts) ex q q' ->
  exists cs, ask_sgrid dateutil cftime now find s k q ex pts = Ok cs /\
  Forall2 (fun x c => OverTime (Some ts) ex q (fun u => expct (d u 0) (fst x, place_of (fst x))) c) pts cs.
Proof.
  intros dateutil cftime now find s h t p k w a b loc ts place_of col expct d q q' ex pts F O I NG Si In_ Sh g SS An Fi Ho TO.
  destruct (chart_in dateutil cftime s h t F p _ O loc a b col expct An) as (Ep & St). unfold g in *. rewrite Ep in *.
  destruct (sgrid_asked dateutil cftime s h t F p O k w I NG a b loc Si ts None In_ Logic.I Sh now find) as (tm & Td & E). rewrite E. subst ts. cbn [option_map].
  exact (c115_times (st_grid (sgrid_of s h t)) find place_of loc a b col expct (sf_data s k) (Some tm) d q q' ex pts None SS St Fi Ho TO).
Qed.
Print Assumptions c115_sgrid_times.
(** On levels, at points other than the centers. *)
Theorem c115_sgrid_levels_partial :
  forall dateutil cftime now find s h t p k w a b loc ts ls place_of expct d q q' ex pts z,
  SgridFile (sf_file s) h t -> open_sgrid_dataset dateutil cftime s = Ok p -> In (k, w) (fi_vars (sf_file s)) -> ~ TopologyWord t k ->
  SitsAt (a_r (sf_nums s (fst (h_nodes h)))) (a_c (sf_nums s (fst (h_nodes h)))) (places h) w a b loc ->
  InstantsIn cftime (sf_file s) w ts -> LevelsIn (sf_file s) (Some ls) -> fm_shape w = [length ts; length ls; a; b] ->
  let g := st_grid (fst p) in
  SameShape g -> OnChart g h (fm_dims w) loc a b false expct -> Finds g find place_of (map fst pts) ->
  Stores (sf_data s k) (Some ts) (Some (length ls)) a b d -> TimeOk (Some ts) ex q q' ->
  (forall x, In x pts -> DepthAsked ls default_sbc default_bbc (snd x) (z x)) ->
  exists cs, ask_sgrid dateutil cftime now find s k q ex pts = Ok cs /\
  Forall2 (fun x c => exists e, (forall u, OverDepth ls (snd x) (fun j => expct (d u j) (fst x, place_of (fst x))) (e u)) /\ OverTime (Some ts) ex q e c) pts cs.
Proof.
  intros dateutil cftime now find s h t p k w a b loc ts ls place_of expct d q q' ex pts z F O I NG Si In_ Lv Sh g SS An Fi Ho TO DA.
  destruct (chart_in dateutil cftime s h t F p _ O loc a b false expct An) as (Ep & St). unfold g in *. rewrite Ep in *.
  destruct (sgrid_asked dateutil cftime s h t F p O k w I NG a b loc Si ts (Some ls) In_ Lv Sh now find) as (tm & Td & E). rewrite E. subst ts. cbn [option_map].
  destruct (levels_read (sf_file s) ls (sf_unique _ _ _ F) Lv) as (_ & L2 & Mo).
  exact (c115_levels_partial (st_grid (sgrid_of s h t)) find place_of loc a b expct (sf_data s k) (Some tm) ls d q q' ex pts default_sbc default_bbc z SS St Fi Ho TO L2 Mo DA).
Qed.
Print Assumptions c115_sgrid_levels_partial.
(** On levels, at any of the points, one point at a time. *)
Theorem c115_sgrid_one_point_partial :
  forall dateutil cftime now find s h t p k w a b loc ts ls place_of col expct d q q' ex x z,
  SgridFile (sf_file s) h t -> open_sgrid_dataset dateutil cftime s = Ok p -> In (k, w) (fi_vars (sf_file s)) -> ~ TopologyWord t k ->
  SitsAt (a_r (sf_nums s (fst (h_nodes h)))) (a_c (sf_nums s (fst (h_nodes h)))) (places h) w a b loc ->
  InstantsIn cftime (sf_file s) w ts -> LevelsIn (sf_file s) (Some ls) -> fm_shape w = [length ts; length ls; a; b] ->
  let g := st_grid (fst p) in
  SameShape g -> OnChart g h (fm_dims w) loc a b col expct -> Finds g find place_of [fst x] ->
  Stores (sf_data s k) (Some ts) (Some (length ls)) a b d -> TimeOk (Some ts) ex q q' ->
  DepthAsked ls default_sbc default_bbc (snd x) z ->
  exists c e, ask_sgrid dateutil cftime now find s k q ex [x] = Ok [c] /\
  (forall u, OverDepth ls (snd x) (fun j => expct (d u j) (fst x, place_of (fst x))) (e u)) /\ OverTime (Some ts) ex q e c.
Proof.
  intros dateutil cftime now find s h t p k w a b loc ts ls place_of col expct d q q' ex x z F O I NG Si In_ Lv Sh g SS An Fi Ho TO DA.
  destruct (chart_in dateutil cftime s h t F p _ O loc a b col expct An) as (Ep & St). unfold g in *. rewrite Ep in *.
  destruct (sgrid_asked dateutil cftime s h t F p O k w I NG a b loc Si ts (Some ls) In_ Lv Sh now find) as (tm & Td & E). rewrite E. subst ts. cbn [option_map].
  destruct (levels_read (sf_file s) ls (sf_unique _ _ _ F) Lv) as (_ & L2 & Mo).
  exact (c115_one_point_partial (st_grid (sgrid_of s h t)) find place_of loc a b col expct (sf_data s k) (Some tm) ls d q q' ex x default_sbc default_bbc z SS St Fi Ho TO L2 Mo DA).
Qed.
Print Assumptions c115_sgrid_one_point_partial.

(** ** Example: the file of C105 with the whole surface of the second sample of the
    temperature missing: half an hour after the first sample every answer is. *)
Definition c115_layer (t : Z) (j : nat) : arr rd := mkArr 3 3 (fun _ _ => mkRd (IZR t) (Z.eqb t (2 * hour) && Nat.eqb j 0)).
Definition c115_file_data (n : string) : nvar :=
  if String.eqb n "temp" then mkNvar [2; 3] (fun ix => c115_layer (nth (nth 0 ix 0) c102_times 0%Z) (nth 1 ix 0)) else c105_data n.
Definition c115_s : sfile := mkSfile c105_roms (c105_nums c105_sizes) (fun _ => (MPlain, mkArr 4 4 (fun _ _ => mkM 1 false))) c115_file_data.
Lemma c115_mask_sized : MaskSized c115_s c105_layout.
Proof. intros c m Hc Hm. injection Hc as <-. injection Hm as <-. split; reflexivity. Qed.
Example c115_file_example :
  ask_stag demo_dateutil demo_cftime c105_now c98_find c115_s "temp" (hour + 1800000000)%Z false c98_pts = Ok [RMask; RMask; RMask].
Proof.
  destruct (c105_opens demo_dateutil demo_cftime c115_s c105_layout c105_stag c105_sound) as (t & vs & O & Gi).
  destruct (stag_open_inv demo_dateutil demo_cftime c115_s c105_layout c105_stag _ O) as (Et & _). cbn [fst] in Et.
  destruct (c115_stag_levels_partial demo_dateutil demo_cftime c105_now c98_find c115_s c105_layout (t, vs) "temp" c105_temp 3 3 "node" c102_times c94_levels c98_place node_expected
      c115_layer (hour + 1800000000)%Z (hour + 1800000000)%Z false c98_pts snd) as (cs & E & F2); auto; try exact c105_stag; try exact c115_mask_sized.
  - do 10 right. left. reflexivity.
  - intros H. cbn in H. repeat (destruct H as [H|H]; [discriminate H|]). exact H.
  - exact c105_temp_sits.
  - apply c105_instants; [eexists; reflexivity|reflexivity].
  - exact c105_levels.
  - cbn [fst]. rewrite Et. split; reflexivity.
  - cbn [fst]. rewrite Et. exact (AtNode (st_grid (stag_of c115_s c105_layout)) _).
  - cbn [fst]. rewrite Et. exact c98_found.
  - split; [reflexivity|]. intros ix u j (i & -> & Hi & Hj). cbn [c115_s sf_data c115_file_data String.eqb Ascii.eqb nv_at nth].
    destruct i as [|[|i]]; [injection Hi as <-; repeat split|injection Hi as <-; repeat split|destruct i; discriminate].
  - exact c105_time_ok.
  - intros x Hx. exists 0%Q, 10%Q. split; [reflexivity|split; [reflexivity|left]]. split; [exact c102_ascending|].
    destruct Hx as [<-|[<-|[<-|[]]]]; (split; [split; [discriminate|reflexivity]|reflexivity]).
  - rewrite E. f_equal.
    assert (P : forall x c, In x c98_pts -> (exists e, (forall u, OverDepth c94_levels (snd x) (fun j => node_expected (c115_layer u j) (fst x, c98_place (fst x))) (e u)) /\ OverTime (Some c102_times) false (hour + 1800000000) e c) -> c = RMask).
    { intros x c Hx (e & De & [(u & A & _)|(t0 & t1 & (k & H0 & H1 & B & _) & Bl)]).
      - exfalso. destruct A as [(X & _)|[(X & C)|(X & C)]]; [discriminate|injection X as <-; destruct C as [C|(C & _)]; discriminate..].
      - destruct k as [|[|k]]; [|discriminate H1|destruct k; discriminate H0].
        assert (E0 : t0 = hour) by (injection H0 as X; symmetry; exact X). assert (E1 : t1 = (2 * hour)%Z) by (injection H1 as X; symmetry; exact X). subst t0 t1. clear H0 H1 B.
        assert (M : e (2 * hour)%Z = RMask).
        { assert (N : node_expected (c115_layer (2 * hour) 0) (fst x, c98_place (fst x)) = RMask) by (unfold node_expected; cbn [snd]; destruct (c98_place (fst x)) as [[[i j] [l1 l2]]|]; reflexivity).
          destruct (De (2 * hour)%Z) as [(m & a & b & Ha & Hb & Bt & Bd)|(a & Fa & Out & Bd)].
          - destruct m as [|m].
            + rewrite N in Bd. destruct Bd as [(_ & X)|(v1 & v2 & X & _)]; [exact X|discriminate].
            + exfalso. destruct m as [|m]; [|destruct m as [|m]; [discriminate|destruct m; discriminate]]. injection Ha as <-. injection Hb as <-.
              destruct Hx as [<-|[<-|[<-|[]]]]; cbn [snd] in Bt; destruct Bt as [[X Y]|[X Y]]; first [exact (X eq_refl)|discriminate X|discriminate Y].
          - rewrite N in Bd. destruct Bd as [(_ & X)|(v1 & v2 & _ & X & _)]; [exact X|discriminate]. }
        change (2 * hour)%Z with (2 * hour)%Z in Bl. rewrite M in Bl. destruct Bl as [(_ & X)|(v1 & v2 & _ & X & _)]; [exact X|discriminate]. }
    unfold c98_pts in F2, P. inversion F2 as [|? c1 ? r1 G1 F3]; subst. inversion F3 as [|? c2 ? r2 G2 F4]; subst. inversion F4 as [|? c3 ? r3 G3 F5]; subst. inversion F5; subst.
    rewrite (P _ c1 (or_introl eq_refl) G1), (P _ c2 (or_intror (or_introl eq_refl)) G2), (P _ c3 (or_intror (or_intror (or_introl eq_refl))) G3). reflexivity.
Qed.
