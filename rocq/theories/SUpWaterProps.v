(** C105, C108 and C115 for levels listed upwards, asked below the last of them
    (at it or above it: [SUpProps]). *)
From Coq Require Import Reals String Ascii Lra Qreals.
From Verif Require Import Common CommonProofs VerdatModel SAttrModel SAttrSpec SAttrProofs SAttrProps SVarModel SVarSpec SVarProofs SVarProps TimeModel TimeSpec VariableSpec GridTypeModel GridTypeSpec GridTypeProofs MaskModel MaskSpec VariableModel DepthModel DepthSpec SGridModel SGridSpec
  SGridInterpModel SGridInterpSpec SGridInterpProps TFileModel TFileSpec TFileProps LoadModel LoadSpec LoadProofs VLoadModel FMeshModel FMeshSpec FMeshProofs FMeshProps FRectSpec FRectProofs WholeSpec WholeProofs WholeProps
  SWholeModel SWholeSpec SWholeProofs SWholeProps FStagModel FStagSpec FStagRead FStagProofs FStagProps FSgridModel FSgridSpec FSgridRead FSgridProofs FSgridProps SMaskSpec SMaskProofs SMaskProps AnyDepthSpec AnyDepthProofs SAnyDepthSpec SAnyDepthProofs SAnyDepthProps FSMaskProps UpSpec UpWaterSpec UpWaterProofs SUpWaterSpec SUpWaterProofs WMaskProps UpProps SUpProofs SUpProps.
Open Scope string_scope.
Open Scope list_scope.
Open Scope nat_scope.

(** Files with staggered coordinate variables: masked below the deepest level. *)
Theorem c105_upwards_below_partial :
  forall dateutil cftime now find s y p k w a b loc ts ls place_of expct f m q q' ex pts,
  StagFile (sf_file s) y -> MaskSized s y -> open_stag_dataset dateutil cftime s = Ok p -> In (k, w) (fi_vars (sf_file s)) -> ~ In k (grid_words y) ->
  SitsAt (a_r (sf_nums s (p_x (y_nodes y)))) (a_c (sf_nums s (p_x (y_nodes y)))) y w a b loc ->
  InstantsIn cftime (sf_file s) w ts -> LevelsIn (sf_file s) (Some ls) -> fm_shape w = [length ts; length ls; a; b] ->
  let g := st_grid (fst p) in
  SameShape g -> Answers g (center_size s y) loc a b false expct -> Finds g find place_of (map fst pts) ->
  Holds (sf_data s k) (Some ts) (Some (length ls)) a b (fun t j => f t (nth j ls 0%Q)) (fun _ => m) ->
  (forall t r c, m r c = false -> RLinearInDepth ls (fun d => f t d r c)) -> TimeOk (Some ts) ex q q' ->
  Descending ls -> (forall x, In x pts -> ~ AtTop (Some ls) (snd x)) ->
  exists cs, ask_stag dateutil cftime now find s k q ex pts = Ok cs /\
    Forall2 (fun x => RUnderWater ls (snd x) (fun z c => c = expct (snap a b (f q' z) m) (fst x, place_of (fst x)))) pts cs.
Proof.
  intros dateutil cftime now find s y p k w a b loc ts ls place_of expct f m q q' ex pts F M O I NG Si In_ Lv Sh g SS An Fi Ho LD TO DA NT.
  destruct (sits_in dateutil cftime s y F M p O loc a b false expct An) as (Ep & St). unfold g in *. rewrite Ep in *.
  destruct (stag_asked dateutil cftime s y F p O k w I NG a b loc Si ts (Some ls) In_ Lv Sh now find) as (tm & Td & E). rewrite E. subst ts. cbn [option_map].
  destruct (levels_read (sf_file s) ls (proj1 F) Lv) as (_ & L2 & Mo).
  destruct (c98_any_depth_partial (st_grid (stag_of s y)) find place_of loc a b expct (sf_data s k) (Some tm) ls f m q q' ex pts default_sbc default_bbc SS St Fi Ho LD TO L2 Mo) as (cs & Ec & V).
  - intros x Hx. apply upwards_ranswer; auto.
  - exists cs. split; [exact Ec|]. revert V. apply Forall2_in. intros x c Hx. apply upwards_rwater; auto.
Qed.
Print Assumptions c105_upwards_below_partial.

Theorem c105_upwards_below_one_partial :
  forall dateutil cftime now find s y p k w a b loc ts ls place_of col expct f m q q' ex x,
  StagFile (sf_file s) y -> MaskSized s y -> open_stag_dataset dateutil cftime s = Ok p -> In (k, w) (fi_vars (sf_file s)) -> ~ In k (grid_words y) ->
  SitsAt (a_r (sf_nums s (p_x (y_nodes y)))) (a_c (sf_nums s (p_x (y_nodes y)))) y w a b loc ->
  InstantsIn cftime (sf_file s) w ts -> LevelsIn (sf_file s) (Some ls) -> fm_shape w = [length ts; length ls; a; b] ->
  let g := st_grid (fst p) in
  SameShape g -> Answers g (center_size s y) loc a b col expct -> Finds g find place_of [fst x] ->
  Holds (sf_data s k) (Some ts) (Some (length ls)) a b (fun t j => f t (nth j ls 0%Q)) (fun _ => m) ->
  (forall t r c, m r c = false -> RLinearInDepth ls (fun d => f t d r c)) -> TimeOk (Some ts) ex q q' ->
  Descending ls -> ~ AtTop (Some ls) (snd x) ->
  exists c, ask_stag dateutil cftime now find s k q ex [x] = Ok [c] /\
    RUnderWater ls (snd x) (fun z c => c = expct (snap a b (f q' z) m) (fst x, place_of (fst x))) c.
Proof.
  intros dateutil cftime now find s y p k w a b loc ts ls place_of col expct f m q q' ex x F M O I NG Si In_ Lv Sh g SS An Fi Ho LD TO DA NT.
  destruct (sits_in dateutil cftime s y F M p O loc a b col expct An) as (Ep & St). unfold g in *. rewrite Ep in *.
  destruct (stag_asked dateutil cftime s y F p O k w I NG a b loc Si ts (Some ls) In_ Lv Sh now find) as (tm & Td & E). rewrite E. subst ts. cbn [option_map].
  destruct (levels_read (sf_file s) ls (proj1 F) Lv) as (_ & L2 & Mo).
  destruct (c98_any_depth_one_partial (st_grid (stag_of s y)) find place_of loc a b col expct (sf_data s k) (Some tm) ls f m q q' ex x default_sbc default_bbc SS St Fi Ho LD TO L2 Mo) as (c & Ec & V).
  - now apply upwards_ranswer.
  - exists c. split; [exact Ec|]. revert V. now apply upwards_rwater.
Qed.
Print Assumptions c105_upwards_below_one_partial.

(** Files with a topology variable. *)
Theorem c108_upwards_below_partial :
  forall dateutil cftime now find s h t p k w a b loc ts ls place_of expct f m q q' ex pts,
  SgridFile (sf_file s) h t -> open_sgrid_dataset dateutil cftime s = Ok p -> In (k, w) (fi_vars (sf_file s)) -> ~ TopologyWord t k ->
  SitsAt (a_r (sf_nums s (fst (h_nodes h)))) (a_c (sf_nums s (fst (h_nodes h)))) (places h) w a b loc ->
  InstantsIn cftime (sf_file s) w ts -> LevelsIn (sf_file s) (Some ls) -> fm_shape w = [length ts; length ls; a; b] ->
  let g := st_grid (fst p) in
  SameShape g -> OnChart g h (fm_dims w) loc a b false expct -> Finds g find place_of (map fst pts) ->
  Holds (sf_data s k) (Some ts) (Some (length ls)) a b (fun u j => f u (nth j ls 0%Q)) (fun _ => m) ->
  (forall u r c, m r c = false -> RLinearInDepth ls (fun d => f u d r c)) -> TimeOk (Some ts) ex q q' ->
  Descending ls -> (forall x, In x pts -> ~ AtTop (Some ls) (snd x)) ->
  exists cs, ask_sgrid dateutil cftime now find s k q ex pts = Ok cs /\
    Forall2 (fun x => RUnderWater ls (snd x) (fun z c => c = expct (snap a b (f q' z) m) (fst x, place_of (fst x)))) pts cs.
Proof.
  intros dateutil cftime now find s h t p k w a b loc ts ls place_of expct f m q q' ex pts F O I NG Si In_ Lv Sh g SS An Fi Ho LD TO DA NT.
  destruct (chart_in dateutil cftime s h t F p _ O loc a b false expct An) as (Ep & St). unfold g in *. rewrite Ep in *.
  destruct (sgrid_asked dateutil cftime s h t F p O k w I NG a b loc Si ts (Some ls) In_ Lv Sh now find) as (tm & Td & E). rewrite E. subst ts. cbn [option_map].
  destruct (levels_read (sf_file s) ls (sf_unique _ _ _ F) Lv) as (_ & L2 & Mo).
  destruct (c98_any_depth_partial (st_grid (sgrid_of s h t)) find place_of loc a b expct (sf_data s k) (Some tm) ls f m q q' ex pts default_sbc default_bbc SS St Fi Ho LD TO L2 Mo) as (cs & Ec & V).
  - intros x Hx. apply upwards_ranswer; auto.
  - exists cs. split; [exact Ec|]. revert V. apply Forall2_in. intros x c Hx. apply upwards_rwater; auto.
Qed.
Print Assumptions c108_upwards_below_partial.

Theorem c108_upwards_below_one_partial :
  forall dateutil cftime now find s h t p k w a b loc ts ls place_of col expct f m q q' ex x,
  SgridFile (sf_file s) h t -> open_sgrid_dataset dateutil cftime s = Ok p -> In (k, w) (fi_vars (sf_file s)) -> ~ TopologyWord t k ->
  SitsAt (a_r (sf_nums s (fst (h_nodes h)))) (a_c (sf_nums s (fst (h_nodes h)))) (places h) w a b loc ->
  InstantsIn cftime (sf_file s) w ts -> LevelsIn (sf_file s) (Some ls) -> fm_shape w = [length ts; length ls; a; b] ->
  let g := st_grid (fst p) in
  SameShape g -> OnChart g h (fm_dims w) loc a b col expct -> Finds g find place_of [fst x] ->
  Holds (sf_data s k) (Some ts) (Some (length ls)) a b (fun u j => f u (nth j ls 0%Q)) (fun _ => m) ->
  (forall u r c, m r c = false -> RLinearInDepth ls (fun d => f u d r c)) -> TimeOk (Some ts) ex q q' ->
  Descending ls -> ~ AtTop (Some ls) (snd x) ->
  exists c, ask_sgrid dateutil cftime now find s k q ex [x] = Ok [c] /\
    RUnderWater ls (snd x) (fun z c => c = expct (snap a b (f q' z) m) (fst x, place_of (fst x))) c.
Proof.
  intros dateutil cftime now find s h t p k w a b loc ts ls place_of col expct f m q q' ex x F O I NG Si In_ Lv Sh g SS An Fi Ho LD TO DA NT.
  destruct (chart_in dateutil cftime s h t F p _ O loc a b col expct An) as (Ep & St). unfold g in *. rewrite Ep in *.
  destruct (sgrid_asked dateutil cftime s h t F p O k w I NG a b loc Si ts (Some ls) In_ Lv Sh now find) as (tm & Td & E). rewrite E. subst ts. cbn [option_map].
  destruct (levels_read (sf_file s) ls (sf_unique _ _ _ F) Lv) as (_ & L2 & Mo).
  destruct (c98_any_depth_one_partial (st_grid (sgrid_of s h t)) find place_of loc a b col expct (sf_data s k) (Some tm) ls f m q q' ex x default_sbc default_bbc SS St Fi Ho LD TO L2 Mo) as (c & Ec & V).
  - now apply upwards_ranswer.
  - exists c. split; [exact Ec|]. revert V. now apply upwards_rwater.
Qed.
Print Assumptions c108_upwards_below_one_partial.

(** Missing values in those files. *)
Theorem c115_stag_upwards_below_partial :
  forall dateutil cftime now find s y p k w a b loc ts ls place_of expct d q q' ex pts,
  StagFile (sf_file s) y -> MaskSized s y -> open_stag_dataset dateutil cftime s = Ok p -> In (k, w) (fi_vars (sf_file s)) -> ~ In k (grid_words y) ->
  SitsAt (a_r (sf_nums s (p_x (y_nodes y)))) (a_c (sf_nums s (p_x (y_nodes y)))) y w a b loc ->
  InstantsIn cftime (sf_file s) w ts -> LevelsIn (sf_file s) (Some ls) -> fm_shape w = [length ts; length ls; a; b] ->
  let g := st_grid (fst p) in
  SameShape g -> Answers g (center_size s y) loc a b false expct -> Finds g find place_of (map fst pts) ->
  Stores (sf_data s k) (Some ts) (Some (length ls)) a b d -> TimeOk (Some ts) ex q q' ->
  Descending ls -> (forall x, In x pts -> ~ AtTop (Some ls) (snd x)) ->
  exists cs, ask_stag dateutil cftime now find s k q ex pts = Ok cs /\
  Forall2 (fun x => RUnderWater ls (snd x) (fun _ c => exists e, (forall u, OverDepth ls (snd x) (fun j => expct (d u j) (fst x, place_of (fst x))) (e u)) /\ OverTime (Some ts) ex q e c)) pts cs.
Proof.
  intros dateutil cftime now find s y p k w a b loc ts ls place_of expct d q q' ex pts F M O I NG Si In_ Lv Sh g SS An Fi Ho TO DA NT.
  destruct (sits_in dateutil cftime s y F M p O loc a b false expct An) as (Ep & St). unfold g in *. rewrite Ep in *.
  destruct (stag_asked dateutil cftime s y F p O k w I NG a b loc Si ts (Some ls) In_ Lv Sh now find) as (tm & Td & E). rewrite E. subst ts. cbn [option_map].
  destruct (levels_read (sf_file s) ls (proj1 F) Lv) as (_ & L2 & Mo).
  destruct (c115_any_depth_partial (st_grid (stag_of s y)) find place_of loc a b expct (sf_data s k) (Some tm) ls d q q' ex pts default_sbc default_bbc SS St Fi Ho TO L2 Mo) as (cs & Ec & V).
  - intros x Hx. apply upwards_ranswer; auto.
  - exists cs. split; [exact Ec|]. revert V. apply Forall2_in. intros x c Hx. apply upwards_rwater; auto.
Qed.
Print Assumptions c115_stag_upwards_below_partial.

Theorem c115_stag_upwards_below_one_partial :
  forall dateutil cftime now find s y p k w a b loc ts ls place_of col expct d q q' ex x,
  StagFile (sf_file s) y -> MaskSized s y -> open_stag_dataset dateutil cftime s = Ok p -> In (k, w) (fi_vars (sf_file s)) -> ~ In k (grid_words y) ->
  SitsAt (a_r (sf_nums s (p_x (y_nodes y)))) (a_c (sf_nums s (p_x (y_nodes y)))) y w a b loc ->
  InstantsIn cftime (sf_file s) w ts -> LevelsIn (sf_file s) (Some ls) -> fm_shape w = [length ts; length ls; a; b] ->
  let g := st_grid (fst p) in
  SameShape g -> Answers g (center_size s y) loc a b col expct -> Finds g find place_of [fst x] ->
  Stores (sf_data s k) (Some ts) (Some (length ls)) a b d -> TimeOk (Some ts) ex q q' ->
  Descending ls -> ~ AtTop (Some ls) (snd x) ->
  exists c, ask_stag dateutil cftime now find s k q ex [x] = Ok [c] /\
  RUnderWater ls (snd x) (fun _ c => exists e, (forall u, OverDepth ls (snd x) (fun j => expct (d u j) (fst x, place_of (fst x))) (e u)) /\ OverTime (Some ts) ex q e c) c.
Proof.
  intros dateutil cftime now find s y p k w a b loc ts ls place_of col expct d q q' ex x F M O I NG Si In_ Lv Sh g SS An Fi Ho TO DA NT.
  destruct (sits_in dateutil cftime s y F M p O loc a b col expct An) as (Ep & St). unfold g in *. rewrite Ep in *.
  destruct (stag_asked dateutil cftime s y F p O k w I NG a b loc Si ts (Some ls) In_ Lv Sh now find) as (tm & Td & E). rewrite E. subst ts. cbn [option_map].
  destruct (levels_read (sf_file s) ls (proj1 F) Lv) as (_ & L2 & Mo).
  destruct (c115_any_depth_one_partial (st_grid (stag_of s y)) find place_of loc a b col expct (sf_data s k) (Some tm) ls d q q' ex x default_sbc default_bbc SS St Fi Ho TO L2 Mo) as (c & Ec & V).
  - now apply upwards_ranswer.
  - exists c. split; [exact Ec|]. revert V. now apply upwards_rwater.
Qed.
Print Assumptions c115_stag_upwards_below_one_partial.

Theorem c115_sgrid_upwards_below_partial :
  forall dateutil cftime now find s h t p k w a b loc ts ls place_of expct d q q' ex pts,
  SgridFile (sf_file s) h t -> open_sgrid_dataset dateutil cftime s = Ok p -> In (k, w) (fi_vars (sf_file s)) -> ~ TopologyWord t k ->
  SitsAt (a_r (sf_nums s (fst (h_nodes h)))) (a_c (sf_nums s (fst (h_nodes h)))) (places h) w a b loc ->
  InstantsIn cftime (sf_file s) w ts -> LevelsIn (sf_file s) (Some ls) -> fm_shape w = [length ts; length ls; a; b] ->
  let g := st_grid (fst p) in
  SameShape g -> OnChart g h (fm_dims w) loc a b false expct -> Finds g find place_of (map fst pts) ->
  Stores (sf_data s k) (Some ts) (Some (length ls)) a b d -> TimeOk (Some ts) ex q q' ->
  Descending ls -> (forall x, In x pts -> ~ AtTop (Some ls) (snd x)) ->
  exists cs, ask_sgrid dateutil cftime now find s k q ex pts = Ok cs /\
  Forall2 (fun x => RUnderWater ls (snd x) (fun _ c => exists e, (forall u, OverDepth ls (snd x) (fun j => expct (d u j) (fst x, place_of (fst x))) (e u)) /\ OverTime (Some ts) ex q e c)) pts cs.
Proof.
  intros dateutil cftime now find s h t p k w a b loc ts ls place_of expct d q q' ex pts F O I NG Si In_ Lv Sh g SS An Fi Ho TO DA NT.
  destruct (chart_in dateutil cftime s h t F p _ O loc a b false expct An) as (Ep & St). unfold g in *. rewrite Ep in *.
  destruct (sgrid_asked dateutil cftime s h t F p O k w I NG a b loc Si ts (Some ls) In_ Lv Sh now find) as (tm & Td & E). rewrite E. subst ts. cbn [option_map].
  destruct (levels_read (sf_file s) ls (sf_unique _ _ _ F) Lv) as (_ & L2 & Mo).
  destruct (c115_any_depth_partial (st_grid (sgrid_of s h t)) find place_of loc a b expct (sf_data s k) (Some tm) ls d q q' ex pts default_sbc default_bbc SS St Fi Ho TO L2 Mo) as (cs & Ec & V).
  - intros x Hx. apply upwards_ranswer; auto.
  - exists cs. split; [exact Ec|]. revert V. apply Forall2_in. intros x c Hx. apply upwards_rwater; auto.
Qed.
Print Assumptions c115_sgrid_upwards_below_partial.

Theorem c115_sgrid_upwards_below_one_partial :
  forall dateutil cftime now find s h t p k w a b loc ts ls place_of col expct d q q' ex x,
  SgridFile (sf_file s) h t -> open_sgrid_dataset dateutil cftime s = Ok p -> In (k, w) (fi_vars (sf_file s)) -> ~ TopologyWord t k ->
  SitsAt (a_r (sf_nums s (fst (h_nodes h)))) (a_c (sf_nums s (fst (h_nodes h)))) (places h) w a b loc ->
  InstantsIn cftime (sf_file s) w ts -> LevelsIn (sf_file s) (Some ls) -> fm_shape w = [length ts; length ls; a; b] ->
  let g := st_grid (fst p) in
  SameShape g -> OnChart g h (fm_dims w) loc a b col expct -> Finds g find place_of [fst x] ->
  Stores (sf_data s k) (Some ts) (Some (length ls)) a b d -> TimeOk (Some ts) ex q q' ->
  Descending ls -> ~ AtTop (Some ls) (snd x) ->
  exists c, ask_sgrid dateutil cftime now find s k q ex [x] = Ok [c] /\
  RUnderWater ls (snd x) (fun _ c => exists e, (forall u, OverDepth ls (snd x) (fun j => expct (d u j) (fst x, place_of (fst x))) (e u)) /\ OverTime (Some ts) ex q e c) c.
Proof.
  intros dateutil cftime now find s h t p k w a b loc ts ls place_of col expct d q q' ex x F O I NG Si In_ Lv Sh g SS An Fi Ho TO DA NT.
  destruct (chart_in dateutil cftime s h t F p _ O loc a b col expct An) as (Ep & St). unfold g in *. rewrite Ep in *.
  destruct (sgrid_asked dateutil cftime s h t F p O k w I NG a b loc Si ts (Some ls) In_ Lv Sh now find) as (tm & Td & E). rewrite E. subst ts. cbn [option_map].
  destruct (levels_read (sf_file s) ls (sf_unique _ _ _ F) Lv) as (_ & L2 & Mo).
  destruct (c115_any_depth_one_partial (st_grid (sgrid_of s h t)) find place_of loc a b col expct (sf_data s k) (Some tm) ls d q q' ex x default_sbc default_bbc SS St Fi Ho TO L2 Mo) as (c & Ec & V).
  - now apply upwards_ranswer.
  - exists c. split; [exact Ec|]. revert V. now apply upwards_rwater.
Qed.
Print Assumptions c115_sgrid_upwards_below_one_partial.

(** The file of ROMS with depths 10, 5 and 0, asked at one of them, outside the
    grid, and below them. *)
Definition sup_pts : list rspot := [((9/10, 1/5)%R, 5%Q); ((100, 100)%R, 2%Q); ((11/4, 1)%R, 50%Q)].
Example c105_upwards_below_example : ask_stag demo_dateutil demo_cftime c105_now c98_find sup_s "temp" (hour + 1800000000)%Z false sup_pts = Ok [RVal (178 / 10)%R; RMask; RMask].
Proof.
  destruct (c105_opens demo_dateutil demo_cftime sup_s c105_layout sup_stag sup_sound) as (t & vs & O & _).
  destruct (stag_open_inv demo_dateutil demo_cftime sup_s c105_layout sup_stag _ O) as (Et & _). cbn [fst] in Et.
  destruct (c105_upwards_below_partial demo_dateutil demo_cftime c105_now c98_find sup_s c105_layout (t, vs) "temp" c105_temp 3 3 "node" c102_times up_levels c98_place node_expected
      (fun t d i j => c105_field t d (ex_lon i j, ex_lat i j)) (fun _ _ => false) (hour + 1800000000)%Z (hour + 1800000000)%Z false sup_pts) as (cs & Ec & V); auto; try exact sup_stag.
  - exact c105_mask_sized.
  - do 9 right. left. reflexivity.
  - intros H. cbn in H. repeat (destruct H as [H|H]; [discriminate H|]). exact H.
  - exact c105_temp_sits.
  - exact sup_instants.
  - exact sup_levels.
  - cbn [fst]. rewrite Et. split; reflexivity.
  - cbn [fst]. rewrite Et. exact (AtNode (st_grid (stag_of sup_s c105_layout)) _).
  - cbn [fst]. rewrite Et. exact c98_found.
  - split; [reflexivity|]. split.
    * intros ix u j (i & -> & Hi & Hj). split; [reflexivity|]. split; [reflexivity|]. intros r c. split; [reflexivity|]. intros _. cbn [sup_s sf_data nv_at a_at d_val nth].
        destruct i as [|[|i]]; [injection Hi as <-; reflexivity|injection Hi as <-; reflexivity|destruct i; discriminate].
    * intros l r c k E _. injection E as <-. intros i t0 t1 q _ _ _. unfold c105_field, Rdiv. ring.
  - intros u r c _. apply (c98_linear _ (IZR u / IZR hour + ex_lon r c + 2 * ex_lat r c)%R 3%R). intros d. unfold c105_field. cbn [fst snd]. ring.
  - exact c105_time_ok.
  - exact up_descending.
  - intros s Hs (ls & b & El & Hb & L). injection El as <-. injection Hb as <-. destruct Hs as [<-|[<-|[<-|[]]]]; vm_compute in L; apply L; reflexivity.
  - rewrite Ec. f_equal. unfold sup_pts in V.
    inversion V as [|x1 c1 r1 s1 V1 F1]; subst. inversion F1 as [|x2 c2 r2 s2 V2 F2]; subst. inversion F2 as [|x3 c3 r3 s3 V3 F3]; subst. inversion F3; subst.
    destruct (V1 10%Q eq_refl) as (_ & A1). destruct (V2 10%Q eq_refl) as (_ & A2). destruct (V3 10%Q eq_refl) as (A3 & _).
    cbn [fst snd] in A1, A2, A3.
    assert (D1 : (5 <= 10)%Q) by discriminate. assert (D2 : (2 <= 10)%Q) by discriminate. assert (D3 : (10 < 50)%Q) by reflexivity.
    rewrite (A1 D1), (A2 D2), (A3 D3). clear.
    unfold c98_place. cbn [fst].
    destruct (Req_EM_T (9/10) (9/10)) as [_|NN]; [|exfalso; apply NN; reflexivity].
    destruct (Req_EM_T 100 (9/10)) as [?|?]; [exfalso; Lra.lra|]. destruct (Req_EM_T 100 (11/4)) as [?|?]; [exfalso; Lra.lra|].
    unfold node_expected. cbn [snd]. unfold or0, snap. cbn [a_at d_mask d_val andb]. assert (Eh : (IZR (hour + 1800000000) / IZR hour = 3 / 2)%R) by (unfold hour; cbn; Lra.lra). unfold c105_field. rewrite !Eh. unfold bilin, ex_lon, ex_lat. cbn [fst snd INR Nat.add].
    assert (E0 : Q2R 5 = 5%R) by (unfold Q2R; cbn; field). rewrite E0.
    repeat (f_equal; try Lra.lra).
Qed.
