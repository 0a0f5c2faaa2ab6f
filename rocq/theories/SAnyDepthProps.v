(** C98, C105, C108 and C115 at any depth. *)
From Coq Require Import Reals String Ascii Lra Qreals.
From Verif Require Import Common CommonProofs VerdatModel SAttrModel SAttrSpec SAttrProofs SAttrProps SVarModel SVarSpec SVarProofs SVarProps TimeModel TimeSpec VariableSpec GridTypeModel GridTypeSpec GridTypeProofs MaskModel MaskSpec VariableModel DepthModel DepthSpec SGridModel SGridSpec
  SGridInterpModel SGridInterpSpec SGridInterpProps TFileModel TFileSpec TFileProps LoadModel LoadSpec LoadProofs VLoadModel FMeshModel FMeshSpec FMeshProofs FMeshProps FRectSpec FRectProofs WholeSpec WholeProofs WholeProps
  SWholeModel SWholeSpec SWholeProofs SWholeProps FStagModel FStagSpec FStagRead FStagProofs FStagProps FSgridModel FSgridSpec FSgridRead FSgridProofs FSgridProps SMaskSpec SMaskProofs SMaskProps AnyDepthSpec AnyDepthProofs SAnyDepthSpec SAnyDepthProofs FSMaskProps.
Open Scope string_scope.
Open Scope list_scope.
Open Scope nat_scope.

(** Node and edge data on levels, asked at any depth.  Missing: depths at or
    beyond the level listed last, where answers are not masked. *)
Theorem c98_any_depth_partial :
  forall g find place_of loc nr nc expct v time ls f m q q' ex (pts : list rspot) sbc bbc,
  SameShape g -> Sits g loc nr nc false expct -> Finds g find place_of (map fst pts) ->
  Holds v (option_map t_data time) (Some (length ls)) nr nc (fun t j => f t (nth j ls 0%Q)) (fun _ => m) ->
  (forall t r c, m r c = false -> RLinearInDepth ls (fun d => f t d r c)) ->
  TimeOk (option_map t_data time) ex q q' -> 2 <= length ls -> Monotone ls ->
  (forall s, In s pts -> Answerable (Some ls) sbc bbc (snd s)) ->
  exists cs, stag_at g find loc (order_of (some time) true GStructured) v (deep_shape nr nc time (length ls)) time (Some (from_view Q2R (l_view snd ls (Some (length ls)) sbc bbc))) q ex pts = Ok cs /\
  Forall2 (fun s => RAnyDepth ls sbc bbc (snd s) (fun z c => c = expct (snap nr nc (f q' z) m) (fst s, place_of (fst s)))) pts cs.
Proof.
  intros g find place_of loc nr nc expct v time ls f m q q' ex pts sbc bbc HS St HF HV HD HT HN HM HA.
  apply (values_any g find place_of loc nr nc false expct v time ls q q' ex pts sbc bbc); auto.
Qed.
Print Assumptions c98_any_depth_partial.

(** Data at any of the points, one point at a time. *)
Theorem c98_any_depth_one_partial :
  forall g find place_of loc nr nc col expct v time ls f m q q' ex (s : rspot) sbc bbc,
  SameShape g -> Sits g loc nr nc col expct -> Finds g find place_of [fst s] ->
  Holds v (option_map t_data time) (Some (length ls)) nr nc (fun t j => f t (nth j ls 0%Q)) (fun _ => m) ->
  (forall t r c, m r c = false -> RLinearInDepth ls (fun d => f t d r c)) ->
  TimeOk (option_map t_data time) ex q q' -> 2 <= length ls -> Monotone ls -> Answerable (Some ls) sbc bbc (snd s) ->
  exists c, stag_at g find loc (order_of (some time) true GStructured) v (deep_shape nr nc time (length ls)) time (Some (from_view Q2R (l_view snd ls (Some (length ls)) sbc bbc))) q ex [s] = Ok [c] /\
  RAnyDepth ls sbc bbc (snd s) (fun z c => c = expct (snap nr nc (f q' z) m) (fst s, place_of (fst s))) c.
Proof.
  intros g find place_of loc nr nc col expct v time ls f m q q' ex s sbc bbc HS St HF HV HD HT HN HM HA.
  destruct (values_any g find place_of loc nr nc col expct v time ls q q' ex [s] sbc bbc HS St HF HT HN HM) with (f := f) (m := m) as (cs & E & F); auto.
  - intros s' [<-|[]]. exact HA.
  - apply own_single.
  - destruct (single _ _ _ F) as (c & -> & H). eauto.
Qed.
Print Assumptions c98_any_depth_one_partial.

(** Missing values. *)
Theorem c115_any_depth_partial :
  forall g find place_of loc nr nc expct v time ls d q q' ex (pts : list rspot) sbc bbc,
  SameShape g -> Sits g loc nr nc false expct -> Finds g find place_of (map fst pts) ->
  Stores v (option_map t_data time) (Some (length ls)) nr nc d -> TimeOk (option_map t_data time) ex q q' -> 2 <= length ls -> Monotone ls ->
  (forall s, In s pts -> Answerable (Some ls) sbc bbc (snd s)) ->
  exists cs, stag_at g find loc (order_of (some time) true GStructured) v (deep_shape nr nc time (length ls)) time (Some (from_view Q2R (l_view snd ls (Some (length ls)) sbc bbc))) q ex pts = Ok cs /\
  Forall2 (fun s => RAnyDepth ls sbc bbc (snd s) (fun _ c => exists e, (forall u, OverDepth ls (snd s) (fun j => expct (d u j) (fst s, place_of (fst s))) (e u)) /\
    OverTime (option_map t_data time) ex q e c)) pts cs.
Proof.
  intros g find place_of loc nr nc expct v time ls d q q' ex pts sbc bbc HS St HF HV HT HN HM HA.
  apply (missing_any g find place_of loc nr nc false expct v time ls q q' ex pts sbc bbc); auto.
Qed.
Print Assumptions c115_any_depth_partial.

Theorem c115_any_depth_one_partial :
  forall g find place_of loc nr nc col expct v time ls d q q' ex (s : rspot) sbc bbc,
  SameShape g -> Sits g loc nr nc col expct -> Finds g find place_of [fst s] ->
  Stores v (option_map t_data time) (Some (length ls)) nr nc d -> TimeOk (option_map t_data time) ex q q' -> 2 <= length ls -> Monotone ls ->
  Answerable (Some ls) sbc bbc (snd s) ->
  exists c, stag_at g find loc (order_of (some time) true GStructured) v (deep_shape nr nc time (length ls)) time (Some (from_view Q2R (l_view snd ls (Some (length ls)) sbc bbc))) q ex [s] = Ok [c] /\
  RAnyDepth ls sbc bbc (snd s) (fun _ c => exists e, (forall u, OverDepth ls (snd s) (fun j => expct (d u j) (fst s, place_of (fst s))) (e u)) /\ OverTime (option_map t_data time) ex q e c) c.
Proof.
  intros g find place_of loc nr nc col expct v time ls d q q' ex s sbc bbc HS St HF HV HT HN HM HA.
  destruct (missing_any g find place_of loc nr nc col expct v time ls q q' ex [s] sbc bbc HS St HF HT HN HM) with (d := d) as (cs & E & F); auto.
  - intros s' [<-|[]]. exact HA.
  - apply own_single.
  - destruct (single _ _ _ F) as (c & -> & H). eauto.
Qed.
Print Assumptions c115_any_depth_one_partial.

(** Files with staggered coordinate variables and levels listed downwards: above
    the first level, the data of that level; from the last level down, masked. *)
Theorem c105_any_depth_partial :
  forall dateutil cftime now find s y p k w a b loc ts ls place_of expct f m q q' ex pts,
  StagFile (sf_file s) y -> MaskSized s y -> open_stag_dataset dateutil cftime s = Ok p -> In (k, w) (fi_vars (sf_file s)) -> ~ In k (grid_words y) ->
  SitsAt (a_r (sf_nums s (p_x (y_nodes y)))) (a_c (sf_nums s (p_x (y_nodes y)))) y w a b loc ->
  InstantsIn cftime (sf_file s) w ts -> LevelsIn (sf_file s) (Some ls) -> fm_shape w = [length ts; length ls; a; b] ->
  let g := st_grid (fst p) in
  SameShape g -> Answers g (center_size s y) loc a b false expct -> Finds g find place_of (map fst pts) ->
  Holds (sf_data s k) (Some ts) (Some (length ls)) a b (fun t j => f t (nth j ls 0%Q)) (fun _ => m) ->
  (forall t r c, m r c = false -> RLinearInDepth ls (fun d => f t d r c)) -> TimeOk (Some ts) ex q q' ->
  Ascending ls ->
  exists cs, ask_stag dateutil cftime now find s k q ex pts = Ok cs /\
    Forall2 (fun x => RInWater ls (snd x) (fun z c => c = expct (snap a b (f q' z) m) (fst x, place_of (fst x)))) pts cs.
Proof.
  intros dateutil cftime now find s y p k w a b loc ts ls place_of expct f m q q' ex pts F M O I NG Si In_ Lv Sh g SS An Fi Ho LD TO DA.
  destruct (sits_in dateutil cftime s y F M p O loc a b false expct An) as (Ep & St). unfold g in *. rewrite Ep in *.
  destruct (stag_asked dateutil cftime s y F p O k w I NG a b loc Si ts (Some ls) In_ Lv Sh now find) as (tm & Td & E). rewrite E. subst ts. cbn [option_map].
  destruct (levels_read (sf_file s) ls (proj1 F) Lv) as (_ & L2 & Mo).
  destruct (c98_any_depth_partial (st_grid (stag_of s y)) find place_of loc a b expct (sf_data s k) (Some tm) ls f m q q' ex pts default_sbc default_bbc SS St Fi Ho LD TO L2 Mo) as (cs & Ec & V).
  - intros x _. now apply downwards_ranswer.
  - exists cs. split; [exact Ec|]. revert V. apply Forall2_impl'. intros x c. now apply downwards_rwater.
Qed.
Print Assumptions c105_any_depth_partial.

Theorem c105_any_depth_one_partial :
  forall dateutil cftime now find s y p k w a b loc ts ls place_of col expct f m q q' ex x,
  StagFile (sf_file s) y -> MaskSized s y -> open_stag_dataset dateutil cftime s = Ok p -> In (k, w) (fi_vars (sf_file s)) -> ~ In k (grid_words y) ->
  SitsAt (a_r (sf_nums s (p_x (y_nodes y)))) (a_c (sf_nums s (p_x (y_nodes y)))) y w a b loc ->
  InstantsIn cftime (sf_file s) w ts -> LevelsIn (sf_file s) (Some ls) -> fm_shape w = [length ts; length ls; a; b] ->
  let g := st_grid (fst p) in
  SameShape g -> Answers g (center_size s y) loc a b col expct -> Finds g find place_of [fst x] ->
  Holds (sf_data s k) (Some ts) (Some (length ls)) a b (fun t j => f t (nth j ls 0%Q)) (fun _ => m) ->
  (forall t r c, m r c = false -> RLinearInDepth ls (fun d => f t d r c)) -> TimeOk (Some ts) ex q q' ->
  Ascending ls ->
  exists c, ask_stag dateutil cftime now find s k q ex [x] = Ok [c] /\
    RInWater ls (snd x) (fun z c => c = expct (snap a b (f q' z) m) (fst x, place_of (fst x))) c.
Proof.
  intros dateutil cftime now find s y p k w a b loc ts ls place_of col expct f m q q' ex x F M O I NG Si In_ Lv Sh g SS An Fi Ho LD TO DA.
  destruct (sits_in dateutil cftime s y F M p O loc a b col expct An) as (Ep & St). unfold g in *. rewrite Ep in *.
  destruct (stag_asked dateutil cftime s y F p O k w I NG a b loc Si ts (Some ls) In_ Lv Sh now find) as (tm & Td & E). rewrite E. subst ts. cbn [option_map].
  destruct (levels_read (sf_file s) ls (proj1 F) Lv) as (_ & L2 & Mo).
  destruct (c98_any_depth_one_partial (st_grid (stag_of s y)) find place_of loc a b col expct (sf_data s k) (Some tm) ls f m q q' ex x default_sbc default_bbc SS St Fi Ho LD TO L2 Mo) as (c & Ec & V).
  - now apply downwards_ranswer.
  - exists c. split; [exact Ec|]. revert V. now apply downwards_rwater.
Qed.
Print Assumptions c105_any_depth_one_partial.

(** Files with a topology variable. *)
Theorem c108_any_depth_partial :
  forall dateutil cftime now find s h t p k w a b loc ts ls place_of expct f m q q' ex pts,
  SgridFile (sf_file s) h t -> open_sgrid_dataset dateutil cftime s = Ok p -> In (k, w) (fi_vars (sf_file s)) -> ~ TopologyWord t k ->
  SitsAt (a_r (sf_nums s (fst (h_nodes h)))) (a_c (sf_nums s (fst (h_nodes h)))) (places h) w a b loc ->
  InstantsIn cftime (sf_file s) w ts -> LevelsIn (sf_file s) (Some ls) -> fm_shape w = [length ts; length ls; a; b] ->
  let g := st_grid (fst p) in
  SameShape g -> OnChart g h (fm_dims w) loc a b false expct -> Finds g find place_of (map fst pts) ->
  Holds (sf_data s k) (Some ts) (Some (length ls)) a b (fun u j => f u (nth j ls 0%Q)) (fun _ => m) ->
  (forall u r c, m r c = false -> RLinearInDepth ls (fun d => f u d r c)) -> TimeOk (Some ts) ex q q' ->
  Ascending ls ->
  exists cs, ask_sgrid dateutil cftime now find s k q ex pts = Ok cs /\
    Forall2 (fun x => RInWater ls (snd x) (fun z c => c = expct (snap a b (f q' z) m) (fst x, place_of (fst x)))) pts cs.
Proof.
  intros dateutil cftime now find s h t p k w a b loc ts ls place_of expct f m q q' ex pts F O I NG Si In_ Lv Sh g SS An Fi Ho LD TO DA.
  destruct (chart_in dateutil cftime s h t F p _ O loc a b false expct An) as (Ep & St). unfold g in *. rewrite Ep in *.
  destruct (sgrid_asked dateutil cftime s h t F p O k w I NG a b loc Si ts (Some ls) In_ Lv Sh now find) as (tm & Td & E). rewrite E. subst ts. cbn [option_map].
  destruct (levels_read (sf_file s) ls (sf_unique _ _ _ F) Lv) as (_ & L2 & Mo).
  destruct (c98_any_depth_partial (st_grid (sgrid_of s h t)) find place_of loc a b expct (sf_data s k) (Some tm) ls f m q q' ex pts default_sbc default_bbc SS St Fi Ho LD TO L2 Mo) as (cs & Ec & V).
  - intros x _. now apply downwards_ranswer.
  - exists cs. split; [exact Ec|]. revert V. apply Forall2_impl'. intros x c. now apply downwards_rwater.
Qed.
Print Assumptions c108_any_depth_partial.

Theorem c108_any_depth_one_partial :
  forall dateutil cftime now find s h t p k w a b loc ts ls place_of col expct f m q q' ex x,
  SgridFile (sf_file s) h t -> open_sgrid_dataset dateutil cftime s = Ok p -> In (k, w) (fi_vars (sf_file s)) -> ~ TopologyWord t k ->
  SitsAt (a_r (sf_nums s (fst (h_nodes h)))) (a_c (sf_nums s (fst (h_nodes h)))) (places h) w a b loc ->
  InstantsIn cftime (sf_file s) w ts -> LevelsIn (sf_file s) (Some ls) -> fm_shape w = [length ts; length ls; a; b] ->
  let g := st_grid (fst p) in
  SameShape g -> OnChart g h (fm_dims w) loc a b col expct -> Finds g find place_of [fst x] ->
  Holds (sf_data s k) (Some ts) (Some (length ls)) a b (fun u j => f u (nth j ls 0%Q)) (fun _ => m) ->
  (forall u r c, m r c = false -> RLinearInDepth ls (fun d => f u d r c)) -> TimeOk (Some ts) ex q q' ->
  Ascending ls ->
  exists c, ask_sgrid dateutil cftime now find s k q ex [x] = Ok [c] /\
    RInWater ls (snd x) (fun z c => c = expct (snap a b (f q' z) m) (fst x, place_of (fst x))) c.
Proof.
  intros dateutil cftime now find s h t p k w a b loc ts ls place_of col expct f m q q' ex x F O I NG Si In_ Lv Sh g SS An Fi Ho LD TO DA.
  destruct (chart_in dateutil cftime s h t F p _ O loc a b col expct An) as (Ep & St). unfold g in *. rewrite Ep in *.
  destruct (sgrid_asked dateutil cftime s h t F p O k w I NG a b loc Si ts (Some ls) In_ Lv Sh now find) as (tm & Td & E). rewrite E. subst ts. cbn [option_map].
  destruct (levels_read (sf_file s) ls (sf_unique _ _ _ F) Lv) as (_ & L2 & Mo).
  destruct (c98_any_depth_one_partial (st_grid (sgrid_of s h t)) find place_of loc a b col expct (sf_data s k) (Some tm) ls f m q q' ex x default_sbc default_bbc SS St Fi Ho LD TO L2 Mo) as (c & Ec & V).
  - now apply downwards_ranswer.
  - exists c. split; [exact Ec|]. revert V. now apply downwards_rwater.
Qed.
Print Assumptions c108_any_depth_one_partial.

(** Missing values in those files. *)
Theorem c115_stag_any_depth_partial :
  forall dateutil cftime now find s y p k w a b loc ts ls place_of expct d q q' ex pts,
  StagFile (sf_file s) y -> MaskSized s y -> open_stag_dataset dateutil cftime s = Ok p -> In (k, w) (fi_vars (sf_file s)) -> ~ In k (grid_words y) ->
  SitsAt (a_r (sf_nums s (p_x (y_nodes y)))) (a_c (sf_nums s (p_x (y_nodes y)))) y w a b loc ->
  InstantsIn cftime (sf_file s) w ts -> LevelsIn (sf_file s) (Some ls) -> fm_shape w = [length ts; length ls; a; b] ->
  let g := st_grid (fst p) in
  SameShape g -> Answers g (center_size s y) loc a b false expct -> Finds g find place_of (map fst pts) ->
  Stores (sf_data s k) (Some ts) (Some (length ls)) a b d -> TimeOk (Some ts) ex q q' ->
  Ascending ls ->
  exists cs, ask_stag dateutil cftime now find s k q ex pts = Ok cs /\
  Forall2 (fun x => RInWater ls (snd x) (fun _ c => exists e, (forall u, OverDepth ls (snd x) (fun j => expct (d u j) (fst x, place_of (fst x))) (e u)) /\ OverTime (Some ts) ex q e c)) pts cs.
Proof.
  intros dateutil cftime now find s y p k w a b loc ts ls place_of expct d q q' ex pts F M O I NG Si In_ Lv Sh g SS An Fi Ho TO DA.
  destruct (sits_in dateutil cftime s y F M p O loc a b false expct An) as (Ep & St). unfold g in *. rewrite Ep in *.
  destruct (stag_asked dateutil cftime s y F p O k w I NG a b loc Si ts (Some ls) In_ Lv Sh now find) as (tm & Td & E). rewrite E. subst ts. cbn [option_map].
  destruct (levels_read (sf_file s) ls (proj1 F) Lv) as (_ & L2 & Mo).
  destruct (c115_any_depth_partial (st_grid (stag_of s y)) find place_of loc a b expct (sf_data s k) (Some tm) ls d q q' ex pts default_sbc default_bbc SS St Fi Ho TO L2 Mo) as (cs & Ec & V).
  - intros x _. now apply downwards_ranswer.
  - exists cs. split; [exact Ec|]. revert V. apply Forall2_impl'. intros x c. now apply downwards_rwater.
Qed.
Print Assumptions c115_stag_any_depth_partial.

Theorem c115_stag_any_depth_one_partial :
  forall dateutil cftime now find s y p k w a b loc ts ls place_of col expct d q q' ex x,
  StagFile (sf_file s) y -> MaskSized s y -> open_stag_dataset dateutil cftime s = Ok p -> In (k, w) (fi_vars (sf_file s)) -> ~ In k (grid_words y) ->
  SitsAt (a_r (sf_nums s (p_x (y_nodes y)))) (a_c (sf_nums s (p_x (y_nodes y)))) y w a b loc ->
  InstantsIn cftime (sf_file s) w ts -> LevelsIn (sf_file s) (Some ls) -> fm_shape w = [length ts; length ls; a; b] ->
  let g := st_grid (fst p) in
  SameShape g -> Answers g (center_size s y) loc a b col expct -> Finds g find place_of [fst x] ->
  Stores (sf_data s k) (Some ts) (Some (length ls)) a b d -> TimeOk (Some ts) ex q q' ->
  Ascending ls ->
  exists c, ask_stag dateutil cftime now find s k q ex [x] = Ok [c] /\
  RInWater ls (snd x) (fun _ c => exists e, (forall u, OverDepth ls (snd x) (fun j => expct (d u j) (fst x, place_of (fst x))) (e u)) /\ OverTime (Some ts) ex q e c) c.
Proof.
  intros dateutil cftime now find s y p k w a b loc ts ls place_of col expct d q q' ex x F M O I NG Si In_ Lv Sh g SS An Fi Ho TO DA.
  destruct (sits_in dateutil cftime s y F M p O loc a b col expct An) as (Ep & St). unfold g in *. rewrite Ep in *.
  destruct (stag_asked dateutil cftime s y F p O k w I NG a b loc Si ts (Some ls) In_ Lv Sh now find) as (tm & Td & E). rewrite E. subst ts. cbn [option_map].
  destruct (levels_read (sf_file s) ls (proj1 F) Lv) as (_ & L2 & Mo).
  destruct (c115_any_depth_one_partial (st_grid (stag_of s y)) find place_of loc a b col expct (sf_data s k) (Some tm) ls d q q' ex x default_sbc default_bbc SS St Fi Ho TO L2 Mo) as (c & Ec & V).
  - now apply downwards_ranswer.
  - exists c. split; [exact Ec|]. revert V. now apply downwards_rwater.
Qed.
Print Assumptions c115_stag_any_depth_one_partial.

Theorem c115_sgrid_any_depth_partial :
  forall dateutil cftime now find s h t p k w a b loc ts ls place_of expct d q q' ex pts,
  SgridFile (sf_file s) h t -> open_sgrid_dataset dateutil cftime s = Ok p -> In (k, w) (fi_vars (sf_file s)) -> ~ TopologyWord t k ->
  SitsAt (a_r (sf_nums s (fst (h_nodes h)))) (a_c (sf_nums s (fst (h_nodes h)))) (places h) w a b loc ->
  InstantsIn cftime (sf_file s) w ts -> LevelsIn (sf_file s) (Some ls) -> fm_shape w = [length ts; length ls; a; b] ->
  let g := st_grid (fst p) in
  SameShape g -> OnChart g h (fm_dims w) loc a b false expct -> Finds g find place_of (map fst pts) ->
  Stores (sf_data s k) (Some ts) (Some (length ls)) a b d -> TimeOk (Some ts) ex q q' ->
  Ascending ls ->
  exists cs, ask_sgrid dateutil cftime now find s k q ex pts = Ok cs /\
  Forall2 (fun x => RInWater ls (snd x) (fun _ c => exists e, (forall u, OverDepth ls (snd x) (fun j => expct (d u j) (fst x, place_of (fst x))) (e u)) /\ OverTime (Some ts) ex q e c)) pts cs.
Proof.
  intros dateutil cftime now find s h t p k w a b loc ts ls place_of expct d q q' ex pts F O I NG Si In_ Lv Sh g SS An Fi Ho TO DA.
  destruct (chart_in dateutil cftime s h t F p _ O loc a b false expct An) as (Ep & St). unfold g in *. rewrite Ep in *.
  destruct (sgrid_asked dateutil cftime s h t F p O k w I NG a b loc Si ts (Some ls) In_ Lv Sh now find) as (tm & Td & E). rewrite E. subst ts. cbn [option_map].
  destruct (levels_read (sf_file s) ls (sf_unique _ _ _ F) Lv) as (_ & L2 & Mo).
  destruct (c115_any_depth_partial (st_grid (sgrid_of s h t)) find place_of loc a b expct (sf_data s k) (Some tm) ls d q q' ex pts default_sbc default_bbc SS St Fi Ho TO L2 Mo) as (cs & Ec & V).
  - intros x _. now apply downwards_ranswer.
  - exists cs. split; [exact Ec|]. revert V. apply Forall2_impl'. intros x c. now apply downwards_rwater.
Qed.
Print Assumptions c115_sgrid_any_depth_partial.

Theorem c115_sgrid_any_depth_one_partial :
  forall dateutil cftime now find s h t p k w a b loc ts ls place_of col expct d q q' ex x,
  SgridFile (sf_file s) h t -> open_sgrid_dataset dateutil cftime s = Ok p -> In (k, w) (fi_vars (sf_file s)) -> ~ TopologyWord t k ->
  SitsAt (a_r (sf_nums s (fst (h_nodes h)))) (a_c (sf_nums s (fst (h_nodes h)))) (places h) w a b loc ->
  InstantsIn cftime (sf_file s) w ts -> LevelsIn (sf_file s) (Some ls) -> fm_shape w = [length ts; length ls; a; b] ->
  let g := st_grid (fst p) in
  SameShape g -> OnChart g h (fm_dims w) loc a b col expct -> Finds g find place_of [fst x] ->
  Stores (sf_data s k) (Some ts) (Some (length ls)) a b d -> TimeOk (Some ts) ex q q' ->
  Ascending ls ->
  exists c, ask_sgrid dateutil cftime now find s k q ex [x] = Ok [c] /\
  RInWater ls (snd x) (fun _ c => exists e, (forall u, OverDepth ls (snd x) (fun j => expct (d u j) (fst x, place_of (fst x))) (e u)) /\ OverTime (Some ts) ex q e c) c.
Proof.
  intros dateutil cftime now find s h t p k w a b loc ts ls place_of col expct d q q' ex x F O I NG Si In_ Lv Sh g SS An Fi Ho TO DA.
  destruct (chart_in dateutil cftime s h t F p _ O loc a b col expct An) as (Ep & St). unfold g in *. rewrite Ep in *.
  destruct (sgrid_asked dateutil cftime s h t F p O k w I NG a b loc Si ts (Some ls) In_ Lv Sh now find) as (tm & Td & E). rewrite E. subst ts. cbn [option_map].
  destruct (levels_read (sf_file s) ls (sf_unique _ _ _ F) Lv) as (_ & L2 & Mo).
  destruct (c115_any_depth_one_partial (st_grid (sgrid_of s h t)) find place_of loc a b col expct (sf_data s k) (Some tm) ls d q q' ex x default_sbc default_bbc SS St Fi Ho TO L2 Mo) as (c & Ec & V).
  - now apply downwards_ranswer.
  - exists c. split; [exact Ec|]. revert V. now apply downwards_rwater.
Qed.
Print Assumptions c115_sgrid_any_depth_one_partial.

(** The file of C105, asked above its levels 0, 5 and 10, outside the grid, and
    below the levels. *)
Definition sd_pts : list rspot := [((9/10, 1/5)%R, -3%Q); ((100, 100)%R, 2%Q); ((11/4, 1)%R, 50%Q)].
Example c105_any_depth_example : c105_ask "temp" (hour + 1800000000)%Z false sd_pts = Ok [RVal (28 / 10)%R; RMask; RMask].
Proof.
  destruct (c105_opens demo_dateutil demo_cftime c105_s c105_layout c105_stag c105_sound) as (t & vs & O & Gi).
  destruct (stag_open_inv demo_dateutil demo_cftime c105_s c105_layout c105_stag _ O) as (Et & _). cbn [fst] in Et.
  destruct (c105_any_depth_partial demo_dateutil demo_cftime c105_now c98_find c105_s c105_layout (t, vs) "temp" c105_temp 3 3 "node" c102_times c94_levels c98_place node_expected
      (fun t d i j => c105_field t d (ex_lon i j, ex_lat i j)) (fun _ _ => false) (hour + 1800000000)%Z (hour + 1800000000)%Z false sd_pts) as (cs & Ec & V); auto; try exact c105_stag; try exact c105_mask_sized.
  - do 10 right. left. reflexivity.
  - intros H. cbn in H. repeat (destruct H as [H|H]; [discriminate H|]). exact H.
  - exact c105_temp_sits.
  - apply c105_instants; [eexists; reflexivity|reflexivity].
  - exact c105_levels.
  - cbn [fst]. rewrite Et. split; reflexivity.
  - cbn [fst]. rewrite Et. exact (AtNode (st_grid (stag_of c105_s c105_layout)) _).
  - cbn [fst]. rewrite Et. exact c98_found.
  - split; [reflexivity|]. split.
    * intros ix u j (i & -> & Hi & Hj). split; [reflexivity|]. split; [reflexivity|]. intros r c. split; [reflexivity|]. intros _. cbn [c105_s sf_data c105_data String.eqb nv_at a_at d_val nth].
        destruct i as [|[|i]]; [injection Hi as <-; reflexivity|injection Hi as <-; reflexivity|destruct i; discriminate].
    * intros l r c k E _. injection E as <-. intros i t0 t1 q _ _ _. unfold c105_field, Rdiv. ring.
  - intros u r c _. apply (c98_linear _ (IZR u / IZR hour + ex_lon r c + 2 * ex_lat r c)%R 3%R). intros d. unfold c105_field. cbn [fst snd]. ring.
  - exact c105_time_ok.
  - exact c102_ascending.
  - unfold c105_ask. rewrite Ec. f_equal. unfold sd_pts in V.
    inversion V as [|x1 c1 r1 s1 V1 F1]; subst. inversion F1 as [|x2 c2 r2 s2 V2 F2]; subst. inversion F2 as [|x3 c3 r3 s3 V3 F3]; subst. inversion F3; subst.
    destruct (V1 0%Q 10%Q eq_refl eq_refl) as (A1 & _). destruct (V2 0%Q 10%Q eq_refl eq_refl) as (_ & A2 & _). destruct (V3 0%Q 10%Q eq_refl eq_refl) as (_ & _ & A3).
    cbn [fst snd] in A1, A2, A3.
    assert (D1 : (-3 < 0)%Q) by reflexivity. assert (D2 : (0 <= 2 < 10)%Q) by (split; [discriminate|reflexivity]). assert (D3 : (10 <= 50)%Q) by discriminate.
    rewrite (A1 D1), (A2 D2), (A3 D3). clear.
    unfold c98_place. cbn [fst].
    destruct (Req_EM_T (9/10) (9/10)) as [_|NN]; [|exfalso; apply NN; reflexivity].
    destruct (Req_EM_T 100 (9/10)) as [?|?]; [exfalso; Lra.lra|]. destruct (Req_EM_T 100 (11/4)) as [?|?]; [exfalso; Lra.lra|].
    unfold node_expected. cbn [snd]. unfold or0, snap. cbn [a_at d_mask d_val andb]. assert (Eh : (IZR (hour + 1800000000) / IZR hour = 3 / 2)%R) by (unfold hour; cbn; Lra.lra). unfold c105_field. rewrite !Eh. unfold bilin, ex_lon, ex_lat. cbn [fst snd INR Nat.add].
    assert (E0 : Q2R 0 = 0%R) by (unfold Q2R; cbn; field). rewrite E0.
    repeat (f_equal; try Lra.lra).
Qed.
