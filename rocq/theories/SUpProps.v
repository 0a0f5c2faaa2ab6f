(** C98, C105 and C108 for levels listed upwards. *)
From Coq Require Import Reals String Ascii Lra Qreals.
From Verif Require Import Common CommonProofs VerdatModel SAttrModel SAttrSpec SAttrProofs SAttrProps SVarModel SVarSpec SVarProofs SVarProps TimeModel TimeSpec VariableSpec GridTypeModel GridTypeSpec GridTypeProofs MaskModel MaskSpec VariableModel DepthModel DepthSpec SGridModel SGridSpec
  SGridInterpModel SGridInterpSpec SGridInterpProps TFileModel TFileSpec TFileProps LoadModel LoadSpec LoadProofs VLoadModel FMeshModel FMeshSpec FMeshProofs FMeshProps FRectSpec FRectProofs WholeSpec WholeProofs WholeProps
  SWholeModel SWholeSpec SWholeProofs SWholeProps FStagModel FStagSpec FStagRead FStagProofs FStagProps FSgridModel FSgridSpec FSgridRead FSgridProofs FSgridProps UpSpec UpProofs UpProps SUpProofs.
Open Scope string_scope.
Open Scope list_scope.
Open Scope nat_scope.

(** Whatever the grid, the location and the data, a point at or above the level
    listed last is not given a number. *)
Theorem c98_upwards_unanswered :
  forall g find loc v nr nc time ls sbc bbc q ex (pts : list rspot) k s cs,
  2 <= length ls -> Descending ls -> bmask sbc = false -> nth_error pts k = Some s -> AtTop (Some ls) (snd s) ->
  stag_at g find loc (order_of (some time) true GStructured) v (deep_shape nr nc time (length ls)) time (Some (from_view Q2R (l_view snd ls (Some (length ls)) sbc bbc))) q ex pts = Ok cs ->
  nth_error cs k = Some RNaN.
Proof. intros g find loc v nr nc time ls sbc bbc q ex pts k s cs N D Ns Hk At H. exact (s_upwards_top g find loc v nr nc time ls sbc bbc ex N D Ns q pts k s cs Hk At H). Qed.
Print Assumptions c98_upwards_unanswered.
(** Such points alone raise. *)
Theorem c98_upwards_raises :
  forall g find loc v nr nc time ls sbc bbc q q' ex (pts : list rspot),
  2 <= length ls -> Descending ls -> bmask sbc = false -> TimeOk (option_map t_data time) ex q q' -> pts <> [] -> (forall s, In s pts -> AtTop (Some ls) (snd s)) ->
  stag_at g find loc (order_of (some time) true GStructured) v (deep_shape nr nc time (length ls)) time (Some (from_view Q2R (l_view snd ls (Some (length ls)) sbc bbc))) q ex pts = Err UnboundLocalError.
Proof. intros g find loc v nr nc time ls sbc bbc q q' ex pts N D Ns TO Np Tp. exact (s_upwards_raises g find loc v nr nc time ls sbc bbc ex N D Ns q q' pts TO Np Tp). Qed.
Print Assumptions c98_upwards_raises.

(** Files as ROMS writes them. *)
Theorem c105_upwards :
  forall dateutil cftime now find s y p k w a b loc ts ls ex,
  StagFile (sf_file s) y -> open_stag_dataset dateutil cftime s = Ok p -> In (k, w) (fi_vars (sf_file s)) -> ~ In k (grid_words y) ->
  SitsAt (a_r (sf_nums s (p_x (y_nodes y)))) (a_c (sf_nums s (p_x (y_nodes y)))) y w a b loc ->
  InstantsIn cftime (sf_file s) w ts -> LevelsIn (sf_file s) (Some ls) -> fm_shape w = [length ts; length ls; a; b] ->
  Descending ls ->
  (forall q pts i x cs, nth_error pts i = Some x -> AtTop (Some ls) (snd x) -> ask_stag dateutil cftime now find s k q ex pts = Ok cs -> nth_error cs i = Some RNaN) /\
  (forall q q' pts, TimeOk (Some ts) ex q q' -> pts <> [] -> (forall x, In x pts -> AtTop (Some ls) (snd x)) -> ask_stag dateutil cftime now find s k q ex pts = Err UnboundLocalError).
Proof.
  intros dateutil cftime now find s y p k w a b loc ts ls ex F O I NG Si In_ Lv Sh D.
  destruct (stag_asked dateutil cftime s y F p O k w I NG a b loc Si ts (Some ls) In_ Lv Sh now find) as (tm & Td & E). subst ts.
  destruct (levels_read (sf_file s) ls (proj1 F) Lv) as (_ & L2 & _). split.
  - intros q pts i x cs Hx At. rewrite E. apply (c98_upwards_unanswered (st_grid (stag_of s y)) find loc (sf_data s k) a b (Some tm) ls default_sbc default_bbc q ex pts i x cs); auto.
  - intros q q' pts TO Np Tp. rewrite E. apply (c98_upwards_raises (st_grid (stag_of s y)) find loc (sf_data s k) a b (Some tm) ls default_sbc default_bbc q q' ex pts); auto.
Qed.
Print Assumptions c105_upwards.
(** Files with a topology variable. *)
Theorem c108_upwards :
  forall dateutil cftime now find s h t p k w a b loc ts ls ex,
  SgridFile (sf_file s) h t -> open_sgrid_dataset dateutil cftime s = Ok p -> In (k, w) (fi_vars (sf_file s)) -> ~ TopologyWord t k ->
  SitsAt (a_r (sf_nums s (fst (h_nodes h)))) (a_c (sf_nums s (fst (h_nodes h)))) (places h) w a b loc ->
  InstantsIn cftime (sf_file s) w ts -> LevelsIn (sf_file s) (Some ls) -> fm_shape w = [length ts; length ls; a; b] ->
  Descending ls ->
  (forall q pts i x cs, nth_error pts i = Some x -> AtTop (Some ls) (snd x) -> ask_sgrid dateutil cftime now find s k q ex pts = Ok cs -> nth_error cs i = Some RNaN) /\
  (forall q q' pts, TimeOk (Some ts) ex q q' -> pts <> [] -> (forall x, In x pts -> AtTop (Some ls) (snd x)) -> ask_sgrid dateutil cftime now find s k q ex pts = Err UnboundLocalError).
Proof.
  intros dateutil cftime now find s h t p k w a b loc ts ls ex F O I NG Si In_ Lv Sh D.
  destruct (sgrid_asked dateutil cftime s h t F p O k w I NG a b loc Si ts (Some ls) In_ Lv Sh now find) as (tm & Td & E). subst ts.
  destruct (levels_read (sf_file s) ls (sf_unique _ _ _ F) Lv) as (_ & L2 & _). split.
  - intros q pts i x cs Hx At. rewrite E. apply (c98_upwards_unanswered (st_grid (sgrid_of s h t)) find loc (sf_data s k) a b (Some tm) ls default_sbc default_bbc q ex pts i x cs); auto.
  - intros q q' pts TO Np Tp. rewrite E. apply (c98_upwards_raises (st_grid (sgrid_of s h t)) find loc (sf_data s k) a b (Some tm) ls default_sbc default_bbc q q' ex pts); auto.
Qed.
Print Assumptions c108_upwards.

(** ** A file of ROMS with depths listed upwards *)
Definition sup_file : file := mkFile None ["time"; "depth"] (c105_grid_vars ++ [("time", c102_time); ("depth", up_depth); ("temp", c105_temp)]).
Definition sup_s : sfile := mkSfile sup_file (c105_nums c105_sizes) (fun _ => (MPlain, mkArr 4 4 (fun _ _ => mkM 1 false)))
  (fun _ => mkNvar [2; 3] (fun ix => mkArr 3 3 (fun i j => mkRd (c105_field (nth (nth 0 ix 0) c102_times 0%Z) (nth (nth 1 ix 0) up_levels 0%Q) (ex_lon i j, ex_lat i j)) false))).
Lemma sup_stag : StagFile sup_file c105_layout.
Proof.
  split; [unfold UniqueNames; cbn [sup_file c105_grid_vars fi_vars app map fst]; distinct|]. split; [intros g H; discriminate H|]. split; [|split; [|split; [|split; [|split]]]].
  - intros n v r I. cbn [sup_file c105_grid_vars fi_vars app In] in I. repeat (destruct I as [I|I]; [injection I as <- <-; intros A; discriminate A|]). destruct I.
  - intros n Hn P. apply present_named in P. cbn [In] in Hn. destruct Hn as [<-|[<-|[<-|[<-|[<-|[]]]]]]; apply P; reflexivity.
  - eapply (one_pair _ [("node_lon", "node_lat"); ("lon", "lat")]); reflexivity.
  - intros x I. cbn [sup_file c105_grid_vars fi_vars app In] in I. repeat (destruct I as [I|I]; [first [discriminate I|injection I as <-; reflexivity]|]). destruct I.
  - intros x I. cbn [sup_file c105_grid_vars fi_vars app In] in I. repeat (destruct I as [I|I]; [first [discriminate I|injection I as <-; reflexivity]|]). destruct I.
  - split; [eapply (one_pair _ [("center_lon", "center_lat")]); reflexivity|]. split; [eapply (one_pair _ [("edge1_lon", "edge1_lat")]); reflexivity|].
    split; [apply no_pair; reflexivity|]. split; [apply called_named; reflexivity|]. split; intros P; apply present_named in P; apply P; reflexivity.
Qed.
Lemma sup_levels : LevelsIn sup_file (Some up_levels).
Proof.
  apply up_level_var; [do 8 right; left; reflexivity|]. intros n v I. cbn [sup_file c105_grid_vars fi_vars app In] in I.
  repeat (destruct I as [I|I]; [injection I as <- <-; (split; [discriminate|]); intros a l [<-|[<-|[]]] A; vm_compute in A; try discriminate; injection A as <-; cbn [In]; intros H; repeat (destruct H as [H|H]; [discriminate H|]); exact H|]). destruct I.
Qed.
Lemma sup_instants : InstantsIn demo_cftime sup_file c105_temp c102_times.
Proof. apply up_axis; [do 7 right; left; reflexivity|eexists; reflexivity|reflexivity]. Qed.
Lemma sup_sound : StagSound demo_cftime sup_file c105_layout 3 3.
Proof.
  intros k w I. cbn [sup_file c105_grid_vars fi_vars app In] in I.
  do 7 (destruct I as [I|I]; [injection I as <- <-; left; cbn [grid_words c105_layout y_nodes y_center y_edge1 y_edge2 y_cmask y_mask1 y_mask2 names_of p_lon p_lat c105_psi app In]; tauto|]).
  do 2 (destruct I as [I|I]; [injection I as <- <-; right; left; split; [apply no_location; reflexivity|left; cbn; lia]|]).
  destruct I as [I|[]]; injection I as <- <-; right; right.
  exists 3, 3, "node". split; [exact c105_temp_sits|]. right. exists c102_times, (Some up_levels). split; [exact sup_instants|]. split; [exact sup_levels|reflexivity].
Qed.
Example c105_upwards_example :
  let ask := ask_stag demo_dateutil demo_cftime c105_now c98_find sup_s "temp" in
  (forall q pts i x cs, nth_error pts i = Some x -> (snd x <= 0)%Q -> ask q false pts = Ok cs -> nth_error cs i = Some RNaN) /\
  (forall pts, pts <> [] -> (forall x, In x pts -> (snd x <= 0)%Q) -> ask (hour + 1800000000)%Z false pts = Err UnboundLocalError).
Proof.
  intros ask. destruct (c105_opens demo_dateutil demo_cftime sup_s c105_layout sup_stag sup_sound) as (t & vs & O & _).
  destruct (c105_upwards demo_dateutil demo_cftime c105_now c98_find sup_s c105_layout (t, vs) "temp" c105_temp 3 3 "node" c102_times up_levels false sup_stag O) as [A B].
  - do 9 right. left. reflexivity.
  - intros H. cbn in H. repeat (destruct H as [H|H]; [discriminate H|]). exact H.
  - exact c105_temp_sits.
  - exact sup_instants.
  - exact sup_levels.
  - reflexivity.
  - exact up_descending.
  - split.
    + intros q pts i x cs Hx Lx. apply (A q pts i x cs Hx). now apply up_top.
    + intros pts Np Lp. apply (B _ _ pts c105_time_ok Np). intros x Hx. apply up_top, Lp, Hx.
Qed.
