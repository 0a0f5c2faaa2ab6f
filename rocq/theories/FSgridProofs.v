(** Lemmas about the way from a file with a topology variable to the answers. *)
From Coq Require Import Reals String.
From Verif Require Import Common CommonProofs SAttrModel SVarModel SVarSpec TimeModel TimeSpec VariableSpec GridTypeModel GridTypeSpec GridTypeProofs GridTypeProps MaskModel MaskSpec MaskProofs VariableModel DepthModel DepthSpec SGridModel SGridSpec SGridProps
  SGridInterpModel SGridInterpSpec TFileModel TFileSpec LoadModel LoadSpec LoadProofs LoadProps VLoadModel FMeshModel FMeshSpec FMeshProofs FRectSpec FRectProofs WholeProofs SWholeModel SWholeSpec SWholeProofs FStagModel FStagSpec FStagRead FStagProofs
  FSgridModel FSgridSpec FSgridRead.
Open Scope string_scope.
Open Scope list_scope.
Open Scope nat_scope.

Lemma sgrid_grid_name s h t k : GridName (stag_api (sgrid_of s h t)) k <-> TopologyWord t k.
Proof.
  unfold GridName, TopologyWord. cbn [stag_api ga_topology sgrid_of st_topology]. split.
  - intros (role & text & words & I & W & K). apply in_app_iff in I. destruct I as [I|[I|[]]]; [right; exists role, text, words; auto|]. injection I as <- <-. left.
    assert (words = ["2"]) as -> by (rewrite <- (split_unique _ _ W); reflexivity). destruct K as [<-|[]]. reflexivity.
  - intros [-> |(a & text & words & I & W & K)]; [|exists a, text, words; split; [apply in_app_iff; left; exact I|auto]].
    exists "topology_dimension", "2", ["2"]. split; [apply in_app_iff; right; left; reflexivity|]. split; [|left; reflexivity]. rewrite <- (eq_refl : split "2" = ["2"]). apply split_words.
Qed.
(** Where a variable is: as for files read by names. *)
Lemma same_infer s h t : ga_infer (stag_api (sgrid_of s h t)) = ga_infer (stag_api (stag_of s (places h))).
Proof. cbn [stag_api ga_infer sgrid_of stag_of st_grid st_center st_edge1 st_edge2 g_lon places y_nodes y_center y_edge1 y_edge2 at_ p_x]. destruct (h_faces h), (h_edges1 h), (h_edges2 h); reflexivity. Qed.
Lemma sgrid_location s h t w lead a b loc : let nr := a_r (sf_nums s (fst (h_nodes h))) in let nc := a_c (sf_nums s (fst (h_nodes h))) in
  fm_shape w = lead ++ [a; b] -> SitsAt nr nc (places h) w a b loc -> LocationOf (stag_api (sgrid_of s h t)) (to_load w) loc /\ ValidLocation loc.
Proof.
  intros nr nc Sh Si. destruct (sits_location s (places h) w lead a b loc Sh Si) as [L V]. split; [|exact V]. unfold LocationOf in *. rewrite same_infer. exact L.
Qed.
Lemma sgrid_nowhere s h t w : let nr := a_r (sf_nums s (fst (h_nodes h))) in let nc := a_c (sf_nums s (fst (h_nodes h))) in
  Nowhere nr nc (places h) w -> find_location (stag_api (sgrid_of s h t)) (to_load w) = Ok None.
Proof. intros nr nc N. pose proof (nowhere_none s (places h) w N) as K. unfold find_location in *. rewrite same_infer. exact K. Qed.

(** ** The whole way *)
Section Opened.
  Context (dateutil : string -> dparse) (cftime : string -> option (Z * Z * Z)).
  Context (s : sfile) (h : chart) (tv : mvar) (F : SgridFile (sf_file s) h tv).
  Let nr := a_r (sf_nums s (fst (h_nodes h))).
  Let nc := a_c (sf_nums s (fst (h_nodes h))).
  Let t := sgrid_of s h tv.

  Lemma sgrid_open_inv p : open_sgrid_dataset dateutil cftime s = Ok p -> fst p = t /\
    LoadModel.load_variables dateutil cftime (do _ <- read_depth (sf_file s); Ok tt) (stag_api t) (as_load (sf_file s)) = Ok (snd p).
  Proof.
    unfold open_sgrid_dataset. rewrite (sgrid_read _ _ _ F). cbn [bind]. fold t. intros H. apply bind_ok in H. destruct H as (vs & Hv & H). injection H as <-. auto.
  Qed.
  Lemma sgrid_opens : SgridSound cftime (sf_file s) h tv nr nc -> exists vs, open_sgrid_dataset dateutil cftime s = Ok (t, vs).
  Proof.
    intros H. unfold open_sgrid_dataset. rewrite (sgrid_read _ _ _ F). cbn [bind]. fold t. unfold LoadModel.load_variables. rewrite load_vars.
    pose proof (sf_unique _ _ _ F) as U.
    destruct (load_all dateutil cftime (do _ <- read_depth (sf_file s); Ok tt) (stag_api t) (sf_file s) (fi_vars (sf_file s))) as (xs & E); [auto| |rewrite E; cbn; eauto].
    intros k w I. destruct (H k w I) as [G|[N|(a & b & loc & Si & Da)]].
    - left. apply sgrid_grid_name. exact G.
    - right. left. apply sgrid_nowhere. exact N.
    - right. right. exists loc. destruct Da as [(Tl & Sh)|(ts & levels & In_ & Lv & Sh)].
      + destruct (sgrid_location s h tv w [] a b loc Sh Si) as [HL VL].
        destruct (static_ok dateutil cftime (do _ <- read_depth (sf_file s); Ok tt) (stag_api t) (sf_file s) U k w loc I VL Tl) as (v & Ev); [rewrite Sh; cbn; lia|].
        exists v. split; [apply find_location_iff; exact HL|exact Ev].
      + destruct (sgrid_location s h tv w ([length ts] ++ axis_shape levels) a b loc) as [HL VL]; [rewrite <- app_assoc; exact Sh|exact Si|].
        destruct (load_ok dateutil cftime (do _ <- read_depth (sf_file s); Ok tt) (stag_api t) (sf_file s) U k w loc ts (axis_shape levels ++ [a; b]) I VL In_ Sh) as (v & Ev).
        * cbn [stag_api ga_kind GridDimensions]. destruct levels as [ls|].
          -- intros _. destruct (levels_read (sf_file s) ls U Lv) as (-> & _). reflexivity.
          -- cbn. intros X. discriminate X.
        * exists v. split; [apply find_location_iff; exact HL|exact Ev].
  Qed.

  Context (p : stag * dict variable) (O : open_sgrid_dataset dateutil cftime s = Ok p).
  Context (k : string) (w : mvar) (I : In (k, w) (fi_vars (sf_file s))) (NG : ~ TopologyWord tv k).
  Context (a b : nat) (loc : string) (Si : SitsAt nr nc (places h) w a b loc).
  Lemma sgrid_left_out : Nowhere nr nc (places h) w -> dget (snd p) k = None.
  Proof.
    clear Si a b loc NG. intros N. destruct (sgrid_open_inv p O) as (_ & Hv).
    destruct (dget (snd p) k) as [v|] eqn:G; [|reflexivity]. exfalso.
    assert (Iv : In (k, v) (snd p)).
    { clear - G. revert G. induction (snd p) as [|[k' v'] l IH]; [discriminate|]. cbn [dget]. destruct (String.eqb_spec k k') as [->|]; [intros E; injection E as ->; left; reflexivity|intros E; right; auto]. }
    destruct (c78_entries _ _ _ _ _ _ _ _ Hv Iv) as (_ & _ & _ & w' & Iw' & Lo & _).
    rewrite load_vars in Iw'. apply in_map_iff in Iw'. destruct Iw' as ([k2 w2] & E & I2). cbn [fst snd] in E. injection E as -> <-.
    pose proof (sf_unique _ _ _ F) as U.
    assert (w2 = w) as -> by (pose proof (dget_unique _ _ _ U I); pose proof (dget_unique _ _ _ U I2); congruence).
    apply find_location_iff in Lo. pose proof (sgrid_nowhere s h tv w N) as Z. fold t in Z. rewrite Z in Lo. discriminate.
  Qed.
  Section Sampled.
    Context (ts : list Z) (levels : option (list Q)) (In_ : InstantsIn cftime (sf_file s) w ts) (Lv : LevelsIn (sf_file s) levels).
    Context (Sh : fm_shape w = [length ts] ++ axis_shape levels ++ [a; b]).
    Lemma sgrid_opened : exists v tm nm, dget (snd p) k = Some v /\ va_loc v = loc /\ va_varname v = k /\ va_shape v = fm_shape w /\
      va_time v = TimeRead tm nm /\ t_data tm = ts /\ va_depth v = match levels with Some _ => DepthRead | None => DepthNone end.
    Proof.
      destruct (sgrid_open_inv p O) as (_ & Hv).
      destruct (sgrid_location s h tv w ([length ts] ++ axis_shape levels) a b loc) as [HL VL]; [rewrite <- app_assoc; exact Sh|exact Si|].
      destruct (loaded dateutil cftime _ _ (sf_file s) (sf_unique _ _ _ F) (snd p) k w loc ts Hv I) as (v & tm & nm & G & Vl & Vk & Vs & Vt & Td & Vd); auto.
      - intros G. apply sgrid_grid_name in G. contradiction.
      - exists v, tm, nm. split; [exact G|]. split; [exact Vl|]. split; [exact Vk|]. split; [exact Vs|]. split; [exact Vt|]. split; [exact Td|].
        rewrite Vd, Sh. cbn [stag_api ga_kind GridDimensions]. destruct levels; reflexivity.
    Qed.
    Lemma sgrid_asked now find : exists tm, t_data tm = ts /\ forall q ex pts,
      ask_sgrid dateutil cftime now find s k q ex pts =
      stag_at (st_grid t) find loc (order_of true (some levels) GStructured) (sf_data s k) ([length (t_data tm)] ++ axis_shape levels ++ [a; b]) (Some tm)
        (option_map (fun ls => from_view Q2R (l_view snd ls (Some (length ls)) default_sbc default_bbc)) levels) q ex pts.
    Proof.
      destruct sgrid_opened as (v & tm & nm & G & Vl & Vk & Vs & Vt & Td & Vd). exists tm. split; [exact Td|].
      intros q ex pts. unfold ask_sgrid. rewrite O. cbn [bind]. rewrite G. destruct (sgrid_open_inv p O) as (-> & _). unfold stag_answer.
      unfold stag_depth. rewrite Vd, Vs, Vl, Vk, Vt, Sh, Td. destruct levels as [ls|].
      - destruct (levels_read (sf_file s) ls (sf_unique _ _ _ F) Lv) as (-> & _). cbn [bind fst snd app length]. reflexivity.
      - reflexivity.
    Qed.
  End Sampled.
  Section Fixed.
    Context (Tl : Timeless (sf_file s) w) (Sh : fm_shape w = [a; b]).
    Lemma sgrid_fixed now find q ex pts : ask_sgrid dateutil cftime now find s k q ex pts =
      stag_at (st_grid t) find loc (order_of false false GStructured) (sf_data s k) [a; b] None None q ex pts.
    Proof.
      destruct (sgrid_open_inv p O) as (Ep & Hv).
      destruct (sgrid_location s h tv w [] a b loc Sh Si) as [HL VL].
      destruct (static_loaded dateutil cftime _ _ (sf_file s) (sf_unique _ _ _ F) (snd p) k w loc Hv I) as (v & G & Vl & Vk & Vs & Vt & Vd); auto.
      - intros G. apply sgrid_grid_name in G. contradiction.
      - rewrite Sh. cbn. lia.
      - unfold ask_sgrid. rewrite O. cbn [bind]. rewrite G, Ep. unfold stag_answer, stag_depth. rewrite Vd, Vs, Vl, Vk, Vt, Sh. reflexivity.
    Qed.
  End Fixed.
End Opened.

(** ** What the grid answers *)
Lemma word_pad w p : Word w p -> pad_of w = p /\ known p.
Proof. intros []; split; (reflexivity || discriminate). Qed.
Lemma faces_read s h t dr dc rows cols : FacesPadded h dr dc rows cols -> face_padding (g_pads (st_grid (sgrid_of s h t))) = Ok (rows, cols) /\ known2 (rows, cols).
Proof.
  intros (n1 & w1 & n2 & w2 & W1 & W2 & H). apply word_pad in W1. apply word_pad in W2. destruct W1 as [E1 K1], W2 as [E2 K2]. split; [|split; assumption].
  unfold face_padding. cbn [sgrid_of st_grid g_pads sp_face pads_of]. destruct H as [-> |[-> E]]; cbn [pads_in map pad_type]; rewrite E1, E2; [reflexivity|]. rewrite E. reflexivity.
Qed.
Lemma chart_sits s h t dims loc a b col expct : let g := st_grid (sgrid_of s h t) in OnChart g h dims loc a b col expct -> Sits g loc a b col expct.
Proof.
  intros g H. destruct H as [|loc lead dr dc rows cols L D P|lead dr dc rows fr fc frows fcols D P E M|lead dr dc cols fr fc frows fcols D P E M].
  - apply OnNodes; reflexivity.
  - destruct (faces_read s h t _ _ _ _ P) as (Ef & K). apply OnCenters; [destruct L as [<-|[<-|[]]]; reflexivity|exact Ef|exact K| |]; unfold padded; cbn [fst snd]; lia.
  - destruct (faces_read s h t _ _ _ _ P) as (Ef & K).
    assert (E1 : edge1_padding (g_pads g) = Ok (rows, PadNone) /\ known rows).
    { unfold edge1_padding. cbn [g sgrid_of st_grid g_pads sp_edge1]. destruct (h_pads1 h) as [l|] eqn:Ep; cbn [option_map pads_of].
      - destruct E as (n & w & r & -> & W). apply word_pad in W. cbn [pads_in map pad_type]. destruct W as [-> W]. auto.
      - cbn in E. subst rows. cbn [g sgrid_of st_grid g_pads] in Ef. rewrite Ep in Ef. cbn [option_map pads_of] in Ef. rewrite Ef. split; [reflexivity|apply K]. }
    apply (OnEdges1 g "edge1" _ _ (rows, PadNone) (frows, fcols)); auto; try reflexivity; try (apply E1); try (unfold padded; cbn [fst snd low_extra]; lia). split; [apply E1|discriminate].
  - destruct (faces_read s h t _ _ _ _ P) as (Ef & K).
    assert (E2 : edge2_padding (g_pads g) = Ok (PadNone, cols) /\ known cols).
    { unfold edge2_padding. cbn [g sgrid_of st_grid g_pads sp_edge2]. destruct (h_pads2 h) as [l|] eqn:Ep; cbn [option_map pads_of].
      - destruct E as (n & w & r & -> & W). apply word_pad in W. cbn [pads_in map pad_type]. destruct W as [-> W]. auto.
      - cbn in E. subst cols. cbn [g sgrid_of st_grid g_pads] in Ef. rewrite Ep in Ef. cbn [option_map pads_of] in Ef. rewrite Ef. split; [reflexivity|apply K]. }
    apply (OnEdges2 g "edge2" _ _ (PadNone, cols) (frows, fcols)); auto; try reflexivity; try (apply E2); try (unfold padded; cbn [fst snd low_extra]; lia). split; [discriminate|apply E2].
Qed.
