(** Lemmas about the way from a file with a staggered grid to the answers. *)
From Coq Require Import Reals String.
From Verif Require Import Common CommonProofs TimeModel TimeSpec VariableSpec GridTypeModel GridTypeSpec GridTypeProofs GridTypeProps MaskModel MaskSpec MaskProofs VariableModel DepthModel DepthSpec SGridModel SGridSpec SGridProps
  SGridInterpModel SGridInterpSpec TFileModel TFileSpec LoadModel LoadSpec LoadProofs LoadProps VLoadModel FMeshModel FMeshSpec FMeshProofs FRectSpec FRectProofs WholeProofs SWholeModel SWholeSpec SWholeProofs FStagModel FStagSpec FStagRead.
Open Scope string_scope.
Open Scope list_scope.
Open Scope nat_scope.

(** The words of the topology are its values. *)
Lemma words_of (g : grid_api) : (forall kv, In kv (ga_topology g) -> split (snd kv) = [snd kv]) -> forall k, GridName g k <-> In k (map snd (ga_topology g)).
Proof.
  intros H k. rewrite <- grid_name_iff. unfold is_grid_name. rewrite existsb_exists. split.
  - intros (kv & I & E). rewrite (H kv I) in E. apply isin_in in E. destruct E as [<-|[]]. apply in_map. exact I.
  - intros I. apply in_map_iff in I. destruct I as (kv & <- & I). exists kv. split; [exact I|]. rewrite (H kv I). apply isin_in. left. reflexivity.
Qed.
Lemma pair_in f names p : PairOf f names (Some p) -> In (p_lon p, p_lat p) names.
Proof. intros ((pre & post & -> & _) & _). apply in_app_iff. right. left. reflexivity. Qed.
Lemma topo_words y : map snd (topo y) = grid_words y.
Proof. unfold topo, grid_words, part_of, names_of. destruct (y_center y), (y_cmask y), (y_edge1 y), (y_mask1 y), (y_edge2 y), (y_mask2 y); reflexivity. Qed.
Lemma stag_grid_name s y k : StagFile (sf_file s) y -> GridName (stag_api (stag_of s y)) k <-> In k (grid_words y).
Proof.
  intros (_ & _ & _ & _ & Nodes & _ & _ & Ce & E1 & E2 & _). rewrite <- topo_words.
  apply (words_of (stag_api (stag_of s y))). cbn [stag_api ga_topology stag_of st_topology]. unfold topo. intros kv I.
  apply in_app_iff in I. destruct I as [I|I]; [|apply in_app_iff in I; destruct I as [I|I]; [|apply in_app_iff in I; destruct I as [I|I]; [|apply in_app_iff in I; destruct I as [I|I]]]].
  - apply pair_in in Nodes. clear - I Nodes. cbn [axis_names In] in Nodes, I. destruct Nodes as [E|[E|[E|[E|[]]]]]; injection E as A B; destruct I as [<-|[<-|[]]]; cbn [snd]; rewrite <- ?A, <- ?B; reflexivity.
  - unfold part_of in I. destruct (y_center y) as [p|]; [|destruct I]. apply pair_in in Ce. clear - I Ce. cbn [In] in Ce.
    apply in_app_iff in I. destruct I as [I|I]; [destruct (y_cmask y); [destruct I as [<-|[]]; reflexivity|destruct I]|].
    destruct Ce as [E|[E|[E|[]]]]; injection E as A B; destruct I as [<-|[<-|[]]]; cbn [snd]; rewrite <- ?A, <- ?B; reflexivity.
  - unfold part_of in I. destruct (y_edge1 y) as [p|]; [|destruct I]. apply pair_in in E1. clear - I E1. cbn [In] in E1.
    apply in_app_iff in I. destruct I as [I|I]; [destruct (y_mask1 y); [destruct I as [<-|[]]; reflexivity|destruct I]|].
    destruct E1 as [E|[E|[]]]; injection E as A B; destruct I as [<-|[<-|[]]]; cbn [snd]; rewrite <- ?A, <- ?B; reflexivity.
  - unfold part_of in I. destruct (y_edge2 y) as [p|]; [|destruct I]. apply pair_in in E2. clear - I E2. cbn [In] in E2.
    apply in_app_iff in I. destruct I as [I|I]; [destruct (y_mask2 y); [destruct I as [<-|[]]; reflexivity|destruct I]|].
    destruct E2 as [E|[E|[]]]; injection E as A B; destruct I as [<-|[<-|[]]]; cbn [snd]; rewrite <- ?A, <- ?B; reflexivity.
  - destruct I as [<-|[]]. reflexivity.
Qed.

(** ** Where a variable is *)
Lemma some_true {A} (o : option A) : some o = true <-> o <> None.
Proof. destruct o; cbn; split; congruence. Qed.
Lemma staggered_infer s y lead a b : let nr := a_r (sf_nums s (p_x (y_nodes y))) in let nc := a_c (sf_nums s (p_x (y_nodes y))) in
  forall att loc, ga_infer (stag_api (stag_of s y)) att (lead ++ [a; b]) = Ok (Some loc) <-> Staggered nr nc y a b loc.
Proof.
  intros nr nc att loc. cbn [stag_api ga_infer stag_of st_grid st_center st_edge1 st_edge2 g_lon]. unfold s_infer, shape2. fold nr nc.
  destruct (c40_infer nr nc (some (y_center y)) (some (y_edge1 y)) (some (y_edge2 y)) lead a b) as (C & E1 & E2 & N).
  set (l := infer_location (nr, nc) (some (y_center y)) (some (y_edge1 y)) (some (y_edge2 y)) (Some (lead ++ [a; b]))) in *. rewrite !some_true in *. unfold diff in *.
  split.
  - intros H. destruct l as [[]|]; cbn [option_map s_name] in H; try discriminate H; injection H as <-.
    + destruct (proj1 C eq_refl) as (h & [[A B]|[A B]]); [apply OnRho|apply OnCell]; auto; lia.
    + destruct (proj1 E1 eq_refl) as (h & A & B). apply OnU; auto; lia.
    + destruct (proj1 E2 eq_refl) as (h & A & B). apply OnV; auto; lia.
    + destruct (proj1 N eq_refl) as (A & B). apply OnNode; auto.
  - intros H. destruct H as [A B|h A B|h A B|h A B|h A B].
    + rewrite (proj2 N); auto.
    + rewrite (proj2 C); [reflexivity|]. split; [exact h|left; lia].
    + rewrite (proj2 C); [reflexivity|]. split; [exact h|right; lia].
    + rewrite (proj2 E1); [reflexivity|]. split; [exact h|lia].
    + rewrite (proj2 E2); [reflexivity|]. split; [exact h|lia].
Qed.
Lemma staggered_valid nr nc y a b loc : Staggered nr nc y a b loc -> ValidLocation loc.
Proof. unfold ValidLocation. intros []; auto 10. Qed.
Lemma sits_location s y w lead a b loc : let nr := a_r (sf_nums s (p_x (y_nodes y))) in let nc := a_c (sf_nums s (p_x (y_nodes y))) in
  fm_shape w = lead ++ [a; b] -> SitsAt nr nc y w a b loc -> LocationOf (stag_api (stag_of s y)) (to_load w) loc /\ ValidLocation loc.
Proof.
  intros nr nc Sh [[A V]|[N St]]; [split; [left; split; [exact A|exact V]|exact V]|]. split; [|eapply staggered_valid; eauto]. right. split; [exact N|].
  cbn [to_load lv_shape]. rewrite Sh. apply staggered_infer. exact St.
Qed.
Lemma nowhere_none s y w : let nr := a_r (sf_nums s (p_x (y_nodes y))) in let nc := a_c (sf_nums s (p_x (y_nodes y))) in
  Nowhere nr nc y w -> find_location (stag_api (stag_of s y)) (to_load w) = Ok None.
Proof.
  intros nr nc (NV & Sh).
  assert (Inf : forall att, ga_infer (stag_api (stag_of s y)) att (fm_shape w) = Ok None).
  { intros att. destruct Sh as [Sh|(lead & a & b & Sh & No)].
    - cbn [stag_api ga_infer]. unfold s_infer. destruct (c40_too_few_dimensions (shape2 (g_lon (st_grid (stag_of s y)))) (st_center (stag_of s y)) (st_edge1 (stag_of s y)) (st_edge2 (stag_of s y)) _ Sh) as [-> _]. reflexivity.
    - rewrite Sh. destruct (ga_infer (stag_api (stag_of s y)) att (lead ++ [a; b])) as [[l|]|e] eqn:E; [|reflexivity|].
      + apply staggered_infer in E. exfalso. exact (No l E).
      + cbn [stag_api ga_infer] in E. unfold s_infer in E. discriminate E. }
  unfold find_location. cbn [to_load lv_attrs lv_shape]. destruct (dget (fm_attrs w) "location") as [l|] eqn:A; [|apply Inf].
  destruct (isin l valid_locations) eqn:V; [apply valid_iff in V; exfalso; exact (NV l A V)|apply Inf].
Qed.

(** ** Loading, without a time axis *)
Section Static.
  Context (dateutil : string -> dparse) (cftime : string -> option (Z * Z * Z)) (rd : result unit) (g : grid_api).
  Context (f : file) (U : UniqueNames f).
  Lemma static_ok k w loc : In (k, w) (fi_vars f) -> ValidLocation loc -> Timeless f w -> 0 < length (fm_shape w) < GridDimensions (ga_kind g) + 1 ->
    exists v, load_variable dateutil cftime rd g (as_load f) 0 (plain_args k (to_load w) loc) = Ok v.
  Proof.
    intros I VL (Nd & NT) L. unfold load_variable. cbn [plain_args la_varname]. rewrite (load_get f U k w I).
    unfold load_time. cbn [plain_args la_time la_tz la_origin la_disp]. destruct (locate_iff (as_load f) (to_load w)) as (_ & L2 & _). rewrite (proj2 (L2 Nd) NT). cbn [bind fst snd].
    unfold load_depth. cbn [plain_args la_depth to_load lv_shape].
    destruct (Nat.eqb_spec (length (fm_shape w)) (LoadModel.horizontal (ga_kind g) + 1 + 0)) as [E|_]; [exfalso; destruct (ga_kind g); cbn in *; lia|].
    cbn [bind plain_args la_loc]. unfold construct. cbn [check_location]. rewrite (proj2 (valid_iff loc) VL). cbn [bind]. destruct (fm_shape w) as [|d r]; [cbn in L; lia|].
    cbn [times]. change (1 <? 1) with false. rewrite andb_false_r. cbn [bind]. eauto.
  Qed.
  Lemma static_loaded vs k w loc : load_variables dateutil cftime rd g (as_load f) = Ok vs ->
    In (k, w) (fi_vars f) -> ~ GridName g k -> LocationOf g (to_load w) loc -> Timeless f w -> length (fm_shape w) <> GridDimensions (ga_kind g) + 1 ->
    exists v, dget vs k = Some v /\ va_loc v = loc /\ va_varname v = k /\ va_shape v = fm_shape w /\ va_time v = TimeNow /\ va_depth v = DepthNone.
  Proof.
    intros Hv I NG HL (_ & NT) Sh.
    assert (Ik : In (k, to_load w) (lf_vars (as_load f))) by (rewrite load_vars; apply in_map_iff; exists (k, w); auto).
    destruct (loads_get _ _ _ _ (c78_loaded _ _ _ _ _ _ Hv) ltac:(rewrite load_vars, map_map; exact U) k (to_load w) loc Ik NG HL) as (v & l' & G & (a & Ha & An & Al & At & Az & Ad & Au & Ao & Ap & _) & HL').
    assert (l' = loc) as -> by (apply find_location_iff in HL, HL'; congruence).
    pose proof (load_get f U k w I) as Gw.
    destruct (c77_fields _ _ _ _ _ _ _ _ Ha) as (w1 & W1 & Fn & _ & Fs & _). rewrite An in *. assert (w1 = to_load w) by congruence. subst w1.
    destruct (c77_location _ _ _ _ _ _ _ _ Ha) as (_ & _ & _ & Fl & _).
    destruct (c77_time _ _ _ _ _ _ _ _ Ha) as (w2 & W2 & _ & Ft). rewrite An in W2. assert (w2 = to_load w) by congruence. subst w2.
    destruct (c77_depth_partial _ _ _ _ _ _ _ _ Ha At) as (w3 & W3 & _ & Fd). rewrite An in W3. assert (w3 = to_load w) by congruence. subst w3.
    destruct (Fd Ad) as (_ & F2 & F3). specialize (F2 NT). cbn [to_load lv_shape] in F2.
    exists v. split; [exact G|]. split; [apply Fl; exact Al|]. split; [exact Fn|]. split; [exact Fs|]. split; [apply (proj2 (Ft At)); exact NT|]. apply F3. intros X. apply F2 in X. contradiction.
  Qed.
End Static.

(** ** The whole way *)
Section Opened.
  Context (dateutil : string -> dparse) (cftime : string -> option (Z * Z * Z)).
  Context (s : sfile) (y : layout) (F : StagFile (sf_file s) y).
  Let nr := a_r (sf_nums s (p_x (y_nodes y))).
  Let nc := a_c (sf_nums s (p_x (y_nodes y))).
  Let t := stag_of s y.

  Lemma stag_open_inv p : open_stag_dataset dateutil cftime s = Ok p -> fst p = t /\
    load_variables dateutil cftime (do _ <- read_depth (sf_file s); Ok tt) (stag_api t) (as_load (sf_file s)) = Ok (snd p).
  Proof.
    unfold open_stag_dataset. rewrite (stag_read _ _ F). cbn [bind]. fold t. intros H. apply bind_ok in H. destruct H as (vs & Hv & H). injection H as <-. auto.
  Qed.
  Lemma stag_opens : StagSound cftime (sf_file s) y nr nc -> exists vs, open_stag_dataset dateutil cftime s = Ok (t, vs).
  Proof.
    intros H. unfold open_stag_dataset. rewrite (stag_read _ _ F). cbn [bind]. fold t. unfold load_variables. rewrite load_vars.
    assert (U : UniqueNames (sf_file s)) by apply F.
    destruct (load_all dateutil cftime (do _ <- read_depth (sf_file s); Ok tt) (stag_api t) (sf_file s) (fi_vars (sf_file s))) as (xs & E); [auto| |rewrite E; cbn; eauto].
    intros k w I. destruct (H k w I) as [G|[N|(a & b & loc & Si & Da)]].
    - left. apply (stag_grid_name _ _ _ F). exact G.
    - right. left. apply nowhere_none. exact N.
    - right. right. exists loc. destruct Da as [(Tl & Sh)|(ts & levels & In_ & Lv & Sh)].
      + destruct (sits_location s y w [] a b loc Sh Si) as [HL VL].
        destruct (static_ok dateutil cftime (do _ <- read_depth (sf_file s); Ok tt) (stag_api t) (sf_file s) U k w loc I VL Tl) as (v & Ev); [rewrite Sh; cbn; lia|].
        exists v. split; [apply find_location_iff; exact HL|exact Ev].
      + destruct (sits_location s y w ([length ts] ++ axis_shape levels) a b loc) as [HL VL]; [rewrite <- app_assoc; exact Sh|exact Si|].
        destruct (load_ok dateutil cftime (do _ <- read_depth (sf_file s); Ok tt) (stag_api t) (sf_file s) U k w loc ts (axis_shape levels ++ [a; b]) I VL In_ Sh) as (v & Ev).
        * cbn [stag_api ga_kind GridDimensions]. destruct levels as [ls|].
          -- intros _. destruct (levels_read (sf_file s) ls U Lv) as (-> & _). reflexivity.
          -- cbn. intros X. discriminate X.
        * exists v. split; [apply find_location_iff; exact HL|exact Ev].
  Qed.

  Context (p : stag * dict variable) (O : open_stag_dataset dateutil cftime s = Ok p).
  Context (k : string) (w : mvar) (I : In (k, w) (fi_vars (sf_file s))) (NG : ~ In k (grid_words y)).
  Context (a b : nat) (loc : string) (Si : SitsAt nr nc y w a b loc).
  Lemma left_out : Nowhere nr nc y w -> dget (snd p) k = None.
  Proof.
    clear Si a b loc NG. intros N. destruct (stag_open_inv p O) as (_ & Hv).
    destruct (dget (snd p) k) as [v|] eqn:G; [|reflexivity]. exfalso.
    assert (Iv : In (k, v) (snd p)).
    { clear - G. revert G. induction (snd p) as [|[k' v'] l IH]; [discriminate|]. cbn [dget]. destruct (String.eqb_spec k k') as [->|]; [intros E; injection E as ->; left; reflexivity|intros E; right; auto]. }
    destruct (c78_entries _ _ _ _ _ _ _ _ Hv Iv) as (_ & _ & _ & w' & Iw' & Lo & _).
    rewrite load_vars in Iw'. apply in_map_iff in Iw'. destruct Iw' as ([k2 w2] & E & I2). cbn [fst snd] in E. injection E as -> <-.
    assert (w2 = w) as -> by (pose proof (dget_unique _ _ _ (proj1 F) I); pose proof (dget_unique _ _ _ (proj1 F) I2); congruence).
    apply find_location_iff in Lo. pose proof (nowhere_none s y w N) as Z. fold t in Z. rewrite Z in Lo. discriminate.
  Qed.
  Section Sampled.
    Context (ts : list Z) (levels : option (list Q)) (In_ : InstantsIn cftime (sf_file s) w ts) (Lv : LevelsIn (sf_file s) levels).
    Context (Sh : fm_shape w = [length ts] ++ axis_shape levels ++ [a; b]).
    Lemma stag_opened : exists v tm nm, dget (snd p) k = Some v /\ va_loc v = loc /\ va_varname v = k /\ va_shape v = fm_shape w /\
      va_time v = TimeRead tm nm /\ t_data tm = ts /\ va_depth v = match levels with Some _ => DepthRead | None => DepthNone end.
    Proof.
      destruct (stag_open_inv p O) as (_ & Hv).
      destruct (sits_location s y w ([length ts] ++ axis_shape levels) a b loc) as [HL VL]; [rewrite <- app_assoc; exact Sh|exact Si|].
      destruct (loaded dateutil cftime _ _ (sf_file s) ltac:(apply F) (snd p) k w loc ts Hv I) as (v & tm & nm & G & Vl & Vk & Vs & Vt & Td & Vd); auto.
      - intros G. apply (stag_grid_name _ _ _ F) in G. contradiction.
      - exists v, tm, nm. split; [exact G|]. split; [exact Vl|]. split; [exact Vk|]. split; [exact Vs|]. split; [exact Vt|]. split; [exact Td|].
        rewrite Vd, Sh. cbn [stag_api ga_kind GridDimensions]. destruct levels; reflexivity.
    Qed.
    Lemma stag_asked now find : exists tm, t_data tm = ts /\ forall q ex pts,
      ask_stag dateutil cftime now find s k q ex pts =
      stag_at (st_grid t) find loc (order_of true (some levels) GStructured) (sf_data s k) ([length (t_data tm)] ++ axis_shape levels ++ [a; b]) (Some tm)
        (option_map (fun ls => from_view Q2R (l_view snd ls (Some (length ls)) default_sbc default_bbc)) levels) q ex pts.
    Proof.
      destruct stag_opened as (v & tm & nm & G & Vl & Vk & Vs & Vt & Td & Vd). exists tm. split; [exact Td|].
      intros q ex pts. unfold ask_stag. rewrite O. cbn [bind]. rewrite G. destruct (stag_open_inv p O) as (-> & _). unfold stag_answer.
      unfold stag_depth. rewrite Vd, Vs, Vl, Vk, Vt, Sh, Td. destruct levels as [ls|].
      - destruct (levels_read (sf_file s) ls (proj1 F) Lv) as (-> & _). cbn [bind fst snd app length]. reflexivity.
      - reflexivity.
    Qed.
  End Sampled.
  Section Fixed.
    Context (Tl : Timeless (sf_file s) w) (Sh : fm_shape w = [a; b]).
    Lemma stag_fixed now find q ex pts : ask_stag dateutil cftime now find s k q ex pts =
      stag_at (st_grid t) find loc (order_of false false GStructured) (sf_data s k) [a; b] None None q ex pts.
    Proof.
      destruct (stag_open_inv p O) as (Ep & Hv).
      destruct (sits_location s y w [] a b loc Sh Si) as [HL VL].
      destruct (static_loaded dateutil cftime _ _ (sf_file s) ltac:(apply F) (snd p) k w loc Hv I) as (v & G & Vl & Vk & Vs & Vt & Vd); auto.
      - intros G. apply (stag_grid_name _ _ _ F) in G. contradiction.
      - rewrite Sh. cbn. lia.
      - unfold ask_stag. rewrite O. cbn [bind]. rewrite G, Ep. unfold stag_answer, stag_depth. rewrite Vd, Vs, Vl, Vk, Vt, Sh. reflexivity.
    Qed.
  End Fixed.
End Opened.

(** ** What the grid answers *)
Lemma guess_both n : guess_pad (n + 1) n = Ok PadBoth.
Proof. unfold guess_pad. replace (Z.of_nat (n + 1) - Z.of_nat n)%Z with 1%Z by lia. reflexivity. Qed.
Lemma guess_none n : 1 <= n -> guess_pad (n - 1) n = Ok PadNone.
Proof. intros H. unfold guess_pad. replace (Z.of_nat (n - 1) - Z.of_nat n)%Z with (-1)%Z by lia. reflexivity. Qed.
Lemma answers_sits s y loc a b col expct : let g := st_grid (stag_of s y) in
  Answers g (sp_center_shape (g_pads g)) loc a b col expct ->
  (forall m, y_center y <> None -> y_cmask y = Some m -> sp_center_shape (g_pads g) = Some (shape2 (snd (sf_flags s m)))) -> Sits g loc a b col expct.
Proof.
  intros g H M. assert (FP : face_padding (g_pads g) = match sp_center_shape (g_pads g) with
      | Some (fr, fc) => do a <- guess_pad fr (a_r (g_lon g)); do b <- guess_pad fc (a_c (g_lon g)); Ok (a, b) | None => Ok (PadNone, PadNone) end) by reflexivity.
  assert (Cm : forall nr nc, sp_center_shape (g_pads g) = Some (nr, nc) -> forall m, g_cmask g = Some m -> a_r (snd m) = nr /\ a_c (snd m) = nc).
  { intros nr nc Ec m Em. cbn [g stag_of st_grid g_cmask] in Em. destruct (y_center y) as [pc|] eqn:Yc; [|discriminate]. destruct (y_cmask y) as [m0|] eqn:Ym; [|discriminate]. injection Em as <-.
    specialize (M m0 ltac:(discriminate) eq_refl). rewrite Ec in M. injection M as -> ->. auto. }
  assert (K : forall p, p <> PadOther -> known p) by auto.
  destruct H as [|Ec|Ec L1 L2|Ec|Ec].
  - apply OnNodes; reflexivity.
  - apply OnCenters; [reflexivity| |split; discriminate| |].
    + rewrite FP, Ec, !guess_both. reflexivity.
    + cbn. lia.
    + cbn. lia.
  - apply OnCenters; [reflexivity| |split; discriminate| |].
    + rewrite FP, Ec, !guess_none by lia. reflexivity.
    + cbn [fst low_extra]. lia.
    + cbn [snd low_extra]. lia.
  - assert (Fp : face_padding (g_pads g) = Ok (PadBoth, PadBoth)) by (rewrite FP, Ec, !guess_both; reflexivity).
    assert (Ep : edge1_padding (g_pads g) = Ok (PadBoth, PadNone)) by (unfold edge1_padding; change (sp_edge1 (g_pads g)) with PSUnset; cbv iota; rewrite Fp; reflexivity).
    assert (Mc : MaskCovers g (PadBoth, PadBoth)).
    { unfold MaskCovers. destruct (g_cmask g) as [[kd m]|] eqn:Em; [|exact Logic.I]. destruct (Cm _ _ Ec _ eq_refl) as [A B]. cbn [snd] in A, B. cbn [fst snd low_extra]. lia. }
    apply (OnEdges1 g "edge1" _ _ (PadBoth, PadNone) (PadBoth, PadBoth)); first [exact Ep | exact Fp | exact Mc | reflexivity | (split; discriminate) | (cbn [fst snd low_extra]; lia)].
  - assert (Fp : face_padding (g_pads g) = Ok (PadBoth, PadBoth)) by (rewrite FP, Ec, !guess_both; reflexivity).
    assert (Ep : edge2_padding (g_pads g) = Ok (PadNone, PadBoth)) by (unfold edge2_padding; change (sp_edge2 (g_pads g)) with PSUnset; cbv iota; rewrite Fp; reflexivity).
    assert (Mc : MaskCovers g (PadBoth, PadBoth)).
    { unfold MaskCovers. destruct (g_cmask g) as [[kd m]|] eqn:Em; [|exact Logic.I]. destruct (Cm _ _ Ec _ eq_refl) as [A B]. cbn [snd] in A, B. cbn [fst snd low_extra]. lia. }
    apply (OnEdges2 g "edge2" _ _ (PadNone, PadBoth) (PadBoth, PadBoth)); first [exact Ep | exact Fp | exact Mc | reflexivity | (split; discriminate) | (cbn [fst snd low_extra]; lia)].
Qed.
