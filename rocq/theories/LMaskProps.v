(** C109 for data on layers over longitude and latitude axes. *)
From Coq Require Import String Lqa.
From Verif Require Import Common CommonProofs TimeModel TimeSpec VariableModel VariableProofs DepthModel DepthSpec UGridGeomModel UGridGeomSpec
  RGridModel RGridSpec RGridProofs WholeModel WholeSpec WholeProofs WholeProps WMaskSpec WMaskProofs WMaskProps SWholeSpec AnyDepthSpec LayerSpec LayerProofs LayerProps.
Open Scope list_scope.
Open Scope nat_scope.

(** Missing entries count as zeros.  Missing: points above the first level of
    levels listed downwards, and above the last of levels listed upwards, unless
    answers are masked there. *)
Theorem c109_rectangular_layers_as_zero_partial :
  forall r dims sw vals time ls sbc bbc q q' ex (f g : Z -> nat -> point -> Q) (m : Z -> nat -> nat -> nat -> bool) lay pts,
  let y := fst (yx_axes r sw) in let x := snd (yx_axes r sw) in let shape := layer_shape time ls [length y; length x] in
  lonlat_to_yx r dims shape = Ok sw -> Monotone (rg_lon r) -> Monotone (rg_lat r) -> 2 <= length (rg_lon r) -> 2 <= length (rg_lat r) ->
  TimeOk (option_map t_data time) ex q q' -> 2 <= length ls -> Monotone ls -> (forall s, In s pts -> Layered ls sbc bbc (deep s) (lay s)) ->
  LayersChange (option_map t_data time) g ->
  (forall ix t d, SlotAt (option_map t_data time) (Some (length ls - 1)) ix t d ->
     MaskedTable y x (m t d) (fun a b => f t d (if sw then (a, b) else (b, a))) (vals ix) /\ BilinearOverCells (rg_lon r) (rg_lat r) (g t d) /\
     forall i j a b, nth_error y i = Some a -> nth_error x j = Some b ->
       let p := if sw then (a, b) else (b, a) in (g t d p == if m t d i j then 0 else f t d p)%Q) ->
  exists vs, at_grid (rect_interp r dims shape vals) (order_of (some time) true GStructured) shape time (Some (l_view deep ls (Some (length ls)) sbc bbc)) q ex pts = Ok vs /\
    Forall2 (fun s => AtLayer ls sbc bbc (deep s) (lay s) (fun c => let inside := Spans (rg_lon r) (fst (place s)) /\ Spans (rg_lat r) (snd (place s)) in
       (inside -> Shows (g q' (lay s) (place s)) c) /\ (~ inside -> Shows 0 c))) pts vs.
Proof.
  intros r dims sw vals time ls sbc bbc q q' ex f g m lay pts y x shape HO M1 M2 N1 N2 T N Mo D Ch S.
  destruct (c94_rectangular_layers_partial r dims sw (fun ix => map (map fill0) (vals ix)) time ls sbc bbc q q' ex g lay pts HO M1 M2 N1 N2 T N Mo D Ch) as (vs & E & V).
  - intros ix t d HS. destruct (S ix t d HS) as (MT & B & G). split; [|exact B]. eapply filled_samples; [exact MT|]. intros i j a b Ha Hb. exact (G i j a b Ha Hb).
  - exists vs. split; [|exact V]. rewrite <- E. apply at_grid_ext. intros ix ps. apply rect_filled.
Qed.
Print Assumptions c109_rectangular_layers_as_zero_partial.

(** Away from the missing entries of its own layer, the answer is the field. *)
Theorem c109_rectangular_layers_clear_partial :
  forall r dims sw vals time ls sbc bbc q q' ex (f : Z -> nat -> point -> Q) (m : Z -> nat -> nat -> nat -> bool) lay pts,
  let y := fst (yx_axes r sw) in let x := snd (yx_axes r sw) in let shape := layer_shape time ls [length y; length x] in
  lonlat_to_yx r dims shape = Ok sw -> Monotone (rg_lon r) -> Monotone (rg_lat r) -> 2 <= length (rg_lon r) -> 2 <= length (rg_lat r) ->
  TimeOk (option_map t_data time) ex q q' -> 2 <= length ls -> Monotone ls -> (forall s, In s pts -> Layered ls sbc bbc (deep s) (lay s)) ->
  LayersChange (option_map t_data time) f ->
  (forall ix t d, SlotAt (option_map t_data time) (Some (length ls - 1)) ix t d ->
     MaskedTable y x (m t d) (fun a b => f t d (if sw then (a, b) else (b, a))) (vals ix) /\ BilinearOverCells (rg_lon r) (rg_lat r) (f t d) /\
     forall s, In s pts -> ClearAt y x (m t d) (if sw then fst (place s) else snd (place s)) (if sw then snd (place s) else fst (place s))) ->
  exists vs, at_grid (rect_interp r dims shape vals) (order_of (some time) true GStructured) shape time (Some (l_view deep ls (Some (length ls)) sbc bbc)) q ex pts = Ok vs /\
    Forall2 (fun s => AtLayer ls sbc bbc (deep s) (lay s) (fun c => let inside := Spans (rg_lon r) (fst (place s)) /\ Spans (rg_lat r) (snd (place s)) in
       (inside -> Shows (f q' (lay s) (place s)) c) /\ (~ inside -> Shows 0 c))) pts vs.
Proof.
  intros r dims sw vals time ls sbc bbc q q' ex f m lay pts y x shape HO M1 M2 N1 N2 T N Mo D Ch S.
  destruct (composed_layers GStructured (rect_interp r dims shape vals) (fun ix => rect_leaf r sw (map (map fill0) (vals ix))) time ls sbc bbc [length y; length x] q q' ex
    (fun _ _ _ => false) (fun t d s => if negb (within (rg_lon r) (fst (place s)) && within (rg_lat r) (snd (place s))) then 0%Q else f t d (place s)) lay pts T N Mo D
    (layers_if _ (fun s => negb (within (rg_lon r) (fst (place s)) && within (rg_lat r) (snd (place s)))) f place Ch)) as (vs & E & V).
  - intros ix u d HS ps. destruct (S ix u d HS) as (MT & _). rewrite rect_filled. apply (rect_all r dims shape (fun ix => map (map fill0) (vals ix)) sw HO M1 M2 N1 N2). eapply filled_table; eauto.
  - intros ix u d s HS Hs. destruct (S ix u d HS) as (MT & B & Cl). right. split; [discriminate|].
    pose proof (clear_shows r sw M1 M2 N1 N2 (vals ix) (m u d) (f u d) s MT B (Cl s Hs)) as H. destruct (_ && _); exact H.
  - exists vs. split; [exact E|]. revert V. apply Forall2_impl'. intros s c. apply at_layer_impl. intros H. apply sees_nothing in H. cbv zeta. rewrite <- !within_spec, <- andb_true_iff by auto.
    destruct (_ && _); cbn [negb] in H; split; intros; tauto || congruence.
Qed.
Print Assumptions c109_rectangular_layers_clear_partial.

(** Two layers on a grid of two rows of three; the corner of the upper layer is
    missing: beside it the answer is that of a field which is zero there, away
    from it the field. *)
Definition lm_grid : rgrid := rg_new [0; 1; 3]%Q [2; 5]%Q None.
Definition lm_mask (_ : Z) (j i k : nat) : bool := (j =? 0) && (i =? 0) && (k =? 0).
Definition lm_field (_ : Z) (j : nat) (_ : point) : Q := inject_Z (Z.of_nat (S j)).
Definition lm_vals (ix : list nat) : list (list cell) :=
  match ix with [j] => map (fun i => map (fun k => if lm_mask 0 j i k then CMasked else CVal (inject_Z (Z.of_nat (S j)))) [0; 1; 2]) [0; 1] | _ => [] end.
Definition lm_ask (pts : list spot) : result (list cell) :=
  at_grid (rect_interp lm_grid None [2; 2; 3] lm_vals) (order_of false true GStructured) [2; 2; 3] None (Some (l_view deep c94_levels (Some 3) default_sbc default_bbc)) 0%Z false pts.
Definition lm_pts : list spot := [((2, 3), 2); ((2, 3), 6)]%Q.
Example c109_rectangular_layers_example :
  (exists v w, lm_ask [((1 # 2, 7 # 2), 2); ((1 # 2, 7 # 2), 6)]%Q = Ok [CVal v; CVal w] /\ (v == 3 # 4 /\ w == 2)%Q) /\
  exists cs, lm_ask lm_pts = Ok cs /\ Forall2 (fun s => AtLayer c94_levels default_sbc default_bbc (deep s) (ly_lay s) (fun c =>
    let inside := Spans [0; 1; 3]%Q (fst (place s)) /\ Spans [2; 5]%Q (snd (place s)) in
    (inside -> Shows (lm_field 0 (ly_lay s) (place s)) c) /\ (~ inside -> Shows 0 c))) lm_pts cs.
Proof.
  split; [do 2 eexists; split; [vm_compute; reflexivity|split; reflexivity]|].
  apply (c109_rectangular_layers_clear_partial lm_grid None false lm_vals None c94_levels default_sbc default_bbc 0%Z 0%Z false lm_field lm_mask ly_lay lm_pts).
  - reflexivity.
  - left. intros i j a b Hij Ha Hb. destruct i as [|[|[|i]]], j as [|[|[|[|j]]]]; cbn in Ha, Hb; try discriminate; try lia; injection Ha as <-; injection Hb as <-; reflexivity.
  - left. intros i j a b Hij Ha Hb. destruct i as [|[|i]], j as [|[|[|j]]]; cbn in Ha, Hb; try discriminate; try lia; injection Ha as <-; injection Hb as <-; reflexivity.
  - cbn. lia.
  - cbn. lia.
  - intros l H. discriminate H.
  - cbn. lia.
  - left. exact ly_ascending.
  - intros s [<-|[<-|[]]]; left.
    + exists 0%Q, 5%Q. split; [reflexivity|split; [reflexivity|left; split; [exact ly_ascending|split; [discriminate|reflexivity]]]].
    + exists 5%Q, 10%Q. split; [reflexivity|split; [reflexivity|left; split; [exact ly_ascending|split; [discriminate|reflexivity]]]].
  - intros l H. discriminate H.
  - intros ix t d (-> & Hd). cbn in Hd. split; [|split].
    + destruct d as [|[|d]]; [| |lia]; (split; [reflexivity|split]);
        [intros [|[|[|i]]] row H; cbn in H; try discriminate; injection H as <-; reflexivity| |intros [|[|[|i]]] row H; cbn in H; try discriminate; injection H as <-; reflexivity|];
        intros [|[|[|i]]] [|[|[|[|j]]]] row c a b H Hj _ _; cbn in H; try discriminate; injection H as <-; cbn in Hj; try discriminate; injection Hj as <-;
        ((left; split; reflexivity) || (right; split; [discriminate|eexists; split; reflexivity])).
    + intros s i1 i2 u u' j1 j2 v v' a a' b b' (xa & xb & _ & _ & _ & _ & _ & Su & _) (ya & yb & _ & _ & _ & _ & _ & Sv & _) _ _ _ _. unfold lm_field.
      assert (Eu' : (u' == 1 - u)%Q) by lra. assert (Ev' : (v' == 1 - v)%Q) by lra. rewrite Eu', Ev'. ring.
    + assert (K : forall s, In s lm_pts -> fst (place s) = 2%Q) by (intros s [<-|[<-|[]]]; reflexivity).
      intros s Hs i i' u u' j j' v v' _ (xa & xb & X1 & X2 & Nx & P1 & P2 & Su & Ep). rewrite (K s Hs) in Ep.
      assert (j <> 0 /\ j' <> 0) as [J1 J2].
      { split; intros ->; destruct Nx as [Nx|Nx]; try discriminate Nx; subst; cbn in X1, X2; injection X1 as <-; injection X2 as <-; nra. }
      unfold lm_mask. apply Nat.eqb_neq in J1, J2. rewrite J1, J2, !andb_false_r. repeat split.
Qed.
