(** C86: the constant variable. *)
From Coq Require Import Reals String Lra.
From Verif Require Import Common CommonProofs DepthModel MaskModel GridTypeModel SGridModel SGridInterpModel SGridInterpSpec LoadModel VariableModel VariableProofs
  ConstModel ConstSpec ConstProofs.
Open Scope R_scope.

(** It can always be built, on the nodes of its grid. *)
Theorem c86_built : forall v, exists c, constant v = Ok c /\ cv_loc c = "node"%string /\ cv_order c = [DLon; DLat] /\ cv_fill c = v /\
  (forall i j, (i < 3)%nat -> (j < 3)%nat -> a_at (cv_data c) i j = mkRd v false) /\
  (a_r (cv_data c), a_c (cv_data c)) = (3%nat, 3%nat) /\
  (forall i j, (i < 3)%nat -> (j < 3)%nat ->
     a_at (g_lon (cv_grid c)) i j = -360 + 360 * INR j /\ a_at (g_lat (cv_grid c)) i j = -89.95 + 89.95 * INR i).
Proof.
  intros v. eexists. split; [reflexivity|]. do 3 (split; [reflexivity|]). split; [reflexivity|]. split; [reflexivity|].
  intros i j Hi Hj. cbn [cv_grid const_grid g_lon g_lat a_at]. unfold const_lon, const_lat.
  destruct i as [|[|[|]]]; try lia; destruct j as [|[|[|]]]; try lia; cbn [nth INR]; split; lra.
Qed.
Print Assumptions c86_built.

(** Inside the box every value is the constant, whatever the depths. *)
Theorem c86_inside : forall locate v c pts unmask, Locates locate -> constant v = Ok c -> Forall InsideRow pts ->
  const_compute locate c pts unmask = Ok (map (fun _ => RVal v) pts).
Proof.
  intros locate v c pts u L E H. rewrite (compute_eq locate v c pts u L E). f_equal. specialize (L (map lonlat pts)).
  revert L. generalize (locate (map lonlat pts)). induction H as [|row pts Hr H IH]; intros os L; cbn [map] in L; inversion L as [|? o ? os' Ho L']; subst; auto.
  cbn [map]. f_equal; auto. destruct o; [destruct u; reflexivity|]. now destruct Ho.
Qed.
Print Assumptions c86_inside.

(** Filled answers are the constant everywhere. *)
Theorem c86_unmasked : forall locate v c pts, Locates locate -> constant v = Ok c ->
  const_compute locate c pts true = Ok (map (fun _ => RVal v) pts).
Proof.
  intros locate v c pts L E. rewrite (compute_eq locate v c pts true L E). f_equal. specialize (L (map lonlat pts)).
  revert L. generalize (locate (map lonlat pts)).
  induction pts as [|row pts IH]; intros os L; cbn [map] in L; inversion L as [|? o ? os' Ho L']; subst; cbn [map]; auto. f_equal. now apply IH.
Qed.
Print Assumptions c86_unmasked.

(** Otherwise the points outside are masked, the poles among them. *)
Theorem c86_outside_masked : forall locate v c pts, Locates locate -> constant v = Ok c ->
  exists l, const_compute locate c pts false = Ok l /\ length l = length pts /\
  forall i row, nth_error pts i = Some row ->
    (InsideRow row -> nth_error l i = Some (RVal v)) /\
    ((nth 0 row 0 < -360 \/ 360 < nth 0 row 0 \/ nth 1 row 0 < -89.95 \/ 89.95 < nth 1 row 0) -> nth_error l i = Some RMask).
Proof.
  intros locate v c pts L E. rewrite (compute_eq locate v c pts false L E). eexists. split; [reflexivity|]. specialize (L (map lonlat pts)).
  revert L. generalize (locate (map lonlat pts)). induction pts as [|row pts IH]; intros os L; cbn [map] in L; inversion L as [|? o ? os' Ho L']; subst.
  - split; auto. intros [|i] row; discriminate.
  - destruct (IH os' L') as [Ll N]. cbn [map length]. split; [lia|]. intros [|i] q Hq; cbn [nth_error] in *; [|now apply N].
    injection Hq as <-. destruct o as [ij|]; cbn [seen]; split; auto.
    + destruct Ho as (r & k & -> & Hr & Hc & Hx & Hy). unfold lonlat in *. cbn [fst snd] in *. intros X. exfalso.
      assert (Ir : 0 <= INR r <= 1) by (destruct r as [|[|]]; [cbn; lra|cbn; lra|lia]).
      assert (Ic : 0 <= INR k <= 1) by (destruct k as [|[|]]; [cbn; lra|cbn; lra|lia]). lra.
    + intros X. now destruct Ho.
Qed.
Print Assumptions c86_outside_masked.
(** "The result will return a constant value for all times and places": not at
    the poles, where the answer is masked. *)
Theorem c86_poles_refuted : exists row, -180 <= nth 0 row 0 <= 180 /\ -90 <= nth 1 row 0 <= 90 /\
  forall locate v c, Locates locate -> constant v = Ok c -> const_compute locate c [row] false = Ok [RMask].
Proof.
  exists [0; 90]. cbn [nth]. split; [lra|]. split; [lra|]. intros locate v c L E.
  destruct (c86_outside_masked locate v c [[0; 90]] L E) as (l & El & Hl & N). rewrite El. destruct l as [|x [|]]; try discriminate.
  destruct (N 0%nat [0; 90] eq_refl) as [_ M]. cbn [nth nth_error] in M. injection M as ->; [reflexivity|]. lra.
Qed.
Print Assumptions c86_poles_refuted.

(** Whatever was asked before, at whatever times, with or without the cache: as
    long as all points have the same number of coordinates the answers are the
    constant inside the box, and the constant or masked outside.  If all requests
    ask for filled arrays they are the constant everywhere. *)
Definition Answer (v : R) (q : creq) (a : result (list rcell)) : Prop :=
  exists l, a = Ok l /\ length l = length (cr_pts q) /\
  forall i row x, nth_error (cr_pts q) i = Some row -> nth_error l i = Some x -> x = RVal v \/ (x = RMask /\ ~ InsideRow row).
Lemma answers_of locate v pts (u : bool) : Locates locate ->
  let l := map (fun o => if u then RVal v else seen v o) (locate (map lonlat pts)) in
  length l = length pts /\ (forall i row x, nth_error pts i = Some row -> nth_error l i = Some x -> x = RVal v \/ (x = RMask /\ ~ InsideRow row)) /\
  (u = true -> l = map (fun _ => RVal v) pts).
Proof.
  intros L. specialize (L (map lonlat pts)). cbv zeta. revert L. generalize (locate (map lonlat pts)).
  induction pts as [|row pts IH]; intros os L; cbn [map] in L; inversion L as [|? o ? os' Ho L']; subst.
  - repeat split; auto. intros [|i] row x; discriminate.
  - destruct (IH os' L') as (Ll & N & U). cbn [map length]. split; [lia|]. split.
    + intros [|i] q x Hq Hx; cbn [nth_error] in *; [|now apply (N i q)]. injection Hq as <-. injection Hx as <-.
      destruct u; auto. destruct o; cbn [seen]; auto.
    + intros ->. rewrite U; auto.
Qed.
Definition kept (locate : list (R * R) -> list (option (Z * Z))) (v : R) (w : nat) (U : bool -> Prop) (d : cmemo) : Prop :=
  forall k l, In (k, l) d -> exists (pts : list (list R)) (t : option Z) (u : bool), k = (concat pts, t) /\ Forall (fun r => length r = w) pts /\ U u /\
    l = map (fun o => if u then RVal v else seen v o) (locate (map lonlat pts)).
Lemma run_kept locate v c w (U : bool -> Prop) : Locates locate -> constant v = Ok c -> (0 < w)%nat ->
  forall qs d, kept locate v w U d -> Forall (fun q => Forall (fun r => length r = w) (cr_pts q) /\ U (cr_unmask q)) qs ->
  Forall2 (fun q a => exists u : bool, U u /\ a = Ok (map (fun o => if u then RVal v else seen v o) (locate (map lonlat (cr_pts q))))) qs (const_run locate c d qs).
Proof.
  intros L E W. induction qs as [|q qs IH]; intros d K F; cbn [const_run]; [constructor|].
  inversion F as [|? ? [Fw Fu] F']; subst. unfold const_step.
  destruct (if cr_mem q then memo_get ckey_eqb d (key_of q) else None) as [l|] eqn:G.
  - destruct (cr_mem q); [|discriminate]. apply memo_get_in in G. destruct (K _ _ G) as (pts & t & u & Ek & Hw & Hu & El).
    unfold key_of in Ek. injection Ek as Ek _. apply (concat_inj w) in Ek; auto. subst pts. constructor; [exists u; split; [auto|congruence]|now apply IH].
  - rewrite (compute_eq locate v c _ _ L E). constructor; [eauto|]. apply IH; auto. destruct (cr_mem q); auto.
    intros k l H. apply memo_store_in in H as [H|H]; [now apply K|]. injection H as -> ->. unfold key_of. eauto 10.
Qed.
Theorem c86_history : forall locate v c w qs, Locates locate -> constant v = Ok c -> (0 < w)%nat ->
  Forall (fun q => Forall (fun r => length r = w) (cr_pts q)) qs ->
  Forall2 (Answer v) qs (const_run locate c [] qs) /\
  (Forall (fun q => cr_unmask q = true) qs -> const_run locate c [] qs = map (fun q => Ok (map (fun _ : list R => RVal v) (cr_pts q))) qs).
Proof.
  intros locate v c w qs L E W F. split.
  - assert (K : Forall2 (fun q a => exists u : bool, True /\ a = Ok (map (fun o => if u then RVal v else seen v o) (locate (map lonlat (cr_pts q))))) qs (const_run locate c [] qs)).
    { apply (run_kept locate v c w (fun _ => True)); auto; [intros k l []|]. eapply Forall_impl; [|exact F]. cbn. auto. }
    clear F. induction K as [|q a qs' as' (u & _ & ->) K IH]; constructor; auto.
    destruct (answers_of locate v (cr_pts q) u L) as (A & B & _). eexists. split; [reflexivity|]. auto.
  - intros F2. assert (K : Forall2 (fun q a => exists u, u = true /\ a = Ok (map (fun o => if u then RVal v else seen v o) (locate (map lonlat (cr_pts q))))) qs (const_run locate c [] qs)).
    { apply (run_kept locate v c w (fun u => u = true)); auto; [intros k l []|]. clear - F F2. induction F; constructor; inversion F2; subst; auto. }
    clear F F2. induction K as [|q a qs' as' (u & -> & ->) K IH]; cbn [map]; auto. f_equal; auto. f_equal.
    apply (answers_of locate v (cr_pts q) true L). reflexivity.
Qed.
Print Assumptions c86_history.

(** The cache keeps no note of [unmask]: a filled array asked for after a masked
    one is masked. *)
Lemma twice locate v c p t u u' : Locates locate -> constant v = Ok c ->
  const_run locate c [] [mkCreq [p] t u true; mkCreq [p] t u' true] = let a := const_compute locate c [p] u in [a; a].
Proof.
  intros L E. unfold const_run, const_step. cbn [cr_mem memo_get cr_pts cr_unmask]. rewrite (compute_eq locate v c _ u L E).
  unfold memo_store. cbn [length Nat.ltb Nat.leb var_memo_cap]. cbn [memo_put memo_get key_of cr_pts cr_time].
  rewrite (proj2 (ckey_eqb_iff _ _) eq_refl). reflexivity.
Qed.
Theorem c86_unmask_cached_refuted : exists p, forall locate v c, Locates locate -> constant v = Ok c ->
  const_run locate c [] [mkCreq [p] None false true; mkCreq [p] None true true] = [Ok [RMask]; Ok [RMask]] /\
  const_run locate c [] [mkCreq [p] None true true] = [Ok [RVal v]].
Proof.
  destruct c86_poles_refuted as (p & _ & _ & M). exists p. intros locate v c L E. split.
  - rewrite (twice locate v) by auto. cbv zeta. now rewrite (M locate v c L E).
  - unfold const_run, const_step. cbn [cr_mem memo_get cr_pts cr_unmask]. now rewrite (c86_unmasked locate v c [p] L E).
Qed.
Print Assumptions c86_unmask_cached_refuted.
(** Nor of the number of coordinates: two points with depths, asked for after
    three without of the same six numbers, get three values. *)
Theorem c86_columns_refuted : forall locate v c, Locates locate -> constant v = Ok c ->
  exists pts pts', length pts = 3%nat /\ length pts' = 2%nat /\ Forall InsideRow pts' /\
  const_run locate c [] [mkCreq pts None false true; mkCreq pts' None false true] = [Ok [RVal v; RVal v; RVal v]; Ok [RVal v; RVal v; RVal v]].
Proof.
  intros locate v c L E. exists [[1; 2]; [3; 4]; [5; 6]], [[1; 2; 3]; [4; 5; 6]]. split; [reflexivity|]. split; [reflexivity|].
  split; [repeat constructor; cbn; lra|].
  unfold const_run, const_step. cbn [cr_mem memo_get cr_pts cr_unmask].
  rewrite (c86_inside locate v c [[1; 2]; [3; 4]; [5; 6]] false L E) by (repeat constructor; cbn; lra).
  unfold memo_store. cbn [length Nat.ltb Nat.leb var_memo_cap]. unfold key_of. cbn [memo_put memo_get cr_pts cr_time concat app].
  rewrite (proj2 (ckey_eqb_iff _ _) eq_refl). reflexivity.
Qed.
Print Assumptions c86_columns_refuted.

(** There are such searches. *)
Definition demo_cell (p : R * R) : option (Z * Z) :=
  if Rlt_dec (fst p) (-360) then None else if Rlt_dec 360 (fst p) then None
  else if Rlt_dec (snd p) (-89.95) then None else if Rlt_dec 89.95 (snd p) then None
  else Some (if Rle_dec 0 (snd p) then 1 else 0, if Rle_dec 0 (fst p) then 1 else 0)%Z.
Lemma demo_locates : Locates (map demo_cell).
Proof.
  intros pts. induction pts as [|[x y] pts IH]; cbn [map]; constructor; auto. unfold demo_cell. cbn [fst snd].
  repeat match goal with |- context [Rlt_dec ?a ?b] => destruct (Rlt_dec a b); [unfold Inside; cbn [fst snd]; lra|] end.
  exists (if Rle_dec 0 y then 1 else 0)%nat, (if Rle_dec 0 x then 1 else 0)%nat. unfold InCell. cbn [fst snd].
  destruct (Rle_dec 0 y), (Rle_dec 0 x); cbn [INR]; repeat split; try lia; try lra.
Qed.
Example c86_demo : exists c, constant 7 = Ok c /\
  const_compute (map demo_cell) c [[-122.5; 45]; [0; 0]; [359; -89]] false = Ok [RVal 7; RVal 7; RVal 7] /\
  const_compute (map demo_cell) c [[-122.5; 45; 10]; [0; 90; 3]; [400; 2; 4]] true = Ok [RVal 7; RVal 7; RVal 7].
Proof.
  eexists. split; [reflexivity|]. split.
  - rewrite (c86_inside _ 7); [reflexivity|apply demo_locates|reflexivity|repeat constructor; cbn; lra].
  - rewrite (c86_unmasked _ 7); [reflexivity|apply demo_locates|reflexivity].
Qed.
