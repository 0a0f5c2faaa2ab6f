(** Lemmas about the constant variable. *)
From Coq Require Import Reals String Lra.
From Verif Require Import Common CommonProofs DepthModel MaskModel GridTypeModel SGridModel SGridProofs SGridInterpModel SGridInterpSpec SGridInterpProofs SGridInterpProps LoadModel VariableModel VariableProofs
  ConstModel ConstSpec.
Open Scope R_scope.

Lemma placed_cell p r c : InCell r c p -> exists l m, WellPlaced const_grid (p, Some (r, c, (l, m))).
Proof.
  destruct p as [x y]. intros (Hr & Hc & Hx & Hy). cbn [fst snd] in *.
  exists ((x - (-360 + 360 * INR c)) / 360), ((y - (-89.95 + 89.95 * INR r)) / 89.95).
  unfold WellPlaced. cbn [snd fst]. 
  destruct r as [|[|r]]; [| |lia]; (destruct c as [|[|c]]; [| |lia]); cbn [INR] in *;
  (split; [split; cbn; lia|]; split; [unfold Unit; lra|]; split;
   [unfold place, cell_quad, bilin, const_grid, const_lon, const_lat; cbn [q00 q01 q10 q11 fst snd g_lon g_lat a_at nth]; f_equal; lra|];
   unfold Convex, ConvexCCW, EastAlongColumns, turn, cell_quad, const_grid, const_lon, const_lat;
   cbn [q00 q01 q10 q11 fst snd g_lon g_lat a_at nth]; split; left; repeat split; lra).
Qed.

Definition seen (v : R) (o : option (Z * Z)) : rcell := match o with None => RMask | Some _ => RVal v end.
Lemma const_grid_values v locate xy : Locates locate ->
  interpolate const_grid xy (locate xy) true false "node" (Some []) (flat2 (const_data v)) = Ok (map (seen v) (locate xy)).
Proof.
  intros L. specialize (L xy).
  assert (E : exists ps, map fst ps = xy /\ map where_ ps = locate xy /\ Forall (WellPlaced const_grid) ps).
  { induction L as [|p o l l' H L (ps & E1 & E2 & W)].
    - exists []. repeat split; constructor.
    - destruct o as [ij|].
      + destruct H as (r & c & -> & H). destruct (placed_cell p r c H) as (a & b & Wp).
        exists ((p, Some (r, c, (a, b))) :: ps). cbn [map where_ fst snd]. rewrite E1, E2. repeat split; auto.
      + exists ((p, None) :: ps). cbn [map where_ fst snd]. rewrite E1, E2. repeat split; auto. constructor; [exact I|auto]. }
  destruct E as (ps & E1 & E2 & W). rewrite <- E1 at 1. rewrite <- E2.
  rewrite (c41_affine_exact const_grid ps true "node" (const_data v) v 0 0); auto.
  - f_equal. rewrite map_map. apply map_ext. intros [p [[[r c] [a b]]|]]; cbn [snd where_ seen]; auto. f_equal. ring.
  - split; reflexivity.
  - intros i j. cbn. f_equal. ring.
Qed.
Lemma compute_eq locate v c pts u : Locates locate -> constant v = Ok c ->
  const_compute locate c pts u = Ok (map (fun o => if u then RVal v else seen v o) (locate (map lonlat pts))).
Proof.
  intros L E. cbn in E. injection E as <-. unfold const_compute. cbn [cv_order cv_grid cv_loc cv_data cv_fill].
  change (mkNvar [] (fun _ : list nat => const_data v)) with (flat2 (const_data v)).
  change (s_name SNode) with "node"%string. rewrite const_grid_values by auto. cbn [bind]. f_equal. destruct u; auto.
  rewrite map_map. apply map_ext. intros [|]; reflexivity.
Qed.

(** Cache keys. *)
Lemma list_reqb_iff a b : list_reqb a b = true <-> a = b.
Proof.
  revert b. induction a as [|x a IH]; intros [|y b]; cbn; split; intros H; try discriminate; auto.
  - apply andb_true_iff in H as [H1 H2]. unfold reqb in H1. destruct (Req_EM_T x y); [|discriminate]. apply IH in H2. congruence.
  - injection H as -> ->. unfold reqb. destruct (Req_EM_T y y); [|congruence]. now apply IH.
Qed.
Lemma ckey_eqb_iff a b : ckey_eqb a b = true <-> a = b.
Proof.
  unfold ckey_eqb. rewrite andb_true_iff, list_reqb_iff. destruct a as [a t], b as [b s]. cbn [fst snd].
  destruct t as [t|], s as [s|]; cbn [time_eqb]; rewrite ?Z.eqb_eq; split; try (intros [-> ?]; congruence); try (intros H; injection H as -> ->; auto); try congruence.
  intros H. injection H as ->. auto.
Qed.
Lemma memo_get_in d k (v : list rcell) : memo_get ckey_eqb d k = Some v -> In (k, v) d.
Proof.
  induction d as [|[k' v'] d IH]; cbn; [discriminate|]. destruct (ckey_eqb k' k) eqn:E; auto.
  intros H. injection H as ->. apply ckey_eqb_iff in E as ->. now left.
Qed.
Lemma memo_put_in d k v k0 (v0 : list rcell) : In (k0, v0) (memo_put ckey_eqb d k v) -> In (k0, v0) d \/ (k0, v0) = (k, v).
Proof.
  induction d as [|[k' v'] d IH]; cbn.
  - intros [<-|[]]. auto.
  - destruct (ckey_eqb k' k) eqn:E; cbn.
    + apply ckey_eqb_iff in E as ->. intros [<-|H]; auto.
    + intros [<-|H]; auto. apply IH in H as [H|H]; auto.
Qed.
Lemma memo_store_in cap d k v k0 (v0 : list rcell) : In (k0, v0) (memo_store ckey_eqb cap d k v) -> In (k0, v0) d \/ (k0, v0) = (k, v).
Proof.
  intros H. apply memo_put_in in H as [H|H]; auto. left. destruct (Nat.ltb cap (length d)); auto. destruct d; cbn in *; auto.
Qed.
