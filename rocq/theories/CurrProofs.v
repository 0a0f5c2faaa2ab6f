(** Proofs about currents on a staggered grid. *)
From Coq Require Import Reals String Lia.
From Verif Require Import Common CommonProofs TimeModel TimeSpec TimeProofs VariableModel VariableSpec VariableProofs DepthModel DepthSpec WholeModel WholeSpec WholeProofs MaskModel GridTypeModel
  SGridModel SGridSpec SGridInterpModel SGridInterpSpec SWholeModel SWholeSpec SWholeProofs SWholeProps RTerrModel RTerrSpec RTerrProofs RTerrProps VVarModel VVarSpec VVarProofs VVarProps CurrModel CurrSpec.
Open Scope list_scope.
Open Scope nat_scope.

Lemma spots_of d rows pts : Forall2 (Row d) rows pts -> mapM (spot_of d) rows = Ok pts.
Proof.
  induction 1 as [|row s rows pts H _ IH]; [reflexivity|]. cbn [mapM].
  assert (spot_of d row = Ok s) as -> by (destruct H as [(x & y & z & -> & ->)|(-> & x & y & -> & ->)]; reflexivity).
  cbn [bind]. rewrite IH. reflexivity.
Qed.
Lemma spots_fun d rows pts pts' : Forall2 (Row d) rows pts -> Forall2 (Row d) rows pts' -> pts = pts'.
Proof. intros H1 H2. apply spots_of in H1, H2. congruence. Qed.

Section One.
  Context (g : sg) (find : R * R -> option (Z * Z)) (place_of : R * R -> option (nat * nat * (R * R))) (w : vertical) (c : component) (expct : SGridModel.arr rd -> located -> rcell)
          (HS : SameShape g) (St : Sits g (p_loc c) (p_nr c) (p_nc c) false expct).
  (** A component with its data. *)
  Lemma part_holds r pts h m : Forall2 (Row (deep w)) (rq_pts r) pts -> Finds g find place_of (map fst pts) ->
    Holding g place_of w c (rq_time r) (extrapolating r) pts h m ->
    part_at g find w c r = Ok (map (fun s => match h s with Some F => expct (snap (p_nr c) (p_nc c) F m) (fst s, place_of (fst s)) | None => RMask end) pts).
  Proof.
    intros HR HF H. unfold part_at. rewrite (spots_of _ _ _ HR). cbn [bind].
    destruct H as [f m q' -> HV HT|ls sbc bbc f m q' z -> HV HD HT HN HM HA|te n sbc bbc f m q' sit -> HV HT HC].
    - pose proof (c98_times_partial g find place_of (p_loc c) (p_nr c) (p_nc c) false expct (p_var c) (p_time c) f m (rq_time r) q' (extrapolating r) pts None HS St HF HV HT) as E.
      unfold lead_shape in E. etransitivity; [|exact E]. destruct (p_time c); reflexivity.
    - pose proof (c98_levels_partial g find place_of (p_loc c) (p_nr c) (p_nc c) expct (p_var c) (p_time c) ls f m (rq_time r) q' (extrapolating r) pts sbc bbc z HS St HF HV HD HT HN HM HA) as E.
      unfold deep_shape in E. etransitivity; [|exact E]. destruct (p_time c); reflexivity.
    - rewrite (c99_levels_partial g find place_of te (p_loc c) (p_nr c) (p_nc c) expct (p_var c) (p_time c) n f m (rq_time r) q' (extrapolating r) sbc bbc pts sit HS St HF HV HT HC).
      f_equal. apply map_ext. intros s. destruct (sit s); reflexivity.
  Qed.
End One.

Lemma a_time_late {V} (lerp : V -> V -> Q -> V) t q val sl : StrictlyIncreasing (t_data t) -> 2 <= length (t_data t) -> ~ InRange (t_data t) q ->
  a_time lerp t q false val sl = Err OutOfTimeRangeError.
Proof.
  intros SI N1 NR. assert (Ne : t_data t <> []) by (intros E; rewrite E in N1; cbn in N1; lia).
  destruct (nonempty_ends _ Ne) as (a & b & Ha & Hb). assert (L : (a <= b)%Z).
  { apply Z.lt_le_incl. apply (SI 0 (length (t_data t) - 1) a b); auto. lia. }
  unfold a_time. rewrite (min_time_first _ _ Ha). cbn [bind andb orb].
  rewrite orb_false_r. destruct (Z.eqb_spec q a) as [->|].
  - exfalso. apply NR. exists a, b. repeat split; auto; lia.
  - rewrite (max_time_last _ _ Hb). cbn [bind andb]. rewrite orb_false_r. destruct (Z.eqb_spec q b) as [->|].
    + exfalso. apply NR. exists a, b. repeat split; auto; lia.
    + rewrite index_of_err; auto. lia.
Qed.
Lemma part_late g find w c r pts : Forall2 (Row (deep w)) (rq_pts r) pts -> Late c r -> part_at g find w c r = Err OutOfTimeRangeError.
Proof.
  intros HR (t & Et & SI & N & NR & Ex). unfold part_at. rewrite (spots_of _ _ _ HR). cbn [bind]. rewrite Et, Ex. cbn [app].
  destruct w as [|ls n sbc bbc|te n sbc bbc]; unfold roms_at, stag_at, a_value, a_at_nomem; cbn [app next_is bind];
  match goal with |- context [next_is ?o ?x ?y] => destruct (next_is o x y) as [b|] eqn:E; [|vm_compute in E; discriminate] end;
  cbn [bind]; destruct b; unfold av_time; rewrite a_time_late by auto; reflexivity.
Qed.

(** The two kinds of sides. *)
Section Both.
  Context (g : sg) (p1 p2 cp : pad * pad) (u v : component) (HG : Staggered g p1 p2 cp u v).
  Lemma sits_u : Sits g (p_loc u) (p_nr u) (p_nc u) false (fun var => edge1_expected g var p1 cp).
  Proof. destruct HG as (A & B & C & D & E & F & G & H & I & J & K & L & M & N & O). apply OnEdges1; auto. Qed.
  Lemma sits_v : Sits g (p_loc v) (p_nr v) (p_nc v) false (fun var => edge2_expected g var p2 cp).
  Proof. destruct HG as (A & B & C & D & E & F & G & H & I & J & K & L & M & N & O). apply OnEdges2; auto. Qed.
End Both.
Lemma u_snap g p1 cp nr nc F m p pl : (match F with Some F => edge1_expected g (snap nr nc F m) p1 cp (p, pl) | None => RMask end) = u_at g p1 cp F m pl.
Proof.
  destruct F as [F|]; [|reflexivity]. destruct pl as [[[r c] [l b]]|]; [|reflexivity]. unfold edge1_expected, u_at, u_in, u_out, through, edge_val, dry, dry_before, dry_after. cbn [snd snap a_at d_mask d_val].
  f_equal. f_equal; f_equal; match goal with |- context [m ?i ?j] => destruct (m i j) end; reflexivity.
Qed.
Lemma v_snap g p2 cp nr nc F m p pl : (match F with Some F => edge2_expected g (snap nr nc F m) p2 cp (p, pl) | None => RMask end) = v_at g p2 cp F m pl.
Proof.
  destruct F as [F|]; [|reflexivity]. destruct pl as [[[r c] [l b]]|]; [|reflexivity]. unfold edge2_expected, v_at, v_in, v_out, through, edge_val, dry, dry_below, dry_above. cbn [snd snap a_at d_mask d_val].
  f_equal. f_equal; f_equal; match goal with |- context [m ?i ?j] => destruct (m i j) end; reflexivity.
Qed.

(** The answer of the two components is the current. *)
Lemma both_answer g p1 p2 cp find place_of w u v r a b : Staggered g p1 p2 cp u v ->
  (forall pts, Forall2 (Row (deep w)) (rq_pts r) pts -> Finds g find place_of (map fst pts)) ->
  VVarSpec.Columns (part_at g find w) r [u; v] a -> Current g p1 p2 cp place_of w u v r b -> a = b.
Proof.
  intros HG HF HA HB. apply (VVarProofs.Columns_det _ _ _ _ _ HA). clear HA a. pose proof HG as (HS & _).
  destruct HB as [pts hu mu hv mv HR Hu Hv|pts HR HL].
  - specialize (HF pts HR).
    pose proof (part_holds g find place_of w u _ HS (sits_u g p1 p2 cp u v HG) r pts hu mu HR HF Hu) as Eu.
    pose proof (part_holds g find place_of w v _ HS (sits_v g p1 p2 cp u v HG) r pts hv mv HR HF Hv) as Ev.
    constructor. repeat constructor.
    + rewrite Eu. f_equal. apply map_ext. intros s. apply u_snap.
    + rewrite Ev. f_equal. apply map_ext. intros s. apply v_snap.
  - apply (ColumnsErr _ _ [] u [v] []); [constructor|]. now apply (part_late g find w u r pts).
Qed.
