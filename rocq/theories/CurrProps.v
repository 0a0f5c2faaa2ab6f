(** C101: currents on a staggered grid. *)
From Coq Require Import Reals String Lia.
From Verif Require Import Common CommonProofs TimeModel TimeSpec TimeProofs VariableModel VariableSpec VariableProofs DepthModel DepthSpec WholeModel WholeSpec WholeProofs MaskModel GridTypeModel
  SGridModel SGridSpec SGridInterpModel SGridInterpSpec SGridInterpRun SGridInterpProps SWholeModel SWholeSpec SWholeProofs SWholeProps RTerrModel RTerrSpec VVarModel VVarSpec VVarProofs VVarProps CurrModel CurrSpec CurrProofs.
Open Scope list_scope.
Open Scope nat_scope.

(** In every history of queries the vector answers the current at the points and
    the time asked: one column for each direction.  Nothing it or its components
    remember, and no query in between that fails, changes this. *)
Theorem c101_session :
  forall g p1 p2 cp find place_of w u v k o ops, Staggered g p1 p2 cp u v -> 0 < k ->
  Forall (Asks g p1 p2 cp find place_of w u v k o) ops ->
  Forall2 (Answered g p1 p2 cp place_of w u v) ops (answers g find w [u; v] ops).
Proof.
  intros g p1 p2 cp find place_of w u v k o ops HG Hk HO.
  assert (T : Forall2 (AnswersFrom (part_at g find w) [u; v]) ops (answers g find w [u; v] ops)).
  { apply (c72_transparent_partial _ _ (part_at g find w) k o [u; v] ops Hk). eapply Forall_impl; [|exact HO]. intros op H.
    destruct op as [mem r|i [r|d]]; cbn in H |- *; [| |exact H]; split; try apply H; apply Forall_forall; apply H. }
  clear Hk. induction T as [|op a ops as_ H _ IH]; [constructor|]. inversion HO as [|? ? H1 H2]; subst. constructor; [|now apply IH].
  destruct op as [mem r|i op]; cbn in *; [|exact H]. destruct H as (b & -> & HC). exists b. split; [reflexivity|].
  destruct H1 as (_ & _ & (c & Hc) & HF). assert (U : forall b', Current g p1 p2 cp place_of w u v r b' -> b' = b) by (intros b' Hb'; symmetry; exact (both_answer g p1 p2 cp find place_of w u v r b b' HG HF HC Hb')).
  split; [|exact U]. now rewrite <- (U c Hc).
Qed.
Print Assumptions c101_session.

(** The speed through a side is the same seen from the two cells on it: the current
    does not jump across the side in the direction that crosses it. *)
Theorem c101_continuous :
  forall g p1 p2 cp F m r c l b, MaskCovers g cp ->
  (IsCell (a_r (g_lon g)) (a_c (g_lon g)) r (S c) -> u_at g p1 cp (Some F) m (Some (r, c, (1%R, b))) = u_at g p1 cp (Some F) m (Some (r, S c, (0%R, b)))) /\
  (IsCell (a_r (g_lon g)) (a_c (g_lon g)) (S r) c -> v_at g p2 cp (Some F) m (Some (r, c, (l, 1%R))) = v_at g p2 cp (Some F) m (Some (S r, c, (l, 0%R)))).
Proof.
  intros g p1 p2 cp F m r c l b HM. unfold MaskCovers in HM. split; intros (C1 & C2); unfold u_at, v_at; f_equal.
  - transitivity (u_out g p1 cp F m r c); [ring|]. transitivity (u_in g p1 cp F m r (S c)); [|ring].
    unfold u_in, u_out, through, dry, dry_before, dry_after, next_in, cm_shape. rewrite !Nat.add_succ_r. destruct (g_cmask g) as [[kd mm]|] eqn:E.
    + cbn [snd]. match goal with |- context [Nat.min ?x ?y] => replace (Nat.min x y) with (S (low_extra (snd cp) + c)) by lia end.
      replace (S (low_extra (snd cp) + c) - 1) with (low_extra (snd cp) + c) by lia. rewrite xorb_comm. reflexivity.
    + unfold land. rewrite E. reflexivity.
  - transitivity (v_out g p2 cp F m r c); [ring|]. transitivity (v_in g p2 cp F m (S r) c); [|ring].
    unfold v_in, v_out, through, dry, dry_below, dry_above, next_in, cm_shape. rewrite !Nat.add_succ_r. destruct (g_cmask g) as [[kd mm]|] eqn:E.
    + cbn [fst]. match goal with |- context [Nat.min ?x ?y] => replace (Nat.min x y) with (S (low_extra (fst cp) + r)) by lia end.
      replace (S (low_extra (fst cp) + r) - 1) with (low_extra (fst cp) + r) by lia. rewrite xorb_comm. reflexivity.
    + unfold land. rewrite E. reflexivity.
Qed.
Print Assumptions c101_continuous.

(** Nothing flows through a coast. *)
Theorem c101_coast :
  forall g p1 p2 cp F m r c l b,
  (dry g cp r c <> dry_before g cp r c -> u_at g p1 cp (Some F) m (Some (r, c, (0%R, b))) = RVal 0) /\
  (dry g cp r c <> dry_after g cp r c -> u_at g p1 cp (Some F) m (Some (r, c, (1%R, b))) = RVal 0) /\
  (dry g cp r c <> dry_below g cp r c -> v_at g p2 cp (Some F) m (Some (r, c, (l, 0%R))) = RVal 0) /\
  (dry g cp r c <> dry_above g cp r c -> v_at g p2 cp (Some F) m (Some (r, c, (l, 1%R))) = RVal 0).
Proof.
  assert (X : forall F m i j (x y : bool), x <> y -> through F m i j x y = 0%R).
  { intros F m i j x y N. unfold through. destruct x, y; try congruence; cbn; now rewrite orb_true_r. }
  intros. unfold u_at, v_at, u_in, u_out, v_in, v_out. repeat split; intros N; rewrite (X _ _ _ _ _ _ N); f_equal; ring.
Qed.
Print Assumptions c101_coast.

(** Inside a cell the current spreads as much as the four sides say: through every
    rectangle of the cell's own coordinates flows its share of what leaves the
    cell.  Where nothing is lost or gained in the data, nothing is in the answers. *)
Theorem c101_flux :
  forall g p1 p2 cp F mu G mv r c l1 l2 b1 b2 x1 x2 y1 y2,
  u_at g p1 cp (Some F) mu (Some (r, c, (l1, b1))) = RVal x1 -> u_at g p1 cp (Some F) mu (Some (r, c, (l2, b2))) = RVal x2 ->
  v_at g p2 cp (Some G) mv (Some (r, c, (l1, b1))) = RVal y1 -> v_at g p2 cp (Some G) mv (Some (r, c, (l2, b2))) = RVal y2 ->
  let gain := (u_out g p1 cp F mu r c - u_in g p1 cp F mu r c + (v_out g p2 cp G mv r c - v_in g p2 cp G mv r c))%R in
  ((x2 - x1) * (b2 - b1) + (y2 - y1) * (l2 - l1) = (l2 - l1) * (b2 - b1) * gain)%R.
Proof.
  intros g p1 p2 cp F mu G mv r c l1 l2 b1 b2 x1 x2 y1 y2 A B C D gain. unfold u_at, v_at in *.
  injection A as <-. injection B as <-. injection C as <-. injection D as <-. unfold gain. ring.
Qed.
Print Assumptions c101_flux.

(** The speeds stay between those of the two sides; over water the same everywhere
    they are answered as they are. *)
Theorem c101_bounds :
  forall g p1 p2 cp F m r c l b lo hi, Unit l b ->
  ((lo <= u_in g p1 cp F m r c <= hi)%R -> (lo <= u_out g p1 cp F m r c <= hi)%R ->
   exists x, u_at g p1 cp (Some F) m (Some (r, c, (l, b))) = RVal x /\ (lo <= x <= hi)%R) /\
  ((lo <= v_in g p2 cp F m r c <= hi)%R -> (lo <= v_out g p2 cp F m r c <= hi)%R ->
   exists x, v_at g p2 cp (Some F) m (Some (r, c, (l, b))) = RVal x /\ (lo <= x <= hi)%R).
Proof.
  assert (M : forall t u v lo hi, (0 <= t <= 1 -> lo <= u <= hi -> lo <= v <= hi -> lo <= (1 - t) * u + t * v <= hi)%R).
  { intros t u v lo hi Ht Hu Hv. assert (0 <= (1 - t) * (u - lo))%R by (apply Rmult_le_pos; Lra.lra). assert (0 <= t * (v - lo))%R by (apply Rmult_le_pos; Lra.lra).
    assert (0 <= (1 - t) * (hi - u))%R by (apply Rmult_le_pos; Lra.lra). assert (0 <= t * (hi - v))%R by (apply Rmult_le_pos; Lra.lra). Lra.lra. }
  intros g p1 p2 cp F m r c l b lo hi (Hl & Hb). split; intros A B; (eexists; split; [reflexivity|apply M; assumption]).
Qed.
Print Assumptions c101_bounds.
Theorem c101_uniform :
  forall g p1 p2 cp F m r c l b x, (forall i j, F i j = x) -> (forall i j, m i j = false) -> (forall i j, land g i j = false) ->
  u_at g p1 cp (Some F) m (Some (r, c, (l, b))) = RVal x /\ v_at g p2 cp (Some F) m (Some (r, c, (l, b))) = RVal x.
Proof.
  intros g p1 p2 cp F m r c l b x HF Hm Hd. unfold u_at, v_at, u_in, u_out, v_in, v_out, through, dry, dry_before, dry_after, dry_below, dry_above.
  rewrite !Hm, !Hd, !HF. cbn [xorb orb]. split; f_equal; ring.
Qed.
Print Assumptions c101_uniform.

(** Where there is no depth axis two numbers say as much as three; where there is
    one they do not do.  An odd option extrapolates. *)
Theorem c101_points :
  forall g find w c r,
  (w = Flat -> part_at g find w c r = part_at g find w c (mkReq (map (fun row => match row with [x; y] => [x; y; 0%Q] | _ => row end) (rq_pts r)) (rq_time r) (rq_opts r))) /\
  (w <> Flat -> forall x y rows, rq_pts r = [x; y] :: rows -> part_at g find w c r = Err RuntimeError).
Proof.
  intros g find w c r. split.
  - intros ->. unfold part_at. cbn [rq_pts rq_time rq_opts deep]. unfold extrapolating. cbn [rq_opts]. f_equal. induction (rq_pts r) as [|row rows IH]; [reflexivity|]. cbn [map mapM]. rewrite IH.
    assert (spot_of false row = spot_of false (match row with [x; y] => [x; y; 0%Q] | _ => row end)) as -> by (destruct row as [|x [|y [|d [|? ?]]]]; reflexivity). reflexivity.
  - intros N x y rows E. unfold part_at. rewrite E. cbn [mapM spot_of]. destruct w; [contradiction| |]; reflexivity.
Qed.
Print Assumptions c101_points.
Theorem c101_options : forall r, extrapolating r = true <-> exists k, rq_opts r = 2 * k + 1.
Proof. intros r. unfold extrapolating. rewrite Nat.odd_spec. reflexivity. Qed.
Print Assumptions c101_options.

(** Two by two cells, one of them land; both components on three levels at two
    times.  The second query is too late, the third finds the first in the cache. *)
Definition c101_g : sg := mkSg (SGridModel.mkArr 3 3 ex_lon) (SGridModel.mkArr 3 3 ex_lat) ex_pads
  (Some (MPlain, SGridModel.mkArr 2 2 (fun i j => mkM (if (i =? 1)%nat && (j =? 1)%nat then 1%Z else 0%Z) false))) BZero.
Definition c101_place (p : R * R) : option (nat * nat * (R * R)) :=
  if Req_EM_T (fst p) (Q2R (9 # 10)) then Some (0, 0, (18/39, 1/5)%R)
  else if Req_EM_T (fst p) (Q2R (11 # 4)) then Some (1, 1, (1/2, 0)%R) else None.
Definition c101_find (p : R * R) : option (Z * Z) := where_ (p, c101_place p).
Definition c101_u (t : Z) (d : Q) (i j : nat) : R := (IZR t + 3 * Q2R d + INR j + 2 * INR i)%R.
Definition c101_v (t : Z) (d : Q) (i j : nat) : R := (IZR t + 3 * Q2R d + 2 * INR j + INR i)%R.
Definition c101_w : vertical := Levels c98_levels 3 DepthModel.BMask DepthModel.BMask.
Definition c101_part (loc : string) f := mkPart loc (c98_var f) 3 3 (Some c98_time).
Definition c101_req (t : Z) : request := mkReq [[9#10; 1#5; 2]; [100; 100; 2]; [11#4; 1; 3]]%Q t 0.

Lemma c101_v1 : Q2R (9 # 10) = (9/10)%R. Proof. unfold Q2R. cbn. field. Qed.
Lemma c101_v2 : Q2R (11 # 4) = (11/4)%R. Proof. unfold Q2R. cbn. field. Qed.
Lemma c101_v3 : Q2R (1 # 5) = (1/5)%R. Proof. unfold Q2R. cbn. field. Qed.
Lemma c101_v4 n : Q2R (inject_Z n) = IZR n. Proof. unfold Q2R. cbn. field. Qed.
Definition c101_pts : list rspot := [((Q2R (9#10), Q2R (1#5)), 2%Q); ((Q2R 100, Q2R 100), 2%Q); ((Q2R (11#4), Q2R 1), 3%Q)].
Lemma c101_places : map (fun s : rspot => c101_place (fst s)) c101_pts = [Some (0, 0, (18/39, 1/5)%R); None; Some (1, 1, (1/2, 0)%R)].
Proof.
  unfold c101_pts, c101_place. cbn [map fst]. change 100%Q with (inject_Z 100). rewrite c101_v1, c101_v2, c101_v4.
  destruct (Req_EM_T (9/10) (9/10)) as [_|NN]; [|exfalso; apply NN; reflexivity].
  destruct (Req_EM_T 100 (9/10)) as [?|?]; [exfalso; Lra.lra|]. destruct (Req_EM_T 100 (11/4)) as [?|?]; [exfalso; Lra.lra|].
  destruct (Req_EM_T (11/4) (9/10)) as [?|?]; [exfalso; Lra.lra|]. destruct (Req_EM_T (11/4) (11/4)) as [_|NN]; [|exfalso; apply NN; reflexivity]. reflexivity.
Qed.
Lemma c101_found : Finds c101_g c101_find c101_place (map fst c101_pts).
Proof.
  intros p Hp. split; [reflexivity|]. pose proof ex_placed as W. unfold ex_ps in W. inversion W as [|? ? W1 W2]; subst. inversion W2 as [|? ? _ W3]; subst. inversion W3 as [|? ? W4 _]; subst.
  pose proof c101_places as E. unfold c101_pts in E, Hp. cbn [map fst] in E, Hp. injection E as E1 E2 E3. unfold WellPlaced. cbn [snd fst].
  destruct Hp as [<-|[<-|[<-|[]]]]; cbn [fst] in *; [rewrite E1|rewrite E2; exact I|rewrite E3].
  - rewrite c101_v1, c101_v3. exact W1.
  - rewrite c101_v2. change 1%Q with (inject_Z 1). rewrite c101_v4. exact W4.
Qed.
Lemma c101_rows t : Forall2 (Row true) (rq_pts (c101_req t)) c101_pts.
Proof. unfold c101_req, c101_pts. cbn [rq_pts]. repeat (apply Forall2_cons || apply Forall2_nil); left; eexists _, _, _; split; reflexivity. Qed.
Lemma c101_staggered : Staggered c101_g (PadNone, PadNone) (PadNone, PadNone) (PadNone, PadNone) (c101_part "edge1" c101_u) (c101_part "edge2" c101_v).
Proof. unfold Staggered. repeat split; try reflexivity; try discriminate; cbn; lia. Qed.
Lemma c101_holding loc f : (forall d i j, exists k, forall t, f t d i j = (k + IZR t)%R) -> (forall t i j, exists a b, forall d, f t d i j = (a + b * Q2R d)%R) ->
  Holding c101_g c101_place c101_w (c101_part loc f) 5 false c101_pts (fun s => Some (f 5%Z (snd s))) (fun _ _ => false).
Proof.
  intros H1 H2. apply (HoldsLevels _ _ _ _ _ _ _ c98_levels DepthModel.BMask DepthModel.BMask f (fun _ _ => false) 5 snd); [reflexivity| | |apply c98_time_ok|cbn; lia|left; apply c98_asc|].
  - apply (c98_holds f H1).
  - intros t i j _. destruct (H2 t i j) as (a & b & E). now apply (c98_linear _ a b).
  - intros s Hs. apply (in_layer_asked _ _ _ _ 0); [cbn; lia|]. exists 0%Q, 4%Q. split; [reflexivity|]. split; [reflexivity|]. left. split; [apply c98_asc|].
    cbn in Hs. destruct Hs as [<-|[<-|[<-|[]]]]; cbn [snd]; split; Lqa.lra.
Qed.
Lemma c101_late : Late (c101_part "edge1" c101_u) (c101_req 11).
Proof.
  exists c98_time. split; [reflexivity|]. split; [apply (c98_time_ok _ eq_refl)|]. split; [cbn; lia|]. split; [|reflexivity].
  intros (a & b & Ha & Hb & H). injection Ha as <-. injection Hb as <-. cbn in H. lia.
Qed.
Lemma c101_now r : rq_pts r = rq_pts (c101_req 5) -> rq_time r = 5%Z -> rq_opts r = 0 -> Current c101_g (PadNone, PadNone) (PadNone, PadNone) (PadNone, PadNone) c101_place c101_w (c101_part "edge1" c101_u) (c101_part "edge2" c101_v) r
  (Ok [map (fun s => u_at c101_g (PadNone, PadNone) (PadNone, PadNone) (Some (c101_u 5 (snd s))) (fun _ _ => false) (c101_place (fst s))) c101_pts;
       map (fun s => v_at c101_g (PadNone, PadNone) (PadNone, PadNone) (Some (c101_v 5 (snd s))) (fun _ _ => false) (c101_place (fst s))) c101_pts]).
Proof.
  intros E1 E2 E3. apply (Blown c101_g (PadNone, PadNone) (PadNone, PadNone) (PadNone, PadNone) c101_place c101_w (c101_part "edge1" c101_u) (c101_part "edge2" c101_v) r c101_pts
    (fun s => Some (c101_u 5 (snd s))) (fun _ _ => false) (fun s => Some (c101_v 5 (snd s))) (fun _ _ => false)); rewrite ?E1, ?E2; unfold extrapolating; rewrite ?E3.
  - apply c101_rows.
  - apply c101_holding; unfold c101_u; [intros d i j; exists (3 * Q2R d + INR j + 2 * INR i)%R; intros; ring|intros t i j; exists (IZR t + INR j + 2 * INR i)%R, 3%R; intros; ring].
  - apply c101_holding; unfold c101_v; [intros d i j; exists (3 * Q2R d + 2 * INR j + INR i)%R; intros; ring|intros t i j; exists (IZR t + 2 * INR j + INR i)%R, 3%R; intros; ring].
Qed.
Example c101_example :
  answers c101_g c101_find c101_w [c101_part "edge1" c101_u; c101_part "edge2" c101_v]
    [VAt true (c101_req 5); VComp 0 (Call (c101_req 7)); VAt true (c101_req 11); VAt true (c101_req 5)] =
  [Some (Ok [[RVal (149/13)%R; RMask; RVal 9%R]; [RVal (56/5)%R; RMask; RVal 0%R]]); None; Some (Err OutOfTimeRangeError);
   Some (Ok [[RVal (149/13)%R; RMask; RVal 9%R]; [RVal (56/5)%R; RMask; RVal 0%R]])].
Proof.
  pose proof (c101_now (c101_req 5) eq_refl eq_refl eq_refl) as N.
  assert (L : Current c101_g (PadNone, PadNone) (PadNone, PadNone) (PadNone, PadNone) c101_place c101_w (c101_part "edge1" c101_u) (c101_part "edge2" c101_v) (c101_req 11) (Err OutOfTimeRangeError)).
  { apply (TooLate _ _ _ _ _ _ _ _ _ c101_pts); [apply c101_rows|apply c101_late]. }
  assert (Rows : forall t row, In row (rq_pts (c101_req t)) -> length row = 3) by (intros t row [<-|[<-|[<-|[]]]]; reflexivity).
  assert (Fnd : forall t pts, Forall2 (Row (deep c101_w)) (rq_pts (c101_req t)) pts -> Finds c101_g c101_find c101_place (map fst pts)).
  { intros t pts H. rewrite (spots_fun true _ _ _ H (c101_rows t)). apply c101_found. }
  assert (T := c101_session c101_g (PadNone, PadNone) (PadNone, PadNone) (PadNone, PadNone) c101_find c101_place c101_w (c101_part "edge1" c101_u) (c101_part "edge2" c101_v) 3 0
    [VAt true (c101_req 5); VComp 0 (Call (c101_req 7)); VAt true (c101_req 11); VAt true (c101_req 5)] c101_staggered ltac:(lia)).
  match type of T with ?P -> _ => assert (HO : P) end.
  { repeat apply Forall_cons; [| | | |apply Forall_nil]; cbn [Asks]; (split; [reflexivity|]); try (split; [apply Rows|]; split; [|apply Fnd]; eexists; eassumption). apply Rows. }
  specialize (T HO). clear HO.
  match goal with |- ?x = _ => set (A := x) in *; clearbody A end.
  inversion T as [|? a1 ? A1 H1 T1]; subst. inversion T1 as [|? a2 ? A2 H2 T2]; subst. inversion T2 as [|? a3 ? A3 H3 T3]; subst. inversion T3 as [|? a4 ? A4 H4 T4]; subst. inversion T4; subst. clear T T1 T2 T3 T4.
  destruct H1 as (b1 & -> & _ & U1). apply U1 in N as E1. destruct H3 as (b3 & -> & _ & U3). apply U3 in L as E3. destruct H4 as (b4 & -> & _ & U4). apply U4 in N as E4. cbn in H2. subst a2 b1 b3 b4. clear U1 U3 U4 N L.
  assert (V : (Ok [map (fun s : (R * R) * Q => u_at c101_g (PadNone, PadNone) (PadNone, PadNone) (Some (c101_u 5 (snd s))) (fun _ _ => false) (c101_place (fst s))) c101_pts;
       map (fun s : (R * R) * Q => v_at c101_g (PadNone, PadNone) (PadNone, PadNone) (Some (c101_v 5 (snd s))) (fun _ _ => false) (c101_place (fst s))) c101_pts] : result (list (list rcell))) =
     Ok [[RVal (149/13)%R; RMask; RVal 9%R]; [RVal (56/5)%R; RMask; RVal 0%R]]).
  { pose proof c101_places as P. unfold c101_pts in P |- *. cbn [map fst snd] in P |- *. injection P as P1 P2 P3. rewrite P1, P2, P3.
    unfold u_at, v_at, u_in, u_out, v_in, v_out, through, dry, dry_before, dry_after, dry_below, dry_above, land, cm_shape, next_in.
    cbn [c101_g g_cmask fst snd low_extra Nat.add Nat.sub Nat.min a_r a_c a_at convert_entry m_val Nat.eqb andb Z.eqb negb xorb orb].
    unfold c101_u, c101_v. change 2%Q with (inject_Z 2). change 3%Q with (inject_Z 3). rewrite !c101_v4. cbn [INR].
    do 2 f_equal; [|do 2 f_equal]; repeat (f_equal; try Lra.lra). }
  rewrite V. reflexivity.
Qed.
