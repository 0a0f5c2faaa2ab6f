(** C58: verdat files round trip. *)
From Coq Require Import String Ascii NArith Nnat Permutation Sorted Qabs Qround Lqa.
From Verif Require Import Common CommonProofs MaskModel GridTypeModel ChainModel ChainSpec ChainProofs ChainProps
  VerdatModel VerdatText VerdatSpec VerdatProofs.
Open Scope string_scope.
Open Scope list_scope.
Open Scope Z_scope.

Lemma forall2_len {A B} (R : A -> B -> Prop) : forall l l', Forall2 R l l' -> length l = length l'.
Proof. induction 1; cbn; congruence. Qed.

Lemma save_shape : forall nodes segs d u, depth_units d = Ok u -> length (depth_data (length nodes) d) = length nodes ->
  Loops segs -> (forall a b, In (a, b) segs -> 0 <= a < Z.of_nat (length nodes)) ->
  exists cl rows rows', order_segments segs = Ok (cl, []) /\
    Permutation segs (concat (map loop_steps cl)) /\ NoDup (concat cl) /\ Forall (fun l => (2 <= length l)%nat) cl /\
    (forall x, In x (concat cl) -> 0 <= x < Z.of_nat (length nodes)) /\
    Forall2 (fun p (r : row) => nth_error nodes (Z.to_nat p) = Some (fst r) /\
                        nth_error (depth_data (length nodes) d) (Z.to_nat p) = Some (snd r))
            (write_order (length nodes) cl) rows /\
    Forall2 row_read rows rows' /\
    save_verdat nodes segs d = Ok (("DOGS " ++ u)%string
      :: map (fun r => point_line (fst r) (fst (snd r)) (snd (snd r))) (number_from 1 rows)
      ++ [point_line 0 (0, 0)%Q 0%Q; dec (N.of_nat (length cl))] ++ map (fun n => dec (N.of_nat n)) (running 0 cl)) /\
    forall lines, save_verdat nodes segs d = Ok lines ->
      load_verdat lines = Ok (mkVerdat (lower u) (map fst rows') (map snd rows') (concat (map loop_steps (canon 0 cl)))).
Proof.
  intros nodes segs d u HU HD HL HR.
  destruct (c57_loops segs HL) as (cl & HO & HP & ND & H2 & HI).
  assert (R : forall x, In x (concat cl) -> 0 <= x < Z.of_nat (length nodes)).
  { intros x I. apply HI in I. apply in_map_iff in I. destruct I as ([a b] & <- & I). eapply HR, I. }
  pose proof (order_perm (length nodes) cl ND R) as WP.
  destruct (rows_ok nodes (depth_data (length nodes) d) (write_order (length nodes) cl) HD) as (rows & RE & RF).
  { intros x I. eapply Permutation_in in I; [|exact WP]. apply in_map_iff in I. destruct I as (k & <- & I). apply in_seq in I. lia. }
  destruct (points_read rows 1 (dec (N.of_nat (length cl)) :: map (fun n => dec (N.of_nat n)) (running 0 cl)) ltac:(lia)) as (rows' & PE & PF).
  assert (S : save_verdat nodes segs d = Ok (("DOGS " ++ u)%string
      :: map (fun r => point_line (fst r) (fst (snd r)) (snd (snd r))) (number_from 1 rows)
      ++ [point_line 0 (0, 0)%Q 0%Q; dec (N.of_nat (length cl))] ++ map (fun n => dec (N.of_nat n)) (running 0 cl))).
  { unfold save_verdat. rewrite HU. cbn [bind]. rewrite HO. cbn [bind fst]. rewrite RE. reflexivity. }
  exists cl, rows, rows'. repeat (split; [assumption|]).
  intros lines SL. rewrite S in SL. injection SL as <-. unfold load_verdat.
  cbn [app]. cbn [app] in PE. rewrite PE. cbn [bind fst snd]. unfold read_count. rewrite dec_int.
  cbn [bind fst snd]. rewrite nat_N_Z, Nat2Z.id.
  change 0 with (Z.of_nat 0) at 1. rewrite bounds_read by auto. cbn [bind].
  pose proof (header_read u (units_cases _ _ HU)) as HR'. cbn [append] in HR'. rewrite HR'. reflexivity.
Qed.

(** C58: the loaded file has all the points with their depths, to the precision
    printed; the boundary points come first in loop order, the others in ascending
    order; the loaded boundary segments, in the old numbering, are the given ones. *)
Theorem c58_round_trip : forall nodes segs d u, depth_units d = Ok u ->
  length (depth_data (length nodes) d) = length nodes ->
  Loops segs -> (forall a b, In (a, b) segs -> 0 <= a < Z.of_nat (length nodes)) ->
  exists lines v perm loops others,
    save_verdat nodes segs d = Ok lines /\ load_verdat lines = Ok v /\
    order_segments segs = Ok (loops, []) /\
    map Z.of_nat perm = concat loops ++ map Z.of_nat others /\ StronglySorted lt others /\
    Permutation perm (seq 0 (length nodes)) /\
    Reordered (fun p p' => Printed 6 (fst p) (fst p') /\ Printed 6 (snd p) (snd p')) nodes perm (vd_nodes v) /\
    Reordered (Printed 3) (depth_data (length nodes) d) perm (vd_depth v) /\
    Permutation (map (relabel perm) (vd_bounds v)) segs /\
    vd_units v = lower u.
Proof.
  intros nodes segs d u HU HD HL HR.
  destruct (save_shape nodes segs d u HU HD HL HR) as (cl & rows & rows' & HO & HP & ND & H2 & R & RF & PF & S & LD).
  pose proof (order_perm (length nodes) cl ND R) as WP.
  set (others := filter (fun k => negb (existsb (Z.eqb (Z.of_nat k)) (concat cl))) (seq 0 (length nodes))).
  set (perm := map Z.to_nat (write_order (length nodes) cl)).
  assert (WO : write_order (length nodes) cl = concat cl ++ map Z.of_nat others).
  { unfold write_order. now rewrite filter_map_Z. }
  assert (PZ : map Z.of_nat perm = write_order (length nodes) cl).
  { unfold perm. rewrite map_map. rewrite <- (map_id (write_order (length nodes) cl)) at 2. apply map_ext_in.
    intros x I. eapply Permutation_in in I; [|exact WP]. apply in_map_iff in I. destruct I as (k & <- & I). lia. }
  eexists _, _, perm, cl, others. split; [exact S|]. split; [apply LD, S|]. split; [exact HO|].
  split; [congruence|]. split; [apply filter_sorted|]. split.
  { unfold perm. rewrite WP, map_map. rewrite (map_ext (fun x => Z.to_nat (Z.of_nat x)) id) by (intros; apply Nat2Z.id). now rewrite map_id. }
  cbn [vd_nodes vd_depth vd_bounds vd_units].
  assert (F3 : Forall2 (fun p (r' : row) => exists r : row, nth_error nodes (Z.to_nat p) = Some (fst r) /\
                nth_error (depth_data (length nodes) d) (Z.to_nat p) = Some (snd r) /\ row_read r r')
                (write_order (length nodes) cl) rows').
  { clear - RF PF. revert rows' PF. induction RF as [|p r l rows Hp F IH]; intros rows' PF; inversion PF; subst; constructor; auto.
    exists r. tauto. }
  split; [|split; [|split]]; [| | |reflexivity].
  - unfold Reordered, perm. clear - F3. induction F3 as [|p r' l l' (r & N1 & N2 & R1 & R2 & R3) F IH]; cbn; constructor; auto.
    exists (fst r). split; auto. split; now apply read_back_printed.
  - unfold Reordered, perm. clear - F3. induction F3 as [|p r' l l' (r & N1 & N2 & R1 & R2 & R3) F IH]; cbn; constructor; auto.
    exists (snd r). split; auto. now apply read_back_printed.
  - rewrite HP. unfold relabel.
    pose proof (relabel_canon (fun x => Z.of_nat (nth (Z.to_nat x) perm 0%nat)) cl 0) as RC.
    change (Z.of_nat 0) with 0 in RC. match goal with |- Permutation ?a ?b => enough (E : a = b) by (rewrite E; reflexivity) end.
    apply RC. clear RC.
    intros k Hk. cbn [plus]. rewrite Nat2Z.id. rewrite <- (map_nth Z.of_nat), PZ, WO. now apply app_nth1.
Qed.
Print Assumptions c58_round_trip.

(** C58: numbers that have at most the printed decimals come back exactly. *)
Theorem c58_exact : forall d q r z, Printed d q r -> (q == inject_Z z / inject_Z (10 ^ Z.of_nat d))%Q -> (r == q)%Q.
Proof.
  intros d q r z (y & Er & C) Eq. pose proof (pow10_pos d) as P. set (p := inject_Z (10 ^ Z.of_nat d)) in *.
  assert (E : (q - r == inject_Z (z - y) / p)%Q).
  { rewrite Er, Eq, inject_Z_minus_q || (unfold Z.sub; rewrite inject_Z_plus, inject_Z_opp; rewrite Er, Eq). field. lra. }
  rewrite E in C. assert (A : (Qabs (inject_Z (z - y)) <= 1 # 2)%Q).
  { unfold Qdiv in C. rewrite Qabs_Qmult, (Qabs_pos (/ p)) in C by (apply Qlt_le_weak, Qinv_lt_0_compat; exact P).
    apply Qmult_le_r in C; auto. now apply Qinv_lt_0_compat. }
  assert (D : z - y = 0).
  { apply Qabs_Qle_condition in A. destruct A as [A1 A2].
    assert (z - y < 1).
    { rewrite Zlt_Qlt. change (inject_Z 1) with 1%Q. lra. }
    assert (-1 < z - y).
    { rewrite Zlt_Qlt. change (inject_Z (-1)) with (-(1))%Q. lra. }
    lia. }
  rewrite Eq, Er. replace y with z by lia. reflexivity.
Qed.
Print Assumptions c58_exact.

(** C58: saving what was loaded writes the same file, line by line (for a variable
    with units; the model has no negative zero, so no negative number may print as
    zero). *)
Theorem c58_saved_again : forall nodes segs un data lines,
  length data = length nodes -> Loops segs -> (forall a b, In (a, b) segs -> 0 <= a < Z.of_nat (length nodes)) ->
  (forall p, In p nodes -> keeps_sign 6 (fst p) /\ keeps_sign 6 (snd p)) -> (forall z, In z data -> keeps_sign 3 z) ->
  save_verdat nodes segs (Depth un data) = Ok lines ->
  exists v, load_verdat lines = Ok v /\
    save_verdat (vd_nodes v) (vd_bounds v) (Depth (Some (vd_units v)) (vd_depth v)) = Ok lines.
Proof.
  intros nodes segs un data lines HD HL HR K1 K2 SV.
  destruct (depth_units (Depth un data)) as [u|] eqn:HU.
  2:{ unfold save_verdat in SV. rewrite HU in SV. discriminate. }
  destruct (save_shape nodes segs (Depth un data) u HU HD HL HR) as (cl & rows & rows' & HO & HP & ND & H2 & R & RF & PF & SE & LD).
  pose proof (LD _ SV) as HLD. rewrite SE in SV. injection SV as <-.
  eexists. split; [exact HLD|]. clear LD HLD. cbn [vd_nodes vd_bounds vd_units vd_depth].
  pose proof (order_perm (length nodes) cl ND R) as WP.
  assert (LN : length rows' = length nodes).
  { rewrite <- (forall2_len _ _ _ PF), <- (forall2_len _ _ _ RF), (Permutation_length WP), map_length, seq_length. reflexivity. }
  assert (LC : (length (concat cl) <= length rows')%nat).
  { pose proof (Permutation_length WP) as PL. rewrite map_length, seq_length in PL. unfold write_order in PL. rewrite app_length in PL. lia. }
  unfold save_verdat.
  assert (UU : depth_units (Depth (Some (lower u)) (map snd rows')) = Ok u).
  { assert (N : u <> "") by (intros ->; cbn in HU; destruct un; [|discriminate]; unfold units_map in HU; destruct (isin _ _); [discriminate|]; destruct (isin _ _); discriminate).
    destruct (units_cases _ _ HU) as [->|[->| ->]]; [congruence|reflexivity|reflexivity]. }
  rewrite UU. cbn [bind]. rewrite order_canon by auto. cbn [bind fst depth_data]. rewrite map_length.
  rewrite write_canon by exact LC.
  assert (MR : forall k pre l, rows' = pre ++ l -> length pre = k ->
    mapM_res (fun p => do xy <- py_get (map fst rows') p; do z <- py_get (map snd rows') p; Ok (xy, z))
             (map Z.of_nat (seq k (length l))) = Ok l).
  { intros k pre l. revert k pre. induction l as [|r l IH]; intros k pre E Lk; [reflexivity|].
    cbn [length seq map mapM_res].
    assert (G : nth_error rows' k = Some r) by (rewrite E, nth_error_app2 by lia; subst k; now rewrite Nat.sub_diag).
    rewrite (py_get_nat (map fst rows') k (fst r)), (py_get_nat (map snd rows') k (snd r)).
    2:{ now apply map_nth_error. } 2:{ now apply map_nth_error. }
    cbn [bind]. rewrite (IH (S k) (pre ++ [r])); [cbn [bind]; now destruct r|rewrite E, <- app_assoc; reflexivity|rewrite app_length; cbn; lia]. }
  pose proof (MR 0%nat [] rows' eq_refl eq_refl) as M0.
  match goal with |- bind ?m ?f = _ => replace m with (@Ok (list ((Q * Q) * Q)) rows') by (symmetry; exact M0) end. cbn [bind]. rewrite canon_length, running_canon.
  f_equal. f_equal. f_equal.
  assert (KR : Forall (fun r : row => (keeps_sign 6 (fst (fst r)) /\ keeps_sign 6 (snd (fst r))) /\ keeps_sign 3 (snd r)) rows).
  { clear - RF K1 K2. induction RF as [|p r l rows [N1 N2] F IH]; constructor; auto.
    apply nth_error_In in N1, N2. auto. }
  clear - PF KR. generalize 1%nat. revert KR. induction PF as [|r r' rows rows' (E1 & E2 & E3) F IH]; intros KR i; [reflexivity|].
  inversion KR as [|? ? [[S1 S2] S3] KR']; subst. cbn [number_from map fst snd]. f_equal; [|now apply IH].
  unfold point_line. rewrite (print_again 10 6 _ _ E1 S1), (print_again 10 6 _ _ E2 S2), (print_again 8 3 _ _ E3 S3). reflexivity.
Qed.
Print Assumptions c58_saved_again.

(** C58, remark: a file saved without a depth variable loads with empty units, and
    what was loaded cannot be saved again (KeyError from the table of units). *)
Theorem c58_no_units_refuted : exists nodes segs lines v,
  save_verdat nodes segs NoDepth = Ok lines /\ load_verdat lines = Ok v /\
  save_verdat (vd_nodes v) (vd_bounds v) (Depth (Some (vd_units v)) (vd_depth v)) = Err KeyError.
Proof.
  exists [(1, 2); (3, 4); (5, 1)]%Q, [(0, 1); (1, 2); (2, 0)]. eexists. eexists.
  split; [vm_compute; reflexivity|]. split; [vm_compute; reflexivity|]. vm_compute. reflexivity.
Qed.
Print Assumptions c58_no_units_refuted.

(** C58: an open chain of boundary segments is lost: it is not written, and its
    points are saved as interior points. *)
Theorem c58_open_chains_refuted : exists nodes segs d lines v,
  save_verdat nodes segs d = Ok lines /\ load_verdat lines = Ok v /\ segs <> [] /\ vd_bounds v = [].
Proof.
  exists [(1, 2); (3, 4); (5, 1)]%Q, [(0, 1); (1, 2)], NoDepth. eexists. eexists.
  split; [vm_compute; reflexivity|]. split; [vm_compute; reflexivity|]. split; [discriminate|reflexivity].
Qed.
Print Assumptions c58_open_chains_refuted.

(** A boundary of a single point in a file: UnboundLocalError if it is the first,
    and a segment from the previous boundary otherwise. *)
Theorem c58_one_point_boundary : forall e, (2 <= e)%nat ->
  (forall k rest, (1 <= k)%nat -> read_bounds k 0 None (dec 1 :: rest) = Err UnboundLocalError) /\
  read_bounds 2 0 None [dec (N.of_nat e); dec (N.of_nat (S e))] =
    Ok (map (fun j => (j, j + 1)) (zrange 0 (Z.of_nat e - 1)) ++ [(Z.of_nat e - 1, 0); (Z.of_nat e - 1, Z.of_nat e)]).
Proof.
  intros e H. split.
  { intros [|k] rest K; [lia|]. cbn [read_bounds]. rewrite dec_int. reflexivity. }
  cbn [read_bounds]. rewrite !dec_int, !nat_N_Z.
  destruct e as [|[|e]]; try lia.
  replace (Z.of_nat (S (S e)) - 1) with (0 + Z.of_nat (S e)) by lia.
  rewrite zrange_snoc, rev_app_distr. cbn [rev app bind].
  replace (Z.of_nat (S (S (S e))) - 1) with (Z.of_nat (S (S e)) + Z.of_nat 0) by lia.
  assert (Z0 : zrange (Z.of_nat (S (S e))) (Z.of_nat (S (S e)) + Z.of_nat 0) = []).
  { unfold zrange. replace (Z.to_nat _) with 0%nat by lia. reflexivity. }
  rewrite Z0. cbn [rev map app bind].
  replace (0 + Z.of_nat e + 1) with (0 + Z.of_nat (S e)) by lia.
  reflexivity.
Qed.
Print Assumptions c58_one_point_boundary.

(** C58: after the points comes the number of boundaries.  Nothing, or a blank
    line, stands for none; a line that begins with neither a digit nor a sign
    is an error. *)
Definition written (rows : list ((Q * Q) * Q)) : list string :=
  map (fun r => point_line (fst r) (fst (snd r)) (snd (snd r))) (number_from 1 rows).
Lemma strip_first : forall c r, is_blank c = false -> exists r', strip (String c r) = String c r'.
Proof.
  intros c r B. unfold strip. cbn [ltrim]. rewrite B. cbn [rtrim]. rewrite B. destruct (String.eqb (rtrim r) ""); eauto.
Qed.
Theorem c58_boundary_count : forall header rows c r more gap,
  (is_blank c = false -> c <> "-"%char -> c <> "+"%char -> ~ (48 <= N_of_ascii c <= 57)%N ->
   load_verdat (header :: written rows ++ point_line 0 (0, 0)%Q 0%Q :: String c r :: more) = Err ValueError) /\
  (strip gap = "" -> more = [] \/ more = gap :: tl more ->
   exists v, load_verdat (header :: written rows ++ point_line 0 (0, 0)%Q 0%Q :: more) = Ok v /\
     vd_bounds v = [] /\ length (vd_nodes v) = length rows /\ length (vd_depth v) = length rows).
Proof.
  intros header rows c r more gap. split.
  - intros B M P D. unfold load_verdat. destruct (points_read rows 1 (String c r :: more) ltac:(lia)) as (rows' & E & F).
    unfold written. rewrite E. cbn [bind snd read_count]. destruct (strip_first c r B) as (r' & S).
    replace (int_str (String c r)) with (@None Z).
    + rewrite S. reflexivity.
    + unfold int_str. rewrite S. cbn [sign_of].
      destruct (Ascii.eqb_spec c "-"); [contradiction|]. destruct (Ascii.eqb_spec c "+"); [contradiction|].
      unfold unsigned. cbn [String.eqb read_digits]. unfold digit_of.
      destruct (N.leb_spec 48 (N_of_ascii c)); [destruct (N.leb_spec (N_of_ascii c) 57); [exfalso; apply D; split; assumption|]|]; reflexivity.
  - intros G H. unfold load_verdat. destruct (points_read rows 1 more ltac:(lia)) as (rows' & E & F).
    unfold written. rewrite E. cbn [bind snd fst].
    assert (RC : exists l, read_count more = Ok (0%nat, l)).
    { destruct H as [->|H]; [now exists []|]. rewrite H. exists (tl more). cbn [read_count].
      replace (int_str gap) with (@None Z); [rewrite G; reflexivity|]. unfold int_str. rewrite G. reflexivity. }
    destruct RC as (l & ->). cbn [bind fst snd read_bounds].
    eexists. split; [reflexivity|]. cbn [vd_bounds vd_nodes vd_depth]. rewrite !map_length. pose proof (forall2_len _ _ _ F) as L. auto.
Qed.
Print Assumptions c58_boundary_count.
Example c58_boundary_count_ex :
  (exists c r, load_verdat ("DOGS" :: written [((1, 2), 3)]%Q ++ point_line 0 (0, 0)%Q 0%Q :: String c r :: []) = Err ValueError) /\
  strip "  " = "".
Proof. split; [exists "x"%char, "1"; vm_compute; reflexivity|reflexivity]. Qed.

Example c58_example :
  let nodes := [(0, 0); (10, 1 # 3); (5 # 2, -(7)); (1, 2)]%Q in
  let segs := [(1, 0); (0, 2); (2, 1)] in
  Loops segs /\ save_verdat nodes segs (Depth (Some " M") [1; 2; 3; -(1 # 2)]%Q) = Ok
   ["DOGS METERS"; "   1,  10.000000,   0.333333,    2.000"; "   2,   0.000000,   0.000000,    1.000";
    "   3,   2.500000,  -7.000000,    3.000"; "   4,   1.000000,   2.000000,   -0.500";
    "   0,   0.000000,   0.000000,    0.000"; "1"; "3"].
Proof.
  split; [|vm_compute; reflexivity].
  split; [split; cbn; repeat constructor; cbn; intuition lia|]. split.
  - cbn. apply (NoDup_Permutation_bis); [repeat constructor; cbn; intuition lia|cbn; lia|]. intros x. cbn. tauto.
  - intros a b I. cbn in I. repeat (destruct I as [[= <- <-]|I]; [lia|]). destruct I.
Qed.
