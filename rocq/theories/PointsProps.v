(** C52, C53: laying out points and results. *)
From Verif Require Import Common PointsModel PointsSpec PointsProofs.

(** C52: more than three rows of two or three coordinates stay as they are. *)
Theorem c52_rows : forall V (a : nd V) N K pt, (3 < N)%nat -> Coords K -> Rows a N K pt ->
  exists b, reorganize true (Some a) = Ok (Some b) /\ Rows b N K pt.
Proof.
  intros V a N K pt HN HK [Hs Ha].
  assert (H1 : Forall (fun d => d <> 1%nat) (n_shape a)) by (rewrite Hs; apply two_dims; destruct HK; lia).
  unfold reorganize. cbn [negb squeeze n_shape]. rewrite (squeeze_none _ H1), Hs.
  destruct (ambiguous [N; K]) eqn:E.
  { apply ambiguous_iff in E. destruct E as (x & y & E & [->| ->] & _); injection E; lia. }
  cbn [two bind fst snd].
  destruct (Nat.ltb_spec 3 K); [destruct HK; lia|]. rewrite andb_false_r.
  destruct (Nat.ltb_spec K N); [|destruct HK; lia].
  eexists. split; [reflexivity|]. destruct (squeeze_same _ a H1) as [S1 S2]. split; [congruence|].
  intros i j Hi Hj. rewrite S2; auto. rewrite S1, Hs. repeat constructor; auto.
Qed.
Print Assumptions c52_rows.

(** C52: one column per point: transposed into one row per point. *)
Theorem c52_columns : forall V (a : nd V) N K pt, (3 < N)%nat -> Coords K -> Columns a N K pt ->
  exists b, reorganize true (Some a) = Ok (Some b) /\ Rows b N K pt.
Proof.
  intros V a N K pt HN HK [Hs Ha].
  assert (H1 : Forall (fun d => d <> 1%nat) (n_shape a)) by (rewrite Hs; apply two_dims; destruct HK; lia).
  unfold reorganize. cbn [negb squeeze n_shape]. rewrite (squeeze_none _ H1), Hs.
  destruct (ambiguous [K; N]) eqn:E.
  { apply ambiguous_iff in E. destruct E as (x & y & E & _ & [->| ->]); injection E; lia. }
  cbn [two bind fst snd].
  destruct (Nat.ltb_spec 3 K); [destruct HK; lia|]. cbn [andb].
  destruct (Nat.ltb_spec N K); [destruct HK; lia|].
  eexists. split; [reflexivity|]. destruct (squeeze_same _ a H1) as [S1 S2]. split.
  - cbn [transpose n_shape]. rewrite S1, Hs. reflexivity.
  - intros i j Hi Hj. cbn [transpose n_at rev app]. rewrite S2; auto. rewrite S1, Hs. repeat constructor; auto.
Qed.
Print Assumptions c52_columns.

(** C52: a single point, however many dimensions of length 1 surround it, becomes
    one row. *)
Theorem c52_single : forall V (a : nd V) K c, Coords K -> OnePoint a K c ->
  exists b, reorganize true (Some a) = Ok (Some b) /\ Rows b 1 K (fun _ j => c j).
Proof.
  intros V a K c HK (pre & post & Hs & Ha).
  assert (Q : squeeze_shape (n_shape a) = [K]).
  { rewrite Hs, squeeze_repeat. cbn. destruct (Nat.eqb_spec K 1); [destruct HK; lia|]. cbn.
    f_equal. apply squeeze_ones. }
  unfold reorganize. cbn [negb squeeze n_shape]. rewrite Q.
  destruct ((K =? 2)%nat || (K =? 3)%nat) eqn:E.
  2:{ apply orb_false_iff in E. destruct E as [E1 E2]. apply Nat.eqb_neq in E1, E2. destruct HK; lia. }
  eexists. split; [reflexivity|]. split; [reflexivity|].
  intros i j Hi Hj. cbn [n_at squeeze tl]. rewrite Hs, unsqueeze_pre. cbn [unsqueeze].
  destruct (Nat.eqb_spec K 1); [destruct HK; lia|]. rewrite unsqueeze_ones. auto.
Qed.
Print Assumptions c52_single.

(** C52: two or three points of two or three coordinates: taken as rows. *)
Theorem c52_small : forall V (a : nd V) N K pt, Coords N -> Coords K -> Rows a N K pt ->
  exists b, reorganize true (Some a) = Ok (Some b) /\ Rows b N K pt.
Proof.
  intros V a N K pt HN HK [Hs Ha].
  assert (H1 : Forall (fun d => d <> 1%nat) (n_shape a)) by (rewrite Hs; apply two_dims; destruct HK, HN; lia).
  unfold reorganize. cbn [negb squeeze n_shape]. rewrite (squeeze_none _ H1), Hs.
  replace (ambiguous [N; K]) with true by (symmetry; apply ambiguous_iff; eauto).
  eexists. split; [reflexivity|]. destruct (squeeze_same _ a H1) as [S1 S2]. split; [congruence|].
  intros i j Hi Hj. rewrite S2; auto. rewrite S1, Hs. repeat constructor; auto.
Qed.
Print Assumptions c52_small.

(** C52: exactly which shapes are refused, and how. *)
Theorem c52_refused : forall V numeric (a : nd V) e,
  reorganize numeric (Some a) = Err e <->
    (numeric = false /\ e = TypeError) \/
    (numeric = true /\
      ((exists k, squeeze_shape (n_shape a) = [k] /\ ~ Coords k /\ e = ValueError) \/
       (exists x y r, squeeze_shape (n_shape a) = x :: y :: r /\ (3 < x)%nat /\ (3 < y)%nat /\ e = ValueError) \/
       (squeeze_shape (n_shape a) = [] /\ e = IndexError))).
Proof.
  intros V numeric a e. unfold reorganize. cbn [squeeze n_shape].
  destruct numeric; cbn [negb].
  2:{ split; [intros [= <-]; auto|]. intros [[_ ->]|[H _]]; [reflexivity|discriminate]. }
  destruct (squeeze_shape (n_shape a)) as [|x [|y r]] eqn:E.
  - cbn. split; [intros [= <-]; auto 10|]. intros [[H _]|[_ [(k & H & _)|[(? & ? & ? & H & _)|[_ ->]]]]]; congruence.
  - destruct ((x =? 2)%nat || (x =? 3)%nat) eqn:B.
    + split; [discriminate|]. apply orb_true_iff in B. rewrite !Nat.eqb_eq in B.
      intros [[H _]|[_ [(k & H & C & _)|[(? & ? & ? & H & _)|[H _]]]]]; try congruence.
      injection H as <-. exfalso. now apply C.
    + apply orb_false_iff in B. rewrite !Nat.eqb_neq in B. split.
      * intros [= <-]. right. split; auto. left. exists x. unfold Coords. repeat split; auto. lia.
      * intros [[H _]|[_ [(k & H & C & ->)|[(? & ? & ? & H & _)|[H _]]]]]; congruence.
  - destruct (ambiguous (x :: y :: r)) eqn:A.
    + split; [discriminate|]. apply ambiguous_iff in A. destruct A as (p & q & A & P & Q). injection A as -> -> ->.
      intros [[H _]|[_ [(k & H & C & _)|[(? & ? & ? & H & L1 & L2 & _)|[H _]]]]]; try congruence.
      injection H as <- <- <-. destruct P; lia.
    + cbn [two bind fst snd]. destruct (Nat.ltb_spec 3 x); destruct (Nat.ltb_spec 3 y); cbn [andb].
      1:{ split; [intros [= <-]; right; split; auto; right; left; exists x, y, r; auto|].
          intros [[H' _]|[_ [(k & H' & C & _)|[(? & ? & ? & H' & L1 & L2 & ->)|[H' _]]]]]; congruence. }
      all: destruct (Nat.ltb y x); (split; [discriminate|]);
        (intros [[H' _]|[_ [(k & H' & C & _)|[(? & ? & ? & H' & L1 & L2 & _)|[H' _]]]]]; try congruence;
         injection H' as <- <- <-; lia).
Qed.
Print Assumptions c52_refused.

(** C52: normalising twice is normalising once (up to two proper dimensions). *)
Theorem c52_idempotent : forall V (a : nd V) b, (length (squeeze_shape (n_shape a)) <= 2)%nat ->
  reorganize true (Some a) = Ok (Some b) ->
  exists c, reorganize true (Some b) = Ok (Some c) /\ Same b c.
Proof.
  intros V a b L H. unfold reorganize in H. cbn [negb squeeze n_shape] in H.
  pose proof (squeeze_shape_no1 (n_shape a)) as N1.
  destruct (squeeze_shape (n_shape a)) as [|x [|y [|z r]]] eqn:E.
  - discriminate.
  - destruct ((x =? 2)%nat || (x =? 3)%nat) eqn:B; [|discriminate]. injection H as <-.
    unfold reorganize. cbn [negb squeeze n_shape squeeze_shape filter Nat.eqb].
    destruct (Nat.eqb_spec x 1); [inversion N1; congruence|]. cbn [negb]. rewrite B.
    eexists. split; [reflexivity|]. split; [reflexivity|]. cbn [n_shape n_at].
    intros ix Hi. inversion Hi as [|? i1 ? r1 Hi1 Hr1]; subst. inversion Hr1 as [|? i2 ? r2 Hi2 Hr2]; subst.
    inversion Hr2; subst. cbn [tl unsqueeze Nat.eqb n_at squeeze n_shape].
    destruct (Nat.eqb_spec x 1); [congruence|]. reflexivity.
  - assert (Hq : forall s : nd V, n_shape s = [x; y] \/ n_shape s = [y; x] -> Forall (fun d => d <> 1%nat) (n_shape s)).
    { inversion N1 as [|? ? ? N2]; subst. inversion N2; subst. intros s [->| ->]; repeat constructor; auto. }
    assert (Hb : n_shape b = [x; y] \/ n_shape b = [y; x]).
    { destruct (ambiguous [x; y]); [injection H as <-; auto|]. cbn [two bind fst snd] in H.
      destruct ((3 <? x)%nat && (3 <? y)%nat); [discriminate|].
      destruct (y <? x)%nat; injection H as <-; cbn [transpose n_shape squeeze]; rewrite E; auto. }
    pose proof (squeeze_same _ b (Hq b Hb)) as Sb. apply same_sym in Sb.
    unfold reorganize. cbn [negb]. change (n_shape (squeeze b)) with (squeeze_shape (n_shape b)).
    rewrite (squeeze_none _ (Hq b Hb)).
    destruct (ambiguous [x; y]) eqn:A.
    + injection H as <-. cbn [squeeze n_shape] in *. rewrite E, A. eauto.
    + cbn [two bind fst snd] in H.
      destruct ((3 <? x)%nat && (3 <? y)%nat) eqn:T; [discriminate|].
      destruct (Nat.ltb_spec y x).
      * injection H as <-. cbn [squeeze n_shape] in *. rewrite E, A. cbn [two bind fst snd]. rewrite T.
        destruct (Nat.ltb_spec y x); [eauto|lia].
      * injection H as <-. cbn [squeeze transpose n_shape] in *. rewrite E. cbn [rev app].
        destruct (ambiguous [y; x]) eqn:A'.
        { apply ambiguous_iff in A'. destruct A' as (p & q & A' & P & Q). injection A' as -> ->.
          rewrite (proj2 (ambiguous_iff [q; p])) in A by eauto. discriminate. }
        cbn [two bind fst snd]. rewrite andb_comm, T.
        destruct (Nat.ltb_spec x y).
        { eexists. split; [reflexivity|]. exact Sb. }
        { assert (x = y) by lia. subst y. assert (x = 0%nat).
          { destruct (Nat.eqb_spec x 0); auto. exfalso.
            assert (x <> 1%nat) by (inversion N1; auto).
            destruct (Nat.ltb_spec 3 x); [cbn in T; discriminate|].
            assert (Coords x) by (unfold Coords; lia).
            rewrite (proj2 (ambiguous_iff [x; x])) in A by eauto. discriminate. }
          subst x. eexists. split; [reflexivity|]. split; cbn [transpose n_shape squeeze].
          - rewrite E. reflexivity.
          - rewrite E. cbn [rev app]. intros ix Hi. inversion Hi; lia. }
  - cbn in L. lia.
Qed.
Print Assumptions c52_idempotent.

(** C52, remark: an empty list of points of two coordinates comes back as two rows
    without entries, not as no rows. *)
Theorem c52_empty_refuted : exists (a : nd Z) b, n_shape a = [0; 2]%nat /\
  reorganize true (Some a) = Ok (Some b) /\ n_shape b <> [0; 2]%nat.
Proof. exists (mkNd [0; 2]%nat (fun _ => 0%Z)). eexists. split; [reflexivity|]. split; [reflexivity|]. cbn. discriminate. Qed.
Print Assumptions c52_empty_refuted.

(** C52, remark: with three proper dimensions the second call may refuse what the
    first call returned. *)
Theorem c52_three_dimensions_refuted : exists (a b : nd Z),
  reorganize true (Some a) = Ok (Some b) /\ reorganize true (Some b) = Err ValueError.
Proof. exists (mkNd [2; 5; 9]%nat (fun _ => 0%Z)). eexists. split; reflexivity. Qed.
Print Assumptions c52_three_dimensions_refuted.

Example c52_example :
  let a := mkNd [2; 5]%nat (fun ix => match ix with [j; i] => (10 * Z.of_nat j + Z.of_nat i)%Z | _ => (-1)%Z end) in
  Columns a 5 2 (fun i j => (10 * Z.of_nat j + Z.of_nat i)%Z) /\
  exists b, reorganize true (Some a) = Ok (Some b) /\ n_at b [4; 1]%nat = 14%Z.
Proof. split; [split; [reflexivity|intros; reflexivity]|]. eexists. split; reflexivity. Qed.
Example c52_single_example :
  OnePoint (mkNd [1; 2; 1]%nat (fun ix => match ix with [_; j; _] => (Z.of_nat j + 4)%Z | _ => 0%Z end)) 2 (fun j => (Z.of_nat j + 4)%Z).
Proof. exists 1%nat, 1%nat. split; [reflexivity|]. intros j Hj. reflexivity. Qed.

(** C53: no points: the result as it is. *)
Theorem c53_none : forall V W (r : nd W), align r (@None (nd V)) = Ok r.
Proof. reflexivity. Qed.
Print Assumptions c53_none.

(** C53: points in columns, one row of [M] values per point: the values come back
    in columns. *)
Theorem c53_columns : forall V W (p : nd V) (r : nd W) N K M val, (3 < N)%nat -> Coords K ->
  n_shape p = [K; N] -> Rows r N M val ->
  exists r', align r (Some p) = Ok r' /\ Columns r' N M val.
Proof.
  intros V W p r N K M val HN HK Hp [Hs Hr]. unfold align.
  rewrite squeeze_none by (rewrite Hp; apply two_dims; destruct HK; lia). rewrite Hp.
  destruct (ambiguous [K; N]) eqn:E.
  { apply ambiguous_iff in E. destruct E as (x & y & E & _ & [->| ->]); injection E; lia. }
  cbn [two bind fst snd]. destruct (Nat.ltb_spec 3 K); [destruct HK; lia|]. cbn [andb].
  destruct (Nat.ltb_spec K N); [|destruct HK; lia]. rewrite Hs. cbn [bind]. rewrite Nat.eqb_refl.
  eexists. split; [reflexivity|]. split; [cbn [transpose n_shape]; now rewrite Hs|].
  intros i j Hi Hj. cbn. auto.
Qed.
Print Assumptions c53_columns.

(** C53: points in rows: rows of values stay. *)
Theorem c53_rows : forall V W (p : nd V) (r : nd W) N K M val, (3 < N)%nat -> Coords K ->
  n_shape p = [N; K] -> Rows r N M val -> align r (Some p) = Ok r.
Proof.
  intros V W p r N K M val HN HK Hp [Hs Hr]. unfold align.
  rewrite squeeze_none by (rewrite Hp; apply two_dims; destruct HK; lia). rewrite Hp.
  destruct (ambiguous [N; K]) eqn:E.
  { apply ambiguous_iff in E. destruct E as (x & y & E & [->| ->] & _); injection E; lia. }
  cbn [two bind fst snd]. destruct (Nat.ltb_spec 3 K); [destruct HK; lia|]. rewrite andb_false_r.
  destruct (Nat.ltb_spec N K); [destruct HK; lia|]. rewrite Hs. cbn [bind length Nat.eqb].
  now rewrite andb_false_r.
Qed.
Print Assumptions c53_rows.

(** C53: points in rows, one value per point: an N x 1 column of the same values. *)
Theorem c53_rows_vector : forall V W (p : nd V) (r : nd W) N K, (3 < N)%nat -> Coords K ->
  n_shape p = [N; K] -> n_shape r = [N] ->
  exists r', align r (Some p) = Ok r' /\ Rows r' N 1 (fun i _ => n_at r [i]).
Proof.
  intros V W p r N K HN HK Hp Hs. unfold align.
  rewrite squeeze_none by (rewrite Hp; apply two_dims; destruct HK; lia). rewrite Hp.
  destruct (ambiguous [N; K]) eqn:E.
  { apply ambiguous_iff in E. destruct E as (x & y & E & [->| ->] & _); injection E; lia. }
  cbn [two bind fst snd]. destruct (Nat.ltb_spec 3 K); [destruct HK; lia|]. rewrite andb_false_r.
  destruct (Nat.ltb_spec N K); [destruct HK; lia|]. rewrite Hs. cbn [bind length]. rewrite !Nat.eqb_refl. cbn [andb].
  eexists. split; [reflexivity|]. split; [cbn [column n_shape]; now rewrite Hs|]. reflexivity.
Qed.
Print Assumptions c53_rows_vector.

(** C53: points in columns, one value per point: .T of a vector is the vector. *)
Theorem c53_columns_vector : forall V W (p : nd V) (r : nd W) N K, (3 < N)%nat -> Coords K ->
  n_shape p = [K; N] -> n_shape r = [N] ->
  exists r', align r (Some p) = Ok r' /\ Same r' r.
Proof.
  intros V W p r N K HN HK Hp Hs. unfold align.
  rewrite squeeze_none by (rewrite Hp; apply two_dims; destruct HK; lia). rewrite Hp.
  destruct (ambiguous [K; N]) eqn:E.
  { apply ambiguous_iff in E. destruct E as (x & y & E & _ & [->| ->]); injection E; lia. }
  cbn [two bind fst snd]. destruct (Nat.ltb_spec 3 K); [destruct HK; lia|]. cbn [andb].
  destruct (Nat.ltb_spec K N); [|destruct HK; lia]. rewrite Hs. cbn [bind]. rewrite Nat.eqb_refl.
  eexists. split; [reflexivity|]. split; [cbn [transpose n_shape]; now rewrite Hs|].
  cbn [transpose n_shape n_at]. rewrite Hs. cbn [rev app]. intros ix Hi.
  inversion Hi as [|? i1 ? r1 ? Hr1]; subst. inversion Hr1; subst. reflexivity.
Qed.
Print Assumptions c53_columns_vector.

(** C53: a single point, or two or three points of two or three coordinates: the
    result as it is. *)
Theorem c53_small : forall V W (p : nd V) (r : nd W),
  (exists K, squeeze_shape (n_shape p) = [K] /\ Coords K) \/
  (exists N K, squeeze_shape (n_shape p) = [N; K] /\ Coords N /\ Coords K) ->
  align r (Some p) = Ok r.
Proof.
  intros V W p r [(K & H & C)|(N & K & H & C1 & C2)]; unfold align; rewrite H.
  - destruct C; subst; reflexivity.
  - replace (ambiguous [N; K]) with true by (symmetry; apply ambiguous_iff; eauto). reflexivity.
Qed.
Print Assumptions c53_small.

(** C53: for points with two proper dimensions beyond 3 x 3, the result is
    transposed exactly if the points come in columns and the result has one row
    for each of them. *)
Theorem c53_transposed_exactly : forall V W (p : nd V) (r : nd W) a b n rest,
  squeeze_shape (n_shape p) = [a; b] -> ~ (Coords a /\ Coords b) -> ~ (3 < a /\ 3 < b)%nat ->
  n_shape r = n :: rest ->
  align r (Some p) =
    Ok (if (Nat.ltb a b && Nat.eqb n b)%bool then transpose r
        else if (Nat.eqb a n && Nat.eqb (length rest) 0)%bool then column r else r).
Proof.
  intros V W p r a b n rest Hp HC H3 Hs. unfold align. rewrite Hp.
  destruct (ambiguous [a; b]) eqn:E.
  { apply ambiguous_iff in E. destruct E as (x & y & E & ? & ?). injection E as -> ->. exfalso. auto. }
  cbn [two bind fst snd].
  replace ((3 <? a) && (3 <? b))%nat with false.
  2:{ symmetry. destruct (Nat.ltb_spec 3 a); destruct (Nat.ltb_spec 3 b); auto; lia. }
  rewrite Hs. cbn [bind length]. change (S (length rest) =? 1)%nat with (length rest =? 0)%nat.
  destruct (a <? b)%nat; destruct (n =? b)%nat; cbn [andb]; try reflexivity;
    destruct ((a =? n) && (length rest =? 0))%nat; reflexivity.
Qed.
Print Assumptions c53_transposed_exactly.

(** C53: refused point shapes. *)
Theorem c53_refused : forall V W (p : nd V) (r : nd W),
  (exists k, squeeze_shape (n_shape p) = [k] /\ ~ Coords k) \/
  (exists x y rest, squeeze_shape (n_shape p) = x :: y :: rest /\ (3 < x)%nat /\ (3 < y)%nat) ->
  align r (Some p) = Err ValueError.
Proof.
  intros V W p r [(k & H & C)|(x & y & rest & H & L1 & L2)]; unfold align; rewrite H.
  - destruct (Nat.eqb_spec k 2); [subst; exfalso; apply C; left; auto|].
    destruct (Nat.eqb_spec k 3); [subst; exfalso; apply C; right; auto|]. reflexivity.
  - destruct (ambiguous (x :: y :: rest)) eqn:E.
    { apply ambiguous_iff in E. destruct E as (p' & q & E & P & Q). injection E as -> -> ->. destruct P; lia. }
    cbn [two bind fst snd]. destruct (Nat.ltb_spec 3 x); [|lia]. destruct (Nat.ltb_spec 3 y); [|lia]. reflexivity.
Qed.
Print Assumptions c53_refused.

(** C53 with C52: for any computation that gives one row of [M] values per point,
    the caller who passes columns gets the transpose of what the caller who passes
    rows gets. *)
Theorem c53_layouts_agree : forall V W (f : nd V -> nd W) (pr pc : nd V) N K M pt val,
  (3 < N)%nat -> Coords K -> Rows pr N K pt -> Columns pc N K pt ->
  (forall p, Rows p N K pt -> Rows (f p) N M val) ->
  exists qr qc ar ac, reorganize true (Some pr) = Ok (Some qr) /\ reorganize true (Some pc) = Ok (Some qc) /\
    align (f qr) (Some pr) = Ok ar /\ align (f qc) (Some pc) = Ok ac /\
    Rows ar N M val /\ Columns ac N M val.
Proof.
  intros V W f pr pc N K M pt val HN HK Hr Hc Hf.
  destruct (c52_rows V pr N K pt HN HK Hr) as (qr & Q1 & R1).
  destruct (c52_columns V pc N K pt HN HK Hc) as (qc & Q2 & R2).
  destruct (c53_columns V W pc (f qc) N K M val HN HK (proj1 Hc) (Hf _ R2)) as (ac & A2 & C2).
  exists qr, qc, (f qr), ac.
  assert (A1 : align (f qr) (Some pr) = Ok (f qr)) by (eapply c53_rows; [exact HN|exact HK|apply Hr|exact (Hf _ R1)]).
  exact (conj Q1 (conj Q2 (conj A1 (conj A2 (conj (Hf _ R1) C2))))).
Qed.
Print Assumptions c53_layouts_agree.

Example c53_example :
  let p := mkNd [3; 4]%nat (fun _ => 0%Z) in
  let r := mkNd [4; 2]%nat (fun ix => match ix with [i; j] => (10 * Z.of_nat i + Z.of_nat j)%Z | _ => (-1)%Z end) in
  exists r', align r (Some p) = Ok r' /\ n_shape r' = [2; 4]%nat /\ n_at r' [1; 3]%nat = 31%Z.
Proof. eexists. repeat split. Qed.
