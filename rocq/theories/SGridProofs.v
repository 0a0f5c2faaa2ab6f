From Coq Require Import String.
From Verif Require Import Common CommonProofs VariableModel VariableSpec VariableProofs MaskModel SGridModel SGridSpec.
Open Scope Z_scope.

(** ** ravel *)
Lemma ravel_length {A} R K (f : nat -> nat -> A) : length (ravel R K f) = (R * K)%nat.
Proof.
  unfold ravel.
  enough (forall s, length (flat_map (fun i => map (f i) (seq 0 K)) (seq s R)) = (R * K)%nat) by auto.
  induction R as [|R IH]; intros s; [reflexivity|].
  cbn [seq flat_map]. rewrite app_length, map_length, seq_length, IH. lia.
Qed.
Lemma nth_seq s n i : nth_error (seq s n) i = if Nat.ltb i n then Some (s + i)%nat else None.
Proof.
  revert s i. induction n as [|n IH]; intros s [|i]; cbn [seq nth_error]; try reflexivity.
  - rewrite Nat.add_0_r. reflexivity.
  - rewrite IH. change (S i <? S n)%nat with (i <? n)%nat. destruct (i <? n)%nat; f_equal; lia.
Qed.
Lemma ravel_nth {A} R K (f : nat -> nat -> A) r c : (r < R)%nat -> (c < K)%nat ->
  nth_error (ravel R K f) (r * K + c) = Some (f r c).
Proof.
  unfold ravel. intros Hr Hc.
  enough (forall s, nth_error (flat_map (fun i => map (f i) (seq 0 K)) (seq s R)) (r * K + c) = Some (f (s + r)%nat c))
    by (apply (H 0%nat)).
  revert r Hr. induction R as [|R IH]; intros r Hr s; [lia|]. cbn [seq flat_map].
  destruct r as [|r].
  - cbn [Nat.mul Nat.add]. rewrite nth_error_app1 by (rewrite map_length, seq_length; lia).
    rewrite nth_error_map, nth_seq, (proj2 (Nat.ltb_lt c K)) by lia. cbn. rewrite Nat.add_0_r. reflexivity.
  - rewrite nth_error_app2 by (rewrite map_length, seq_length; nia).
    rewrite map_length, seq_length. replace (S r * K + c - K)%nat with (r * K + c)%nat by nia.
    rewrite IH by lia. do 2 f_equal. lia.
Qed.
Lemma ravel_nth_inv {A} R K (f : nat -> nat -> A) k v : nth_error (ravel R K f) k = Some v ->
  (k / K < R)%nat /\ (k mod K < K)%nat /\ k = (k / K * K + k mod K)%nat /\ v = f (k / K)%nat (k mod K)%nat.
Proof.
  intros H. pose proof (nth_error_Some_lt _ _ _ H) as Hl. rewrite ravel_length in Hl.
  assert (K <> 0)%nat by (intros ->; lia).
  assert (k mod K < K)%nat by (apply Nat.mod_upper_bound; lia).
  assert (E : k = (k / K * K + k mod K)%nat) by (rewrite (Nat.div_mod k K) at 1 by assumption; lia).
  assert (k / K < R)%nat by (apply Nat.div_lt_upper_bound; lia).
  repeat split; auto. rewrite E in H. rewrite ravel_nth in H by assumption. congruence.
Qed.

(** ** compress, rank, number *)
Definition rank (keep : list bool) (i : nat) : nat := length (filter (fun b => b) (firstn i keep)).

Lemma compress_cons {A} b keep (x : A) l : compress (b :: keep) (x :: l) = (if b then [x] else []) ++ compress keep l.
Proof. unfold compress. cbn. destruct b; reflexivity. Qed.
Lemma rank_S b keep i : rank (b :: keep) (S i) = ((if b then 1 else 0) + rank keep i)%nat.
Proof. unfold rank. cbn. destruct b; reflexivity. Qed.

Lemma compress_rank {A} keep : forall (l : list A) i x, nth_error keep i = Some true -> nth_error l i = Some x ->
  nth_error (compress keep l) (rank keep i) = Some x.
Proof.
  induction keep as [|b keep IH]; intros [|y l] [|i] x Hk Hl; try discriminate.
  - cbn in Hk, Hl. injection Hk as ->. injection Hl as ->. reflexivity.
  - cbn in Hk, Hl. rewrite compress_cons, rank_S. destruct b; cbn; eauto.
Qed.
Lemma compress_inv {A} keep : forall (l : list A) k x, nth_error (compress keep l) k = Some x ->
  exists i, nth_error keep i = Some true /\ nth_error l i = Some x /\ rank keep i = k.
Proof.
  induction keep as [|b keep IH]; intros [|y l] k x H; try (destruct k; discriminate).
  rewrite compress_cons in H. destruct b.
  - destruct k as [|k]; cbn in H.
    + injection H as ->. exists 0%nat. auto.
    + apply IH in H. destruct H as (i & H1 & H2 & H3). exists (S i). rewrite rank_S. cbn. auto.
  - cbn in H. apply IH in H. destruct H as (i & H1 & H2 & H3). exists (S i). rewrite rank_S. cbn. auto.
Qed.
Lemma rank_inj keep : forall i j, nth_error keep i = Some true -> nth_error keep j = Some true ->
  rank keep i = rank keep j -> i = j.
Proof.
  induction keep as [|b keep IH]; intros [|i] [|j] Hi Hj E; try discriminate; auto.
  - cbn in Hi. injection Hi as ->. rewrite rank_S in E. discriminate.
  - cbn in Hj. injection Hj as ->. rewrite rank_S in E. discriminate.
  - rewrite !rank_S in E. f_equal. apply IH; auto. lia.
Qed.
Lemma compress_length {A} keep : forall l : list A, length keep = length l ->
  length (compress keep l) = length (filter (fun b => b) keep).
Proof.
  induction keep as [|b keep IH]; intros [|y l] H; try discriminate; [reflexivity|].
  rewrite compress_cons, app_length, IH by (cbn in H; lia). destruct b; reflexivity.
Qed.

Lemma number_nth used : forall k i b, nth_error used i = Some b ->
  nth_error (number k used) i = Some (if b then k + Z.of_nat (rank used i) else -1).
Proof.
  induction used as [|u used IH]; intros k [|i] b H; try discriminate.
  - cbn in H. injection H as ->. destruct b; cbn; [f_equal; lia|reflexivity].
  - cbn in H. rewrite rank_S. destruct u; cbn [number nth_error].
    + rewrite (IH _ _ _ H). destruct b; [f_equal; lia|reflexivity].
    + rewrite (IH _ _ _ H). destruct b; [f_equal; lia|reflexivity].
Qed.

Lemma where_false_compress ms : forall k,
  where_false k ms = compress (map negb ms) (map (fun i => k + Z.of_nat i) (seq 0 (length ms))).
Proof.
  induction ms as [|b ms IH]; intros k; [reflexivity|].
  cbn [map seq length where_false]. rewrite compress_cons, IH.
  assert (E : map (fun i => k + 1 + Z.of_nat i) (seq 0 (length ms)) = map (fun i => k + Z.of_nat i) (seq 1 (length ms))).
  { rewrite <- seq_shift, map_map. apply map_ext. intros. lia. }
  rewrite E. destruct b; cbn; [reflexivity|]. f_equal. lia.
Qed.

(** ** the compression of the face rows *)
Definition good_row (row : list Z) : Prop := exists a b c d, row = [a; b; c; d] /\ 0 <= a /\ 0 <= b /\ 0 <= c /\ 0 <= d.
Lemma chunk_rows (ms : list bool) : forall rows : list (list Z), length ms = length rows ->
  (forall i (m : bool) row, nth_error ms i = Some m -> nth_error rows i = Some row ->
     if m then row = [-1; -1; -1; -1] else good_row row) ->
  chunk4 (filter (fun i => 0 <=? i) (concat rows)) = Ok (compress (map negb ms) rows).
Proof.
  induction ms as [|m ms IH]; intros [|row rows] Hl H; try discriminate; [reflexivity|].
  assert (Hr := H 0%nat m row eq_refl eq_refl).
  cbn [concat map]. rewrite compress_cons, filter_app.
  assert (R : chunk4 (filter (fun i => 0 <=? i) (concat rows)) = Ok (compress (map negb ms) rows)) by (apply IH; [cbn in Hl; lia|exact (fun i => H (S i))]).
  destruct m.
  - subst row. cbn [filter Z.leb Z.compare negb app]. exact R.
  - destruct Hr as (a & b & c & d & -> & Ha & Hb & Hc & Hd).
    cbn [filter]. rewrite (proj2 (Z.leb_le 0 a) Ha), (proj2 (Z.leb_le 0 b) Hb), (proj2 (Z.leb_le 0 c) Hc), (proj2 (Z.leb_le 0 d) Hd).
    cbn [app chunk4 negb]. rewrite R. reflexivity.
Qed.

(** ** flat numbers *)
Lemma cell_div_mod r c K : (c < K)%nat -> ((r * K + c) / K = r /\ (r * K + c) mod K = c)%nat.
Proof.
  intros H. split.
  - rewrite Nat.div_add_l by lia. rewrite Nat.div_small by assumption. lia.
  - rewrite Nat.add_comm, Nat.mod_add by lia. apply Nat.mod_small. assumption.
Qed.
Lemma flat_cell nx r c : (S c < nx)%nat ->
  np_div (Z.of_nat (r * (nx - 1) + c)) (Z.of_nat nx - 1) = Z.of_nat r /\
  np_mod (Z.of_nat (r * (nx - 1) + c)) (Z.of_nat nx - 1) = Z.of_nat c.
Proof.
  intros H. unfold np_div, np_mod. rewrite (proj2 (Z.eqb_neq _ _)) by lia.
  rewrite Nat2Z.inj_add, Nat2Z.inj_mul, Nat2Z.inj_sub by lia. split.
  - rewrite Z.div_add_l by lia. rewrite Z.div_small by lia. lia.
  - rewrite Z.add_comm, Z.mod_add by lia. apply Z.mod_small. lia.
Qed.
Lemma face_to_cell_flat {C} nx (t : tree C) k i r c : (S c < nx)%nat ->
  match tr_rev t with Some l => py_get l k | None => Ok k end = Ok i -> i = Z.of_nat (r * (nx - 1) + c) ->
  face_to_cell nx t k = Ok (Z.of_nat r, Z.of_nat c).
Proof.
  intros Hc Hi ->. unfold face_to_cell. rewrite Hi. cbn [bind].
  destruct (flat_cell nx r c Hc) as [-> ->]. rewrite (proj2 (Z.eqb_neq _ _)) by lia. reflexivity.
Qed.
Lemma face_to_cell_miss {C} nx (t : tree C) : (1 < nx)%nat ->
  match tr_rev t with Some l => exists p, l = p ++ [-1] | None => True end ->
  face_to_cell nx t (-1) = Ok (-1, -1).
Proof.
  intros Hn H. unfold face_to_cell.
  assert (E : match tr_rev t with Some l => py_get l (-1) | None => Ok (-1) end = Ok (-1)).
  { destruct (tr_rev t) as [l|]; [|reflexivity]. destruct H as [p ->]. apply py_get_last. }
  rewrite E. cbn [bind]. unfold np_div. rewrite (proj2 (Z.eqb_neq (Z.of_nat nx - 1) 0)) by lia.
  replace (-1 / (Z.of_nat nx - 1)) with (-1); [reflexivity|].
  apply Z.div_unique with (Z.of_nat nx - 2); lia.
Qed.

Lemma node_used_corner ny nx cm r c r' c' : (S r < ny)%nat -> (S c < nx)%nat -> cm r c = false ->
  (r' = r \/ r' = S r) -> (c' = c \/ c' = S c) -> node_used ny nx cm r' c' = true.
Proof.
  intros Hr Hc Hm Hr' Hc'. unfold node_used. rewrite !orb_true_iff, !andb_true_iff, !negb_true_iff, !Nat.ltb_lt, !Nat.leb_le.
  destruct Hr' as [->| ->], Hc' as [->| ->]; cbn [Nat.sub]; rewrite ?Nat.sub_0_r; repeat split; intuition lia.
Qed.

(** ** the two builds *)
Lemma plain_searches {C} (g : sgrid C) : (1 < sg_nx g)%nat ->
  Searches g (mkTree (all_coords g)
    (ravel (sg_ny g - 1) (sg_nx g - 1)
        (fun y x => let f := fun k => Z.of_nat (k + y * sg_nx g) in
                    [f x; f (x + 1)%nat; f (x + sg_nx g + 1)%nat; f (x + sg_nx g)%nat])) None) (fun _ _ => True).
Proof.
  intros Hn. set (nx := sg_nx g) in *. set (ny := sg_ny g).
  set (F := fun y x : nat => _). split; cbn [tr_faces tr_nodes tr_rev].
  - intros k Hk. destruct (nth_error_lt_Some _ _ Hk) as [row Hrow].
    destruct (ravel_nth_inv _ _ _ _ _ Hrow) as (H1 & H2 & H3 & ->).
    exists (k / (nx - 1))%nat, (k mod (nx - 1))%nat.
    set (r := (k / (nx - 1))%nat) in *. set (c := (k mod (nx - 1))%nat) in *.
    split; [split; lia|]. split; [exact I|]. split.
    + exists (F r c). split; [exact Hrow|]. unfold F, corners, all_coords. cbn zeta.
      repeat constructor; try lia; rewrite Nat2Z.id; cbn [tr_nodes].
      * replace (c + r * nx)%nat with (r * nx + c)%nat by lia. apply (ravel_nth _ _ (fun r c => (sg_lon g r c, sg_lat g r c))); lia.
      * replace (c + 1 + r * nx)%nat with (r * nx + S c)%nat by lia. apply (ravel_nth _ _ (fun r c => (sg_lon g r c, sg_lat g r c))); lia.
      * replace (c + nx + 1 + r * nx)%nat with (S r * nx + S c)%nat by lia. apply (ravel_nth _ _ (fun r c => (sg_lon g r c, sg_lat g r c))); lia.
      * replace (c + nx + r * nx)%nat with (S r * nx + c)%nat by lia. apply (ravel_nth _ _ (fun r c => (sg_lon g r c, sg_lat g r c))); lia.
    + eapply face_to_cell_flat; [lia|reflexivity|]. f_equal. exact H3.
  - intros r c [Hr Hc] _. fold nx in Hc. fold ny in Hr. exists (r * (nx - 1) + c)%nat. split.
    + rewrite ravel_length. nia.
    + eapply face_to_cell_flat; [lia|reflexivity|reflexivity].
  - intros k k' ij Hk Hk' E E'. rewrite ravel_length in Hk, Hk'.
    assert (D : forall k, (k < (ny - 1) * (nx - 1))%nat -> exists r c, (S c < nx)%nat /\ k = (r * (nx - 1) + c)%nat).
    { intros j Hj. exists (j / (nx - 1))%nat, (j mod (nx - 1))%nat.
      pose proof (Nat.mod_upper_bound j (nx - 1) ltac:(lia)). split; [lia|].
      rewrite (Nat.div_mod j (nx - 1)) at 1 by lia. lia. }
    destruct (D k Hk) as (r & c & Hc & ->), (D k' Hk') as (r' & c' & Hc' & ->).
    erewrite face_to_cell_flat in E; [|exact Hc|reflexivity|reflexivity].
    erewrite face_to_cell_flat in E'; [|exact Hc'|reflexivity|reflexivity].
    rewrite <- E' in E. injection E as E1 E2. assert (r = r') by lia. assert (c = c') by lia. subst. reflexivity.
  - apply face_to_cell_miss; [exact Hn|exact I].
Qed.

Lemma masked_searches {C} (g : sgrid C) (cm : arr bool) : (1 < sg_nx g)%nat ->
  a_r cm = (sg_ny g - 1)%nat -> a_c cm = (sg_nx g - 1)%nat ->
  exists t, masked_faces g cm = Ok t /\ Searches g t (fun r c => a_at cm r c = false).
Proof.
  intros Hn Hr Hc. set (nx := sg_nx g) in *. set (ny := sg_ny g) in *.
  unfold masked_faces. fold nx ny. rewrite Hr, Hc, !Nat.eqb_refl. cbn [andb negb].
  set (used := ravel ny nx (node_used ny nx (a_at cm))).
  set (ms := ravel (ny - 1) (nx - 1) (a_at cm)).
  cbn zeta. set (at_ := fun r c : nat => nth (r * nx + c) (number 0 used) (-1)).
  set (row := fun r c : nat => [at_ r c; at_ r (S c); at_ (S r) (S c); at_ (S r) c]).
  assert (Hat : forall r c, (r < ny)%nat -> (c < nx)%nat -> node_used ny nx (a_at cm) r c = true ->
            at_ r c = Z.of_nat (rank used (r * nx + c)) /\
            nth_error (compress used (all_coords g)) (rank used (r * nx + c)) = Some (node_xy g r c)).
  { intros r c Hr' Hc' Hu.
    assert (U : nth_error used (r * nx + c) = Some true) by (unfold used; rewrite ravel_nth by assumption; congruence).
    split.
    - unfold at_. apply nth_error_nth. rewrite (number_nth _ 0 _ _ U). reflexivity.
    - apply compress_rank; [exact U|]. unfold all_coords. fold nx ny.
      rewrite (ravel_nth ny nx (fun r c => (sg_lon g r c, sg_lat g r c))) by assumption. reflexivity. }
  set (rows := ravel (ny - 1) (nx - 1) (fun r c => if a_at cm r c then [-1; -1; -1; -1] else row r c)).
  assert (Hrow : forall r c, (S r < ny)%nat -> (S c < nx)%nat -> a_at cm r c = false ->
     good_row (row r c) /\
     Forall2 (fun n xy => 0 <= n /\ nth_error (compress used (all_coords g)) (Z.to_nat n) = Some xy) (row r c) (corners g r c)).
  { intros r c H1 H2 Hm.
    destruct (Hat r c ltac:(lia) ltac:(lia)) as [A1 B1]; [apply node_used_corner with r c; auto|].
    destruct (Hat r (S c) ltac:(lia) ltac:(lia)) as [A2 B2]; [apply node_used_corner with r c; auto|].
    destruct (Hat (S r) (S c) ltac:(lia) ltac:(lia)) as [A3 B3]; [apply node_used_corner with r c; auto|].
    destruct (Hat (S r) c ltac:(lia) ltac:(lia)) as [A4 B4]; [apply node_used_corner with r c; auto|].
    split.
    - do 4 eexists. split; [reflexivity|]. lia.
    - unfold row, corners. rewrite A1, A2, A3, A4.
      repeat constructor; try lia; rewrite Nat2Z.id; assumption. }
  assert (Hchunk : chunk4 (filter (fun i => 0 <=? i) (concat rows)) = Ok (compress (map negb ms) rows)).
  { apply chunk_rows.
    - unfold ms, rows. rewrite !ravel_length. reflexivity.
    - intros i m rw Hm Hw. apply ravel_nth_inv in Hm, Hw.
      destruct Hm as (H1 & H2 & _ & ->), Hw as (_ & _ & _ & ->).
      destruct (a_at cm (i / (nx - 1))%nat (i mod (nx - 1))%nat) eqn:E; [reflexivity|].
      apply Hrow; auto; lia. }
  unfold row in rows. fold row in rows.
  match goal with |- context [chunk4 ?x] => change x with (filter (fun i => 0 <=? i) (concat rows)) end.
  rewrite Hchunk. cbn [bind]. eexists. split; [reflexivity|].
  assert (Hms : forall r c, (S r < ny)%nat -> (S c < nx)%nat ->
            nth_error (map negb ms) (r * (nx - 1) + c) = Some (negb (a_at cm r c))).
  { intros r c H1 H2. unfold ms. rewrite nth_error_map, ravel_nth by lia. reflexivity. }
  assert (Hrev : where_false 0 ms = compress (map negb ms) (map Z.of_nat (seq 0 (length ms)))).
  { rewrite where_false_compress. f_equal. }
  assert (Hlen : length (compress (map negb ms) rows) = length (where_false 0 ms)).
  { rewrite Hrev, !compress_length; [reflexivity| |].
    - rewrite !map_length, seq_length. reflexivity.
    - rewrite map_length. unfold ms, rows. rewrite !ravel_length. reflexivity. }
  set (t := mkTree _ _ _).
  assert (Hget : forall r c, (S r < ny)%nat -> (S c < nx)%nat -> a_at cm r c = false ->
     let k := rank (map negb ms) (r * (nx - 1) + c) in
     nth_error (compress (map negb ms) rows) k = Some (row r c) /\
     face_to_cell nx t (Z.of_nat k) = Ok (Z.of_nat r, Z.of_nat c)).
  { intros r c H1 H2 Hm k. assert (K := Hms r c H1 H2). rewrite Hm in K. cbn [negb] in K.
    assert (Krow : nth_error rows (r * (nx - 1) + c) = Some (row r c)).
    { unfold rows. rewrite ravel_nth by lia. rewrite Hm. reflexivity. }
    split.
    - apply compress_rank; assumption.
    - apply face_to_cell_flat with (Z.of_nat (r * (nx - 1) + c)); [lia| |reflexivity].
      cbn [t tr_rev].
      assert (W : nth_error (where_false 0 ms) k = Some (Z.of_nat (r * (nx - 1) + c))).
      { rewrite Hrev. apply compress_rank; [exact K|]. rewrite nth_error_map, nth_seq.
        rewrite (proj2 (Nat.ltb_lt _ _)); [reflexivity|].
        rewrite <- (map_length negb). eapply nth_error_Some_lt. exact K. }
      apply py_get_nat. rewrite nth_error_app1; [exact W|]. eapply nth_error_Some_lt. exact W. }
  assert (Hinv : forall k, (k < length (compress (map negb ms) rows))%nat ->
     exists r c, (S r < ny)%nat /\ (S c < nx)%nat /\ a_at cm r c = false /\ k = rank (map negb ms) (r * (nx - 1) + c)).
  { intros k Hk. destruct (nth_error_lt_Some _ _ Hk) as [rw Hrw].
    destruct (compress_inv _ _ _ _ Hrw) as (i & Hi & Hw & Ei).
    apply ravel_nth_inv in Hw. destruct Hw as (H1 & H2 & H3 & _).
    exists (i / (nx - 1))%nat, (i mod (nx - 1))%nat.
    split; [lia|]. split; [lia|]. rewrite H3, Hms in Hi by lia. injection Hi as Hi.
    apply negb_true_iff in Hi. split; [exact Hi|]. rewrite <- H3. symmetry. exact Ei. }
  split; cbn [t tr_faces].
  - intros k Hk. destruct (Hinv k Hk) as (r & c & H1 & H2 & Hm & Ek).
    destruct (Hget r c H1 H2 Hm) as [G1 G2]. rewrite <- Ek in G1, G2.
    exists r, c. split; [split; assumption|]. split; [exact Hm|]. split; [|exact G2].
    exists (row r c). split; [exact G1|]. apply Hrow; assumption.
  - intros r c [H1 H2] Hm. destruct (Hget r c H1 H2 Hm) as [G1 G2]. eexists. split; [|exact G2].
    eapply nth_error_Some_lt. exact G1.
  - intros k k' ij Hk Hk' E E'.
    destruct (Hinv k Hk) as (r & c & H1 & H2 & Hm & Ek), (Hinv k' Hk') as (r' & c' & H1' & H2' & Hm' & Ek').
    destruct (Hget r c H1 H2 Hm) as [_ G], (Hget r' c' H1' H2' Hm') as [_ G']. rewrite <- Ek in G. rewrite <- Ek' in G'.
    fold nx in E, E'. rewrite G in E. rewrite G' in E'. rewrite <- E' in E. injection E as Er Ec.
    assert (r = r') by lia. assert (c = c') by lia. subst r' c'. congruence.
  - apply face_to_cell_miss; [exact Hn|]. cbn [t tr_rev]. eexists. reflexivity.
Qed.

(** ** Padding *)
Lemma pad_slice_start p n : known p -> slice_start (padded p n) (pad_slice p) = low_extra p.
Proof.
  intros Hk. destruct p; try reflexivity; try (exfalso; apply Hk; reflexivity);
    unfold slice_start, pad_slice, norm_index, padded; cbn [fst snd low_extra high_extra Z.eqb]; cbn -[Z.of_nat Z.min Z.max Z.to_nat Z.add Nat.add]; lia.
Qed.
Lemma pad_slice_stop p n : known p -> slice_stop (padded p n) (pad_slice p) = (low_extra p + n)%nat.
Proof.
  intros Hk. destruct p; try (exfalso; apply Hk; reflexivity);
    unfold slice_stop, pad_slice, norm_index, padded; cbn [fst snd low_extra high_extra Z.eqb]; cbn -[Z.of_nat Z.min Z.max Z.to_nat Z.add Nat.add]; lia.
Qed.
Lemma pad_shift_known p i : known p -> pad_shift p (Z.of_nat i) = Ok (Z.of_nat (low_extra p + i)).
Proof. intros Hk. destruct p; try (exfalso; apply Hk; reflexivity); cbn -[Z.of_nat]; f_equal; lia. Qed.

Lemma slice2_padded {A} (a : arr A) p q n m : known p -> known q ->
  a_r a = padded p n -> a_c a = padded q m ->
  a_r (slice2 a (get_padding_slices (p, q))) = n /\ a_c (slice2 a (get_padding_slices (p, q))) = m /\
  forall r c, a_at (slice2 a (get_padding_slices (p, q))) r c = a_at a (low_extra p + r)%nat (low_extra q + c)%nat.
Proof.
  intros Hp Hq Hr Hc. unfold slice2, get_padding_slices. cbn [fst snd a_r a_c a_at].
  rewrite Hr, Hc, !pad_slice_start, !pad_slice_stop by assumption.
  repeat split; try lia.
Qed.

Lemma any_true_iff (m : arr mentry) : any_true (a_ravel m) = true <-> SomeNonzero m.
Proof.
  unfold any_true, SomeNonzero. rewrite existsb_exists. split.
  - intros (e & Hin & He). apply In_nth_error in Hin. destruct Hin as [k Hk].
    apply ravel_nth_inv in Hk. destruct Hk as (H1 & H2 & _ & ->).
    apply andb_true_iff in He. destruct He as [E1 E2]. apply negb_true_iff in E1, E2. apply Z.eqb_neq in E2.
    eauto 8.
  - intros (r & c & Hr & Hc & Hm & Hv). exists (a_at m r c). split.
    + apply nth_error_In with (r * a_c m + c)%nat. apply ravel_nth; assumption.
    + rewrite Hm, (proj2 (Z.eqb_neq _ _) Hv). reflexivity.
Qed.

Lemma Searches_ext {C} (g : sgrid C) t P Q :
  (forall r c, IsCell (sg_ny g) (sg_nx g) r c -> (P r c <-> Q r c)) -> Searches g t P -> Searches g t Q.
Proof.
  intros E [A B D F]. split; auto.
  - intros k Hk. destruct (A k Hk) as (r & c & H1 & H2 & H3 & H4). exists r, c. repeat split; auto; try apply H1.
    apply E; auto.
  - intros r c Hc Hq. apply B; auto. apply E; auto.
Qed.

Lemma build_plain {C} (g : sgrid C) use_mask : (1 < sg_nx g)%nat ->
  use_mask = false \/ (sg_node_mask g = false /\ sg_center_mask g = None /\ sg_own_mask g = None) ->
  exists t, build_celltree g use_mask = Ok t /\ Searches g t (fun _ _ => True).
Proof.
  intros Hn H. eexists. split; [|apply plain_searches; exact Hn].
  unfold build_celltree. destruct H as [->|(H1 & H2 & H3)].
  - cbn [andb]. destruct (sg_own_mask g); reflexivity.
  - rewrite H1, H2, H3. cbn [orb]. rewrite andb_false_r. reflexivity.
Qed.

Lemma build_masked {C} (g : sgrid C) k m : (1 < sg_nx g)%nat -> sg_center_mask g = Some (k, m) ->
  SomeNonzero m -> MaskFits g m ->
  exists t, build_celltree g true = Ok t /\ Searches g t (fun r c => ~ CellMasked g k m r c).
Proof.
  intros Hn Hm Hz (K1 & K2 & F1 & F2).
  unfold build_celltree. rewrite Hm, orb_true_r. cbn [andb].
  rewrite (proj2 (any_true_iff m) Hz).
  destruct (sg_center_pad g) as [p q] eqn:Ep. cbn [fst snd] in *.
  destruct (slice2_padded (mkArr (a_r m) (a_c m) (fun r c => convert_entry k (a_at m r c))) p q _ _ K1 K2 F1 F2) as (S1 & S2 & S3).
  destruct (masked_searches g _ Hn S1 S2) as (t & Ht & HS). exists t. split; [exact Ht|].
  eapply Searches_ext; [|exact HS]. intros r c _. cbn beta. rewrite S3. unfold CellMasked. rewrite Ep. cbn [fst snd a_at].
  destruct (convert_entry _ _); split; congruence.
Qed.
Lemma build_unbound {C} (g : sgrid C) :
  (sg_node_mask g = true \/ sg_center_mask g <> None) ->
  (forall k m, sg_center_mask g = Some (k, m) -> ~ SomeNonzero m) ->
  build_celltree g true = Err UnboundLocalError.
Proof.
  intros H1 H2. unfold build_celltree.
  destruct (sg_center_mask g) as [[k m]|].
  - rewrite orb_true_r. cbn [andb]. destruct (any_true (a_ravel m)) eqn:E; [|reflexivity].
    apply any_true_iff in E. exfalso. eapply H2; eauto.
  - destruct H1 as [->|H1]; [reflexivity|congruence].
Qed.
Lemma build_misfit {C} (g : sgrid C) k m : sg_center_mask g = Some (k, m) -> SomeNonzero m ->
  known (fst (sg_center_pad g)) -> known (snd (sg_center_pad g)) ->
  (exists n n', a_r m = padded (fst (sg_center_pad g)) n /\ a_c m = padded (snd (sg_center_pad g)) n' /\
     (n <> (sg_ny g - 1)%nat \/ n' <> (sg_nx g - 1)%nat)) ->
  build_celltree g true = Err ValueError.
Proof.
  intros Hm Hz K1 K2 (n & n' & F1 & F2 & Hne).
  unfold build_celltree. rewrite Hm, orb_true_r. cbn [andb].
  rewrite (proj2 (any_true_iff m) Hz).
  destruct (sg_center_pad g) as [p q] eqn:Ep. cbn [fst snd] in *.
  destruct (slice2_padded (mkArr (a_r m) (a_c m) (fun r c => convert_entry k (a_at m r c))) p q _ _ K1 K2 F1 F2) as (S1 & S2 & S3).
  unfold masked_faces. rewrite S1, S2. destruct (Nat.eqb _ _); [|reflexivity]. cbn [negb].
  destruct (Nat.eqb_spec n (sg_ny g - 1)); [|reflexivity]. destruct (Nat.eqb_spec n' (sg_nx g - 1)); [|reflexivity].
  exfalso. destruct Hne; contradiction.
Qed.

(** ** histories of searches *)
Section Hist.
  Context {P : Type} (peqb : list P -> list P -> bool) (cells : bool -> list P -> list (Z * Z)).
  Context (Hp : forall a b, peqb a b = true <-> a = b).
  Definition lsound (b : bool) (s : lstate (P := P)) : Prop :=
    (ls_tree s = None \/ ls_tree s = Some b) /\
    forall pts r, memo_get peqb (ls_memo s) pts = Some r -> r = map mask_cell (cells b pts).
  Lemma lstep_sound b s q : lsound b s -> lq_mask q = b -> (lq_one q = true -> lq_memo q = false) ->
    NoDup (map fst (ls_memo s)) ->
    lsound b (fst (locate_step peqb cells s q)) /\ snd (locate_step peqb cells s q) = pure_answer cells q /\
    NoDup (map fst (ls_memo (fst (locate_step peqb cells s q)))).
  Proof.
    intros [Ht Hm] Hq Ho Hn. unfold locate_step, pure_answer.
    destruct (if lq_memo q then memo_get peqb (ls_memo s) (lq_pts q) else None) as [r|] eqn:E.
    - destruct (lq_memo q); [|discriminate]. destruct (lq_one q); [specialize (Ho eq_refl); discriminate|].
      cbn [fst snd]. rewrite Hq, (Hm _ _ E). repeat split; auto.
    - assert (Eb : match ls_tree s with Some b0 => b0 | None => lq_mask q end = b)
        by (destruct Ht as [-> | ->]; auto).
      rewrite Eb, Hq. destruct (lq_one q); cbn [fst snd].
      + split; [|split]; auto. split; [right; reflexivity|exact Hm].
      + split; [|split]; auto.
        * split; [right; reflexivity|]. cbn [ls_memo]. destruct (lq_memo q); [|exact Hm].
          intros pts r G. destruct (list_eq_dec (fun x y : bool => Bool.bool_dec x y) [peqb (lq_pts q) pts] [true]) as [D|D].
          -- injection D as D. apply Hp in D. subst pts. rewrite (store_hit peqb Hp) in G. congruence.
          -- assert (lq_pts q <> pts) by (intros <-; apply D; f_equal; apply Hp; reflexivity).
             rewrite (store_other peqb Hp) in G by assumption.
             apply (evicted_get peqb Hp) in G; [|exact Hn]. apply Hm. exact G.
        * cbn [ls_memo]. destruct (lq_memo q); [|exact Hn]. apply (store_nodup peqb Hp). exact Hn.
  Qed.
  Lemma lrun_sound b qs : forall s, lsound b s -> NoDup (map fst (ls_memo s)) ->
    Forall (fun q => lq_mask q = b /\ (lq_one q = true -> lq_memo q = false)) qs ->
    snd (locate_run peqb cells s qs) = map (pure_answer cells) qs.
  Proof.
    induction qs as [|q qs IH]; intros s Hs Hn H; [reflexivity|]. inversion H as [|? ? [H1 H2] H3]; subst.
    destruct (lstep_sound _ s q Hs eq_refl H2 Hn) as (A & B & D).
    cbn [locate_run map]. destruct (locate_step peqb cells s q) as [s1 a]. cbn [fst snd] in *.
    specialize (IH s1 A D H3). destruct (locate_run peqb cells s1 qs) as [s2 l]. cbn [snd] in *. congruence.
  Qed.
  Lemma lrun_bounded qs : forall s, (length (ls_memo s) <= S locate_cap)%nat ->
    (length (ls_memo (fst (locate_run peqb cells s qs))) <= S locate_cap)%nat.
  Proof.
    induction qs as [|q qs IH]; intros s Hs; [exact Hs|]. cbn [locate_run].
    assert (length (ls_memo (fst (locate_step peqb cells s q))) <= S locate_cap)%nat as Hl.
    { unfold locate_step. destruct (if lq_memo q then memo_get peqb (ls_memo s) (lq_pts q) else None); [exact Hs|].
      destruct (lq_one q); [exact Hs|]. cbn [fst ls_memo]. destruct (lq_memo q); [|exact Hs].
      apply store_length; assumption. }
    destruct (locate_step peqb cells s q) as [s1 a]. specialize (IH s1 Hl).
    destruct (locate_run peqb cells s1 qs) as [s2 l]. exact IH.
  Qed.
End Hist.
