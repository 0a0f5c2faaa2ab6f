(** Lemmas about loading a mesh by variable names. *)
From Coq Require Import QArith String.
From Verif Require Import Common CommonProofs GridTypeModel UGridModel UGridSpec UGridProofs NLoadModel NLoadSpec.
Open Scope list_scope.
Open Scope nat_scope.

Lemma nth_seq_map {A} (f : nat -> A) n j d : j < n -> nth j (map f (seq 0 n)) d = f j.
Proof.
  intros H. rewrite (nth_indep _ d (f 0)) by (rewrite map_length, seq_length; lia).
  rewrite map_nth, seq_nth by lia. reflexivity.
Qed.
Lemma table_ext w (t u : list (list Z)) : length t = length u -> Rect w t -> Rect w u ->
  (forall i j, i < length t -> j < w -> entry t i j = entry u i j) -> t = u.
Proof.
  unfold entry, Rect. intros L Rt Ru H. apply (nth_ext t u [] [] L). intros i Hi.
  rewrite Forall_forall in Rt, Ru.
  assert (L1 : length (nth i t []) = w) by (apply Rt, nth_In; auto).
  assert (L2 : length (nth i u []) = w) by (apply Ru, nth_In; lia).
  apply (nth_ext _ _ 0%Z 0%Z); [congruence|]. intros j Hj. apply H; auto. lia.
Qed.
Lemma width_rect w (t : list (list Z)) : Rect w t -> t <> [] -> width t = w.
Proof. intros R N. destruct t as [|r t]; [contradiction|]. now inversion R. Qed.
Lemma transposed_entry t i j : i < width t -> j < length t -> entry (transposed t) i j = entry t j i.
Proof.
  intros Hi Hj. unfold entry, transposed. rewrite nth_seq_map by auto.
  rewrite (nth_indep _ 0%Z (nth i [] 0%Z)) by (rewrite map_length; lia). now rewrite (map_nth (fun row => nth i row 0%Z)).
Qed.
Lemma transposed_shape t : length (transposed t) = width t /\ Rect (length t) (transposed t).
Proof.
  unfold transposed. split; [now rewrite map_length, seq_length|]. apply Forall_forall. intros r Hr.
  apply in_map_iff in Hr. destruct Hr as (i & <- & _). now rewrite map_length.
Qed.
Lemma transposed_exchanged w t a : 0 < w -> Rect w t -> Exchanged w t a -> transposed a = t.
Proof.
  intros W R (La & Ra & H).
  assert (Na : a <> []) by (destruct a; [cbn in La; lia|discriminate]).
  assert (Wa := width_rect _ _ Ra Na). destruct (transposed_shape a) as (L & S). rewrite Wa in L. rewrite La in S.
  apply (table_ext w); auto. intros i j Hi Hj. rewrite transposed_entry by lia. apply (H i j); lia.
Qed.
Lemma oriented_holds w t a : 0 < w < length t -> Rect w t -> Holds w t a -> oriented a = t.
Proof.
  intros [W L] R H. unfold oriented.
  assert (Nt : t <> []) by (destruct t; [cbn in L; lia|discriminate]).
  destruct H as [->|H].
  - rewrite (width_rect w t R Nt). destruct (Nat.leb_spec (length t) w); [lia|reflexivity].
  - pose proof H as (La & Ra & _). assert (Na : a <> []) by (destruct a; [cbn in La; lia|discriminate]).
    rewrite (width_rect _ _ Ra Na). destruct (Nat.leb_spec (length a) (length t)); [|lia]. now apply (transposed_exchanged w).
Qed.
Lemma in_counted base t x : In x (concat (counted base t)) <-> In (x - base)%Z (concat t).
Proof.
  unfold counted. rewrite concat_map_map, in_map_iff. split.
  - intros (y & <- & H). replace (y + base - base)%Z with y by lia. exact H.
  - intros H. exists (x - base)%Z. split; [lia|exact H].
Qed.
Lemma counted_rect w base t : Rect w t -> Rect w (counted base t).
Proof. unfold Rect, counted. rewrite Forall_map. intros H. eapply Forall_impl; [|exact H]. intros r E. cbn. now rewrite map_length. Qed.
Lemma counted_length base t : length (counted base t) = length t.
Proof. apply map_length. Qed.
Lemma counted_zero t : counted 0 t = t.
Proof.
  unfold counted. rewrite (map_ext _ id), map_id; auto. intros r. rewrite (map_ext _ id), map_id; auto. intros x. unfold id. lia.
Qed.
Lemma decremented_counted t : decremented true (counted 1 t) = t.
Proof.
  unfold decremented, counted. rewrite map_map. rewrite (map_ext _ id), map_id; auto. intros r. rewrite map_map, (map_ext _ id), map_id; auto.
  intros x. unfold id. lia.
Qed.
Lemma zmin_is l m : In m l -> (forall y, In y l -> (m <= y)%Z) -> zmin l = Ok m.
Proof.
  intros I H. destruct (zmin_total l) as (k & K); [intros ->; contradiction|]. rewrite K. f_equal.
  destruct (zmin_ok _ _ K) as (Ik & Hk). specialize (H _ Ik). specialize (Hk _ I). lia.
Qed.
Lemma look_mapped {A} (vars : dict A) mapping role v : look vars mapping role = Ok v <-> Mapped vars mapping role v.
Proof.
  unfold look, Mapped. destruct (dget mapping role) as [n|].
  - destruct (dget vars n) eqn:E; split.
    + intros H. injection H as <-. eauto.
    + intros (m & Hm & Hv). injection Hm as <-. congruence.
    + discriminate.
    + intros (m & Hm & Hv). injection Hm as <-. congruence.
  - split; [discriminate|]. intros (m & Hm & _). discriminate.
Qed.
Lemma load_parts f mapping checks m : load_from_varnames f mapping checks = Ok m ->
  exists lon lat lats faces mn faces',
    check_attrs (mf_attrs f) checks = Ok tt /\
    Mapped (mf_nums f) mapping "nodes_lon" lon /\ Mapped (mf_nums f) mapping "nodes_lat" lat /\
    column (length (nv_vals lon)) (nv_vals lat) = Ok lats /\ Mapped (mf_ints f) mapping "faces" faces /\
    zmin (concat (oriented faces)) = Ok mn /\ set_faces (length (nv_vals lon)) (decremented (mn =? 1)%Z (oriented faces)) = Ok faces' /\
    um_nodes m = combine (nv_vals lon) lats /\ um_faces m = faces' /\
    match dget mapping "face_face_connectivity" with
    | None => um_ff m = None
    | Some _ => exists t, Mapped (mf_ints f) mapping "face_face_connectivity" t /\ shape_ok faces' (decremented (mn =? 1)%Z (oriented t)) = true /\
                 um_ff m = Some (decremented (mn =? 1)%Z (oriented t))
    end /\
    match dget mapping "face_coordinates_lon", dget mapping "face_coordinates_lat" with
    | Some _, Some _ => exists x y xs ys, Mapped (mf_nums f) mapping "face_coordinates_lon" x /\ Mapped (mf_nums f) mapping "face_coordinates_lat" y /\
          column (length faces') (nv_vals x) = Ok xs /\ column (length faces') (nv_vals y) = Ok ys /\
          um_fcoords m = Some (combine (store_as (nv_whole lon) xs) (store_as (nv_whole lon) ys))
    | _, _ => um_fcoords m = None
    end /\
    match dget mapping "boundaries" with
    | None => um_bounds m = None
    | Some _ => exists t, Mapped (mf_ints f) mapping "boundaries" t /\ um_bounds m = Some (decremented (mn =? 1)%Z (map (firstn 2) t))
    end.
Proof.
  unfold load_from_varnames. intros H.
  apply bind_ok in H. destruct H as ([] & Ea & H).
  apply bind_ok in H. destruct H as (lon & Elon & H). apply look_mapped in Elon.
  apply bind_ok in H. destruct H as (lat & Elat & H). apply look_mapped in Elat.
  apply bind_ok in H. destruct H as (lats & Elats & H).
  apply bind_ok in H. destruct H as (faces & Ef & H). apply look_mapped in Ef.
  apply bind_ok in H. destruct H as (mn & Emn & H).
  apply bind_ok in H. destruct H as (faces' & Ef' & H).
  apply bind_ok in H. destruct H as (ff & Eff & H).
  apply bind_ok in H. destruct H as (fc & Efc & H).
  apply bind_ok in H. destruct H as (bs & Ebs & H). injection H as <-. cbn [um_nodes um_faces um_ff um_fcoords um_bounds].
  exists lon, lat, lats, faces, mn, faces'. repeat (split; [assumption||reflexivity|]). split; [|split].
  - destruct (dget mapping "face_face_connectivity"); [|congruence]. apply bind_ok in Eff. destruct Eff as (t & Et & Eff). apply look_mapped in Et.
    destruct (shape_ok _ _) eqn:S; [|discriminate]. injection Eff as <-. eauto.
  - destruct (dget mapping "face_coordinates_lon"), (dget mapping "face_coordinates_lat"); try congruence.
    apply bind_ok in Efc. destruct Efc as (x & Ex & Efc). apply look_mapped in Ex. apply bind_ok in Efc. destruct Efc as (xs & Exs & Efc).
    apply bind_ok in Efc. destruct Efc as (y & Ey & Efc). apply look_mapped in Ey. apply bind_ok in Efc. destruct Efc as (ys & Eys & Efc).
    injection Efc as <-. exists x, y, xs, ys. auto.
  - destruct (dget mapping "boundaries"); [|congruence]. apply bind_ok in Ebs. destruct Ebs as (t & Et & Ebs). apply look_mapped in Et.
    injection Ebs as <-. eauto.
Qed.
Lemma mapped_fun {A} (vars : dict A) mapping role v w : Mapped vars mapping role v -> Mapped vars mapping role w -> v = w.
Proof. intros H1 H2. apply look_mapped in H1, H2. congruence. Qed.
(** The smallest number of the file. *)
Lemma file_min n w base F a : (base = 0 \/ base = 1)%Z -> 0 < w < length F -> IsMesh n w F -> UsesFirst F -> Holds w (counted base F) a ->
  oriented a = counted base F /\ zmin (concat (oriented a)) = Ok base.
Proof.
  intros B L (W & R & V) U H.
  assert (E : oriented a = counted base F). { apply (oriented_holds w); auto; [rewrite counted_length; lia|now apply counted_rect]. }
  split; [exact E|]. rewrite E. apply zmin_is.
  - apply in_counted. now rewrite Z.sub_diag.
  - intros y Hy. apply in_counted in Hy. apply V in Hy. lia.
Qed.
