From Coq Require Import String Ascii QArith.
From Verif Require Import Common CommonProofs MaskModel MaskSpec MaskProofs GridTypeModel GridTypeProofs ChainModel VerdatModel UGridModel UFileModel UFileSpec.
Open Scope string_scope.
Open Scope list_scope.
Open Scope nat_scope.

(** ** strip *)
Lemma ltrim_gap g s : Gap g -> ltrim (g ++ s)%string = ltrim s.
Proof. induction g as [|c g IH]; cbn; auto. intros [B G]. apply blank_iff in B. rewrite B. auto. Qed.
Lemma ltrim_split s : exists g, Gap g /\ s = (g ++ ltrim s)%string.
Proof.
  induction s as [|c s (g & G & E)]; [exists ""; cbn; auto|]. cbn. destruct (is_blank c) eqn:B.
  - exists (String c g). cbn. split; [split; [now apply blank_iff|auto]|]. now rewrite <- E.
  - exists "". cbn. auto.
Qed.
Lemma rtrim_gap g : Gap g -> rtrim g = "".
Proof. induction g as [|c g IH]; cbn; auto. intros [B G]. apply blank_iff in B. rewrite (IH G), B. reflexivity. Qed.
Lemma rtrim_app s g : Gap g -> rtrim (s ++ g)%string = rtrim s.
Proof. intros G. induction s as [|c s IH]; cbn; [now apply rtrim_gap|]. rewrite IH. reflexivity. Qed.
Lemma rtrim_split s : exists g, Gap g /\ s = (rtrim s ++ g)%string.
Proof.
  induction s as [|c s (g & G & E)]; [exists ""; cbn; auto|]. cbn. destruct (String.eqb_spec (rtrim s) "") as [Z|N].
  - rewrite Z in E. cbn in E. destruct (is_blank c) eqn:B.
    + exists (String c g). cbn. split; [split; [now apply blank_iff|auto]|]. now subst.
    + exists g. split; auto. cbn. now subst.
  - exists g. split; auto. cbn. now rewrite <- E.
Qed.
Lemma strip_split s : exists g g', Gap g /\ Gap g' /\ s = (g ++ strip s ++ g')%string.
Proof.
  destruct (ltrim_split s) as (g & G & E), (rtrim_split (ltrim s)) as (g' & G' & E').
  exists g, g'. repeat split; auto. unfold strip. now rewrite <- E'.
Qed.
(** A word whose first and last characters are not blank is what is left. *)
Lemma strip_word g w g' : Gap g -> Gap g' -> ltrim w = w -> rtrim w = w -> strip (g ++ w ++ g')%string = w.
Proof.
  intros G G' L R. unfold strip. rewrite ltrim_gap by auto.
  destruct w as [|c w].
  - change ("" ++ g')%string with g'. destruct (ltrim_split g') as (h & H & E).
    rewrite E in G'. apply all_app in G'. now apply rtrim_gap.
  - replace (ltrim (String c w ++ g')%string) with (String c w ++ g')%string.
    + now rewrite rtrim_app.
    + cbn in L |- *. destruct (is_blank c); auto. exfalso.
      assert (H : forall s, String.length (ltrim s) <= String.length s).
      { induction s as [|d s IH]; cbn; auto. destruct (is_blank d); cbn; lia. }
      specialize (H w). rewrite L in H. cbn in H. lia.
Qed.
Lemma strip_iff s w : ltrim w = w -> rtrim w = w -> (strip s = w <-> Padded s w).
Proof.
  intros L R. split.
  - intros <-. destruct (strip_split s) as (g & g' & G & G' & E). exists g, g'. auto.
  - intros (g & g' & G & G' & ->). now apply strip_word.
Qed.
(** str.split() does not mind the blanks that strip() takes away. *)
Lemma gap_words g l : Gap g -> Words g l -> l = [].
Proof. intros G W. apply split_unique in W. rewrite <- W. apply split_unique. now constructor. Qed.
Lemma split_aux_tail s g : forall cur, Gap g -> split_aux (s ++ g)%string cur = split_aux s cur.
Proof.
  induction s as [|c s IH]; intros cur G.
  - cbn [append]. destruct (String.eqb_spec cur "") as [->|N].
    + replace g with (g ++ "")%string by apply str_nil_r. now rewrite split_aux_gap.
    + rewrite split_aux_end by auto. cbn. now rewrite eqb_empty.
  - cbn [append split_aux]. rewrite !IH by auto. reflexivity.
Qed.
Lemma split_strip s : split (strip s) = split s.
Proof.
  destruct (strip_split s) as (g & g' & G & G' & E). rewrite E at 2. unfold split.
  rewrite split_aux_gap by auto. now rewrite split_aux_tail.
Qed.

(** ** Meshes *)
Lemma is_mesh_iff v : is_mesh v = true <-> MeshVar v.
Proof.
  unfold is_mesh, MeshVar. destruct (dget (fv_attrs v) "cf_role") as [r|]; [|split; [discriminate|intros [(r & E & _) _]; discriminate]].
  assert (S : String.eqb (strip r) "mesh_topology" = true <-> Padded r "mesh_topology").
  { rewrite String.eqb_eq. now apply strip_iff. }
  destruct (String.eqb (strip r) "mesh_topology").
  - pose proof (proj1 S eq_refl) as P. destruct (fv_topology_dimension v) as [d|].
    + rewrite orb_true_iff, !Z.eqb_eq. split.
      * intros [->| ->]; split; eauto.
      * intros [_ [E|E]]; injection E; auto.
    + split; [discriminate|]. intros [_ [E|E]]; discriminate.
  - split; [discriminate|]. intros [(r' & E & P) _]. injection E as <-. apply S in P. discriminate.
Qed.
Lemma fget_in f n v : fget f n = Some v -> In v f /\ fv_name v = n.
Proof. unfold fget. intros H. apply find_some in H. destruct H as [I E]. apply String.eqb_eq in E. auto. Qed.
Lemma fget_of f v : NoDup (map fv_name f) -> In v f -> fget f (fv_name v) = Some v.
Proof.
  induction f as [|w f IH]; intros N I; [destruct I|]. cbn. destruct I as [->|I].
  - now rewrite String.eqb_refl.
  - inversion N as [|? ? Nw Nf]; subst. destruct (String.eqb_spec (fv_name v) (fv_name w)) as [E|_].
    + exfalso. apply Nw. rewrite <- E. now apply in_map.
    + now apply IH.
Qed.
Lemma mesh_names f : NoDup (map fv_name f) -> find_mesh_names f = map fv_name (filter is_mesh f).
Proof.
  intros N. unfold find_mesh_names.
  assert (G : forall l, incl l f -> filter (is_valid_mesh f) (map fv_name l) = map fv_name (filter is_mesh l)).
  { induction l as [|v l IH]; intros I; auto. cbn [map filter].
    replace (is_valid_mesh f (fv_name v)) with (is_mesh v).
    - rewrite IH by (intros x Hx; apply I; now right). now destruct (is_mesh v).
    - unfold is_valid_mesh. rewrite (fget_of f v N); auto. apply I. now left. }
  apply G. apply incl_refl.
Qed.

(** ** Tables *)
Lemma nth_seq_map {A} (f : nat -> A) n j d : j < n -> nth j (map f (seq 0 n)) d = f j.
Proof.
  intros H. rewrite (nth_indep _ d (f 0)) by (rewrite map_length, seq_length; lia).
  rewrite map_nth, seq_nth by lia. reflexivity.
Qed.
Lemma table_ext w (t u : table) : length t = length u -> Rect w t -> Rect w u ->
  (forall i j, i < length t -> j < w -> at2 t i j = at2 u i j) -> t = u.
Proof.
  unfold at2, Rect. intros L Rt Ru H. apply (nth_ext t u [] [] L). intros i Hi.
  rewrite Forall_forall in Rt, Ru.
  assert (L1 : length (nth i t []) = w) by (apply Rt, nth_In; auto).
  assert (L2 : length (nth i u []) = w) by (apply Ru, nth_In; lia).
  apply (nth_ext _ _ None None); [congruence|]. intros j Hj. apply H; auto. lia.
Qed.
Lemma width_rect w (t : table) : Rect w t -> t <> [] -> width t = w.
Proof. intros R N. destruct t as [|r t]; [contradiction|]. now inversion R. Qed.
Lemma transposed_flipped w t a : 0 < w -> Rect w t -> Flipped w t a -> transposed a = t.
Proof.
  intros W R (La & Ra & H).
  assert (Na : a <> []) by (destruct a; [cbn in La; lia|discriminate]).
  assert (Wa := width_rect _ _ Ra Na).
  apply (table_ext w); auto.
  - unfold transposed. now rewrite map_length, seq_length.
  - unfold transposed. apply Forall_forall. intros r Hr. apply in_map_iff in Hr. destruct Hr as (i & <- & _). now rewrite map_length.
  - unfold transposed. rewrite map_length, seq_length, Wa. intros i j Hi Hj. unfold at2. rewrite nth_seq_map by auto.
    rewrite (nth_indep _ None (nth i [] None)) by (rewrite map_length; lia).
    rewrite (map_nth (fun row => nth i row None)). apply (H i j); auto.
Qed.

Lemma stored_zero flag t a : Stored 0 flag t a -> a = t.
Proof.
  assert (E : forall x y, StoredEntry 0 flag x y -> y = x).
  { intros x y H. destruct H; auto. f_equal. lia. }
  assert (R : forall r s, Forall2 (StoredEntry 0 flag) r s -> s = r).
  { induction 1; auto. f_equal; auto. }
  unfold Stored. induction 1; auto. f_equal; auto.
Qed.
Definition restore (s : Z) (flag : option Z) (o : option Z) : option Z :=
  match flag with
  | Some f => option_map (fun x => if (x =? f - s)%Z then f else x) (option_map (fun x => x - s)%Z o)
  | None => option_map (fun x => x - s)%Z o
  end.
Lemma restore_entry s flag x y : StoredEntry s flag x y -> restore s flag y = x.
Proof.
  destruct 1 as [|f ->|i N]; unfold restore.
  - now destruct flag.
  - cbn. now rewrite Z.eqb_refl.
  - destruct flag as [f|]; cbn.
    + destruct (Z.eqb_spec (i + s - s)%Z (f - s)%Z) as [E|_]; [exfalso; apply N; f_equal; lia|]. f_equal. lia.
    + f_equal. lia.
Qed.
Lemma restore_table s flag t a : Stored s flag t a ->
  match flag with
  | Some f => map_table (fun x => if (x =? f - s)%Z then f else x) (map_table (fun x => x - s)%Z a)
  | None => map_table (fun x => x - s)%Z a
  end = t.
Proof.
  intros H. transitivity (map (map (restore s flag)) a).
  - unfold map_table, restore. destruct flag; [|reflexivity]. rewrite map_map. apply map_ext. intros r. now rewrite map_map.
  - induction H as [|r r' t a Hr _ IH]; auto. cbn. f_equal; auto.
    induction Hr as [|x y r r' Hx _ IHr]; auto. cbn. f_equal; auto. now apply restore_entry.
Qed.
Lemma stored_shape s flag t a : Stored s flag t a -> length a = length t /\ forall w, Rect w t -> Rect w a.
Proof.
  assert (L : forall r r', Forall2 (StoredEntry s flag) r r' -> length r' = length r) by (induction 1; cbn; auto).
  unfold Stored. induction 1 as [|r r' t a Hr _ (IH1 & IH2)]; cbn; [split; auto|].
  split; auto. intros w R. inversion R; subst. constructor; [auto|now apply IH2].
Qed.
Lemma shifted_from s flag t a start : Stored s flag t a -> (0 <= s)%Z -> start = s ->
  (if (1 <=? start)%Z then
        let b := map_table (fun x => x - start)%Z a in
        match flag with
        | Some flag => map_table (fun x => if (x =? flag - start)%Z then flag else x) b
        | None => b
        end
      else a) = t.
Proof.
  intros H P ->. destruct (Z.leb_spec 1 s).
  - now apply restore_table.
  - assert (s = 0%Z) by lia. subst. now apply stored_zero in H.
Qed.
Lemma at2_stored s flag t a : Stored s flag t a -> forall i j, i < length t -> j < length (nth i t []) ->
  StoredEntry s flag (at2 t i j) (at2 a i j).
Proof.
  unfold Stored, at2. induction 1 as [|r r' t a Hr _ IH]; intros i j Hi Hj; [cbn in Hi; lia|].
  destruct i as [|i]; cbn [nth] in *; [|apply IH; cbn in Hi; auto; lia].
  clear IH Hi. revert j Hj. induction Hr; intros j Hj; [cbn in Hj; lia|]. destruct j; cbn in *; auto. apply IHHr. lia.
Qed.

(** Maxima. *)
Lemma fold_max l : forall x, let m := fold_left Z.max l x in (In m (x :: l)) /\ forall y, In y (x :: l) -> (y <= m)%Z.
Proof.
  induction l as [|a l IH]; intros x; cbn [fold_left].
  - split; [now left|]. intros y [->|[]]. lia.
  - destruct (IH (Z.max x a)) as [I M]. split.
    + destruct I as [I|I]; [|now right; right]. rewrite <- I. destruct (Z.max_spec x a) as [[_ E]|[_ E]]; rewrite E; cbn; auto.
    + intros y [->|[->|Hy]].
      * specialize (M (Z.max y a) (or_introl eq_refl)). lia.
      * specialize (M (Z.max x y) (or_introl eq_refl)). lia.
      * apply M. now right.
Qed.
Lemma zmax_spec l m : zmax l = Ok m <-> In m l /\ forall y, In y l -> (y <= m)%Z.
Proof.
  destruct l as [|x l]; cbn; [split; [discriminate|intros [[] _]]|].
  destruct (fold_max l x) as [I M]. cbn in I, M. split.
  - intros H. injection H as <-. auto.
  - intros [I' M']. f_equal. pose proof (M _ I'). pose proof (M' _ I). lia.
Qed.
Lemma fold_min l : forall x, let m := fold_left Z.min l x in (In m (x :: l)) /\ forall y, In y (x :: l) -> (m <= y)%Z.
Proof.
  induction l as [|a l IH]; intros x; cbn [fold_left].
  - split; [now left|]. intros y [->|[]]. lia.
  - destruct (IH (Z.min x a)) as [I M]. split.
    + destruct I as [I|I]; [|now right; right]. rewrite <- I. destruct (Z.min_spec x a) as [[_ E]|[_ E]]; rewrite E; cbn; auto.
    + intros y [->|[->|Hy]].
      * specialize (M (Z.min y a) (or_introl eq_refl)). lia.
      * specialize (M (Z.min x y) (or_introl eq_refl)). lia.
      * apply M. now right.
Qed.
Lemma unmasked_iff t x : In x (unmasked t) <-> Occurs x t.
Proof.
  unfold unmasked, Occurs. rewrite in_flat_map. split.
  - intros (o & Ho & Hx). destruct o as [z|]; [|destruct Hx]. destruct Hx as [->|[]]. apply in_concat in Ho.
    destruct Ho as (r & Hr & Hi). eauto.
  - intros (r & Hr & Hx). exists (Some x). split; [|now left]. apply in_concat. eauto.
Qed.
Lemma concat_nil t : Nonempty t -> concat t <> [].
Proof. intros (r & x & Hr & Hx) E. assert (I : In x (concat t)) by (apply in_concat; eauto). rewrite E in I. destruct I. Qed.
Lemma table_max_some t m : Occurs m t -> (forall x, Occurs x t -> (x <= m)%Z) -> table_max t = Ok (Some m).
Proof.
  intros O M. unfold table_max. destruct (concat t) eqn:E.
  - exfalso. destruct O as (r & Hr & Hx). eapply (concat_nil t); [exists r, (Some m); auto|exact E].
  - replace (zmax (unmasked t)) with (Ok m); auto. symmetry. apply zmax_spec. split; [now apply unmasked_iff|].
    intros y Hy. apply M. now apply unmasked_iff.
Qed.
Lemma table_max_bound t n : Nonempty t -> (forall x, Occurs x t -> (x < n)%Z) ->
  exists m, table_max t = Ok m /\ match m with Some m => (m < n)%Z | None => True end.
Proof.
  intros N B. unfold table_max. destruct (concat t) eqn:E; [exfalso; now apply (concat_nil t)|].
  destruct (zmax (unmasked t)) as [m|e] eqn:M; [|exists None; auto]. exists (Some m). split; auto.
  apply zmax_spec in M. apply B. apply unmasked_iff, M.
Qed.
Lemma assign_valid n t : ValidFaces n t -> assign_faces n t = Ok t.
Proof.
  intros [N V]. unfold assign_faces. destruct (concat t) eqn:E; [exfalso; now apply (concat_nil t)|]. clear E.
  destruct (zmax (unmasked t)) as [mx|e] eqn:M; auto. apply zmax_spec in M. destruct M as [I M].
  pose proof (V mx (proj1 (unmasked_iff _ _) I)) as B.
  destruct (Z.gtb_spec mx (Z.of_nat n)); [lia|].
  destruct (unmasked t) as [|u us] eqn:U; [destruct I|].
  cbn [zmin bind]. destruct (Z.eqb_spec mx (Z.of_nat n)); [lia|]. cbn [bind]. rewrite U. cbn [zmin bind].
  destruct (fold_min us u) as [Im Mm]. cbn zeta in Im.
  assert (Iu : In (fold_left Z.min us u) (unmasked t)) by now rewrite U.
  apply unmasked_iff, V in Iu. destruct (Z.ltb_spec (fold_left Z.min us u) (-1)); [lia|]. reflexivity.
Qed.
Lemma stored_shift s t : Stored s None t (map_table (fun x => x + s)%Z t).
Proof.
  unfold Stored, map_table. induction t as [|r t IH]; constructor; auto. clear IH.
  induction r as [|o r IH]; constructor; auto. destruct o as [z|]; constructor. discriminate.
Qed.
