(** C109. *)
From Coq Require Import String Lqa.
From Verif Require Import Common CommonProofs TimeModel TimeSpec VariableModel VariableProofs DepthModel DepthSpec UGridGeomModel UGridGeomSpec UGridGeomProofs UGridLocProofs
  UGridInterpProofs RGridModel RGridSpec RGridProofs WholeModel WholeSpec WholeProofs WholeProps WMaskSpec WMaskProofs.
Open Scope list_scope.
Open Scope nat_scope.

Lemma Forall2_in {A B} (P R : A -> B -> Prop) l m : (forall a b, In a l -> P a b -> R a b) -> Forall2 P l m -> Forall2 R l m.
Proof. intros H F. revert H. induction F; intros H'; constructor; [apply H'; [now left|assumption]|]. apply IHF. intros; apply H'; [now right|assumption]. Qed.

(** Node data, missing at some nodes at some times and depths, where the three
    nodes of the triangles asked for are missing together: the answer is missing
    when a sample in use is, else the field.  Missing: depths outside
    [DepthAsked]. *)
Theorem c109_mesh_nodes_partial :
  forall tree hist nodes faces find data time levels sbc bbc q q' ex (f : quantity) (m : Z -> Q -> nat -> bool) z pts,
  (forall ps, tree nodes faces ps = map find ps) -> (forall ix ps, Forall asks (hist ix ps)) ->
  TriMesh nodes faces -> FindsFaces nodes faces find ->
  TimeOk (option_map t_data time) ex q q' -> LevelsOk levels ->
  (forall s, In s pts -> DepthOk levels sbc bbc (deep s) (z (deep s))) ->
  Changes (option_map t_data time) levels f ->
  (forall ix t d, SampleAt (option_map t_data time) levels ix t d ->
     MaskedSamples (length nodes) (m t d) (FieldAt nodes (f t d)) (data ix) /\ LinearOverFaces nodes faces (f t d) /\
     forall s k a b c, In s pts -> FaceAsked (length faces) (find (place s)) k -> nth_error faces k = Some [Z.of_nat a; Z.of_nat b; Z.of_nat c] ->
       m t d b = m t d a /\ m t d c = m t d a) ->
  exists vs, at_grid (mesh_interp tree hist nodes faces VNode data) (order_of (some time) (some levels) GOther) (shape_of time levels [length nodes]) time
      (option_map (fun ls => l_view deep ls (Some (length ls)) sbc bbc) levels) q ex pts = Ok vs /\
    Forall2 (fun s r => exists k a b c, FaceAsked (length faces) (find (place s)) k /\ nth_error faces k = Some [Z.of_nat a; Z.of_nat b; Z.of_nat c] /\
      let missing := Missing (option_map t_data time) levels ex q q' (deep s) (z (deep s)) (fun u d => m u d a) in
      (find (place s) <> (-1)%Z -> Sees missing (f q' (z (deep s)) (place s)) r) /\ (find (place s) = (-1)%Z -> Sees missing 0 r)) pts vs.
Proof.
  intros tree hist nodes faces find data time levels sbc bbc q q' ex f m z pts HT HH M FF T L D Ch S.
  (* the first corner *)
  assert (exists cor : spot -> nat * nat * nat, forall s, let '(a, b, c) := cor s in corners_of faces find s a b c) as (cor & HC).
  { exists (fun s => let k := if (find (place s) =? -1)%Z then length faces - 1 else Z.to_nat (find (place s)) in
      match nth k faces [] with [a; b; c] => (Z.to_nat a, Z.to_nat b, Z.to_nat c) | _ => (0, 0, 0) end).
    intros s. destruct (corners_exist nodes faces find s M FF) as (a & b & c & A & B & C & Co & _).
    destruct Co as (k & Fk & Hf). cbv zeta.
    assert ((if (find (place s) =? -1)%Z then length faces - 1 else Z.to_nat (find (place s))) = k) as ->.
    { destruct Fk as [-> | [-> ->]]; [destruct (Z.eqb_spec (Z.of_nat k) (-1)); [lia|now rewrite Nat2Z.id]|reflexivity]. }
    rewrite (nth_error_nth _ _ [] Hf), !Nat2Z.id. exists k. auto. }
  destruct (composed_sees GOther (mesh_interp tree hist nodes faces VNode data) (fun ix => node_leaf nodes faces find (data ix)) time levels sbc bbc [length nodes] q q' ex
    (fun u d s => m u d (fst (fst (cor s)))) (fun t d s => if (find (place s) =? -1)%Z then 0%Q else f t d (place s)) z pts T L D (changes_if _ _ _ _ _ Ch)) as (vs & E & V).
  - intros ix u d HS ps. destruct (S ix u d HS) as (MS & _). exact (mesh_masked tree hist nodes faces find HT HH data _ _ ix ps M FF MS).
  - intros ix u d s HS Hs. destruct (S ix u d HS) as (MS & Li & Un). specialize (HC s). destruct (cor s) as [[a b] c]. cbn [fst].
    destruct (corners_exist nodes faces find s M FF) as (a' & b' & c' & A & B & C & Co & HA & HB & HCn & X). destruct (corners_unique _ _ _ _ _ _ _ _ _ HC Co) as (-> & -> & ->).
    destruct (node_sees nodes faces find s (data ix) _ _ a' b' c' A B C HC HA HB HCn X MS) as (al & x & v & w & _ & _ & HCo & Sn).
    destruct HC as (k & Fk & Hf).
    apply (sees_iff (m u d a' && m u d a' && m u d a' = true)); [destruct (m u d a'); tauto|]. destruct (Un s k a' b' c' Hs Fk Hf) as (Eb & Ec). rewrite Eb, Ec in Sn.
    destruct (Z.eqb_spec (find (place s)) (-1)) as [H|H]; [exact Sn|].
    destruct Sn as [Sn|[Nm Sn]]; [now left|right]. split; [exact Nm|]. eapply shows_eq; [exact Sn|].
    destruct (m u d a'); [exfalso; apply Nm; reflexivity|]. cbn [kept]. unfold FieldAt. rewrite HA, HB, HCn.
    destruct (FF (place s)) as [|(k' & a2 & b2 & c2 & A2 & B2 & C2 & Ek & Hk & HA2 & HB2 & HC2 & In3)]; [congruence|].
    assert (k' = k) as -> by (destruct Fk as [Fk|[Fk _]]; lia). rewrite Hf in Hk. injection Hk as Ea Eb2 Ec2. apply Nat2Z.inj in Ea, Eb2, Ec2. subst a2 b2 c2.
    assert (A2 = A) by congruence. assert (B2 = B) by congruence. assert (C2 = C) by congruence. subst A2 B2 C2.
    symmetry. exact (linear_combination nodes faces (f u d) (place s) a' b' c' A B C x v w Li (nth_error_In _ _ Hf) HA HB HCn In3 HCo).
  - exists vs. split; [exact E|]. revert V. apply Forall2_impl'. intros s r H. specialize (HC s). destruct (cor s) as [[a b] c]. cbn [fst] in H. destruct HC as (k & Fk & Hf).
    exists k, a, b, c. split; [exact Fk|split; [exact Hf|]]. cbv zeta. destruct (Z.eqb_spec (find (place s)) (-1)); split; intros; tauto || congruence.
Qed.
Print Assumptions c109_mesh_nodes_partial.

(** Otherwise a missing node counts as 0: with [g] the field at the nodes and 0
    where it is missing, the answer is the weighted sum of [g], and missing only
    when the three nodes are. *)
Theorem c109_mesh_as_zero_partial :
  forall tree hist nodes faces find data time levels sbc bbc q q' ex (g : Z -> Q -> nat -> Q) (m : Z -> Q -> nat -> bool) z pts,
  (forall ps, tree nodes faces ps = map find ps) -> (forall ix ps, Forall asks (hist ix ps)) ->
  TriMesh nodes faces -> FindsFaces nodes faces find ->
  TimeOk (option_map t_data time) ex q q' -> LevelsOk levels ->
  (forall s, In s pts -> DepthOk levels sbc bbc (deep s) (z (deep s))) ->
  Changes (option_map t_data time) levels g ->
  (forall ix t d, SampleAt (option_map t_data time) levels ix t d ->
     MaskedSamples (length nodes) (m t d) (g t d) (data ix) /\ forall n, m t d n = true -> (g t d n == 0)%Q) ->
  exists vs, at_grid (mesh_interp tree hist nodes faces VNode data) (order_of (some time) (some levels) GOther) (shape_of time levels [length nodes]) time
      (option_map (fun ls => l_view deep ls (Some (length ls)) sbc bbc) levels) q ex pts = Ok vs /\
    Forall2 (fun s r => exists k a b c A B C x y w, FaceAsked (length faces) (find (place s)) k /\ nth_error faces k = Some [Z.of_nat a; Z.of_nat b; Z.of_nat c] /\
      nth_error nodes a = Some A /\ nth_error nodes b = Some B /\ nth_error nodes c = Some C /\ Combination A B C (place s) x y w /\
      let missing := Missing (option_map t_data time) levels ex q q' (deep s) (z (deep s)) (fun u d => m u d a && m u d b && m u d c) in let G := g q' (z (deep s)) in
      (find (place s) <> (-1)%Z -> Sees missing (x * G a + y * G b + w * G c) r) /\ (find (place s) = (-1)%Z -> Sees missing 0 r)) pts vs.
Proof.
  intros tree hist nodes faces find data time levels sbc bbc q q' ex g m z pts HT HH M FF T L D Ch S.
  set (corner := fun s => match nth (if (find (place s) =? -1)%Z then length faces - 1 else Z.to_nat (find (place s))) faces [] with [a; b; c] => (Z.to_nat a, Z.to_nat b, Z.to_nat c) | _ => (0, 0, 0) end).
  set (W := fun s : spot => let '(a, b, c) := corner s in alphas_of (nth a nodes (0, 0)%Q) (nth b nodes (0, 0)%Q) (nth c nodes (0, 0)%Q) (place s)).
  set (num := fun (c : cell) => match c with CVal v => v | _ => 0%Q end).
  assert (K : forall s, exists k a b c A B C x y w, corner s = (a, b, c) /\ FaceAsked (length faces) (find (place s)) k /\ nth_error faces k = Some [Z.of_nat a; Z.of_nat b; Z.of_nat c] /\
    nth_error nodes a = Some A /\ nth_error nodes b = Some B /\ nth_error nodes c = Some C /\ W s = [CVal x; CVal y; CVal w] /\ Combination A B C (place s) x y w /\ ~ (Cross A B C == 0)%Q).
  { intros s. destruct (corners_exist nodes faces find s M FF) as (a & b & c & A & B & C & (k & Fk & Hf) & HA & HB & HC & X).
    destruct (alphas_weights A B C (place s) X) as (x & y & w & Ea & Co). exists k, a, b, c, A, B, C, x, y, w.
    assert (Ec : corner s = (a, b, c)).
    { unfold corner. assert ((if (find (place s) =? -1)%Z then length faces - 1 else Z.to_nat (find (place s))) = k) as ->.
      { destruct Fk as [-> | [-> ->]]; [destruct (Z.eqb_spec (Z.of_nat k) (-1)); [lia|now rewrite Nat2Z.id]|reflexivity]. }
      now rewrite (nth_error_nth _ _ [] Hf), !Nat2Z.id. }
    unfold W. rewrite Ec, (nth_error_nth _ _ _ HA), (nth_error_nth _ _ _ HB), (nth_error_nth _ _ _ HC). auto 12. }
  set (wt := fun s i => num (nth i (W s) CNaN)).
  set (E := fun t d s => if (find (place s) =? -1)%Z then 0%Q else (let '(a, b, c) := corner s in wt s 0%nat * g t d a + wt s 1%nat * g t d b + wt s 2%nat * g t d c)%Q).
  assert (ChE : Changes (option_map t_data time) levels E).
  { destruct Ch as [C1 C2]. unfold E. split.
    - intros l El d s k t0 t1 u H0 H1 Hu. destruct (_ =? -1)%Z; [ring|]. destruct (corner s) as [[a b] c]. cbn beta.
      pose proof (C1 l El d a k t0 t1 u H0 H1 Hu) as Xa. pose proof (C1 l El d b k t0 t1 u H0 H1 Hu) as Xb. pose proof (C1 l El d c k t0 t1 u H0 H1 Hu) as Xc. cbn beta in *.
      transitivity (wt s 0%nat * ((g u d a - g t0 d a) * (inject_Z t1 - inject_Z t0)) + wt s 1%nat * ((g u d b - g t0 d b) * (inject_Z t1 - inject_Z t0)) + wt s 2%nat * ((g u d c - g t0 d c) * (inject_Z t1 - inject_Z t0)))%Q; [ring|].
      rewrite Xa, Xb, Xc. ring.
    - intros l El t s k x y r Hx Hy Hr v Hv. destruct (_ =? -1)%Z; [ring|]. destruct (corner s) as [[a b] c]. cbn beta.
      rewrite (C2 l El t a k x y r Hx Hy Hr v Hv), (C2 l El t b k x y r Hx Hy Hr v Hv), (C2 l El t c k x y r Hx Hy Hr v Hv). ring. }
  destruct (composed_sees GOther (mesh_interp tree hist nodes faces VNode data) (fun ix => node_leaf nodes faces find (data ix)) time levels sbc bbc [length nodes] q q' ex
    (fun u d s => let '(a, b, c) := corner s in m u d a && m u d b && m u d c) E z pts T L D ChE) as (vs & Ev & V).
  - intros ix u d HS ps. destruct (S ix u d HS) as (MS & _). exact (mesh_masked tree hist nodes faces find HT HH data _ _ ix ps M FF MS).
  - intros ix u d s HS Hs. destruct (S ix u d HS) as (MS & Z0). destruct (K s) as (k & a & b & c & A & B & C & x & y & w & Ec & Fk & Hf & HA & HB & HC & EW & Co & X).
    rewrite Ec. destruct (node_sees nodes faces find s (data ix) _ _ a b c A B C ltac:(exists k; auto) HA HB HC X MS) as (al & x' & y' & w' & _ & _ & Co' & Sn).
    eapply sees_eq; [exact Sn|]. unfold E. destruct (_ =? -1)%Z; [reflexivity|]. rewrite Ec. unfold wt. rewrite EW. cbn [nth num].
    assert (Kz : forall n, (kept (m u d n) (g u d n) == g u d n)%Q) by (intros n; unfold kept; destruct (m u d n) eqn:Em; [now rewrite (Z0 n Em)|reflexivity]).
    rewrite !Kz. destruct (comb_unique A B C (place s) x y w x' y' w' X Co Co') as (E1 & E2 & E3). now rewrite E1, E2, E3.
  - exists vs. split; [exact Ev|]. revert V. apply Forall2_impl'. intros s r H. destruct (K s) as (k & a & b & c & A & B & C & x & y & w & Ec & Fk & Hf & HA & HB & HC & EW & Co & X).
    exists k, a, b, c, A, B, C, x, y, w. do 6 (split; [assumption|]). cbv zeta. rewrite Ec in H. unfold E, wt in H. rewrite Ec, EW in H. cbn [nth num] in H.
    destruct (Z.eqb_spec (find (place s)) (-1)); split; intros; tauto || congruence.
Qed.
Print Assumptions c109_mesh_as_zero_partial.

(** Face data: missing when the face is, in a sample in use; outside the mesh
    when the last face is. *)
Theorem c109_mesh_faces_partial :
  forall tree hist nodes faces find data time levels sbc bbc q q' ex (f : Z -> Q -> nat -> Q) (m : Z -> Q -> nat -> bool) z pts,
  (forall ps, tree nodes faces ps = map find ps) -> (forall ix ps, Forall asks (hist ix ps)) ->
  faces <> [] -> FindsFaces nodes faces find ->
  TimeOk (option_map t_data time) ex q q' -> LevelsOk levels ->
  (forall s, In s pts -> DepthOk levels sbc bbc (deep s) (z (deep s))) ->
  Changes (option_map t_data time) levels f ->
  (forall ix t d, SampleAt (option_map t_data time) levels ix t d -> MaskedSamples (length faces) (m t d) (f t d) (data ix)) ->
  exists vs, at_grid (mesh_interp tree hist nodes faces VFace data) (order_of (some time) (some levels) GOther) (shape_of time levels [length faces]) time
      (option_map (fun ls => l_view deep ls (Some (length ls)) sbc bbc) levels) q ex pts = Ok vs /\
    Forall2 (fun s r => forall k, FaceAsked (length faces) (find (place s)) k ->
      let missing := Missing (option_map t_data time) levels ex q q' (deep s) (z (deep s)) (fun u d => m u d k) in
      (find (place s) <> (-1)%Z -> Sees missing (f q' (z (deep s)) k) r) /\ (find (place s) = (-1)%Z -> Sees missing 0 r)) pts vs.
Proof.
  intros tree hist nodes faces find data time levels sbc bbc q q' ex f m z pts HT HH Ne FF T L D Ch S.
  set (num := fun s => if (find (place s) =? -1)%Z then length faces - 1 else Z.to_nat (find (place s))).
  assert (Nu : forall s k, FaceAsked (length faces) (find (place s)) k -> num s = k).
  { intros s k Fk. unfold num. destruct Fk as [-> | [-> ->]]; [destruct (Z.eqb_spec (Z.of_nat k) (-1)); [lia|now rewrite Nat2Z.id]|reflexivity]. }
  destruct (composed_sees GOther (mesh_interp tree hist nodes faces VFace data) (fun ix => face_leaf find (data ix)) time levels sbc bbc [length faces] q q' ex
    (fun u d s => m u d (num s)) (fun t d s => if (find (place s) =? -1)%Z then 0%Q else f t d (num s)) z pts T L D (changes_if _ _ (fun s => (find (place s) =? -1)%Z) _ num Ch)) as (vs & E & V).
  - intros ix u d HS ps. exact (mesh_face_masked tree hist nodes faces find HT HH data _ _ ix ps Ne FF (S ix u d HS)).
  - intros ix u d s HS Hs. destruct (face_asked nodes faces find s Ne FF) as (k & Fk & Lk). rewrite (Nu s k Fk). apply (face_sees faces find s (data ix) _ _ k Fk Lk (S ix u d HS)).
  - exists vs. split; [exact E|]. revert V. apply Forall2_impl'. intros s r H k Fk. rewrite (Nu s k Fk) in H. cbv zeta.
    destruct (Z.eqb_spec (find (place s)) (-1)); split; intros; tauto || congruence.
Qed.
Print Assumptions c109_mesh_faces_partial.

(** Over two axes a missing entry counts as 0 and no answer is missing: with
    [g] the field, and 0 at the missing entries, bilinear between them, the
    answer is [g]. *)
Theorem c109_rectangular_as_zero_partial :
  forall r dims sw vals time levels sbc bbc q q' ex (f g : quantity) (m : Z -> Q -> nat -> nat -> bool) z pts,
  let y := fst (yx_axes r sw) in let x := snd (yx_axes r sw) in let shape := shape_of time levels [length y; length x] in
  lonlat_to_yx r dims shape = Ok sw -> Monotone (rg_lon r) -> Monotone (rg_lat r) -> 2 <= length (rg_lon r) -> 2 <= length (rg_lat r) ->
  TimeOk (option_map t_data time) ex q q' -> LevelsOk levels ->
  (forall s, In s pts -> DepthOk levels sbc bbc (deep s) (z (deep s))) ->
  Changes (option_map t_data time) levels g ->
  (forall ix t d, SampleAt (option_map t_data time) levels ix t d ->
     MaskedTable y x (m t d) (fun a b => f t d (if sw then (a, b) else (b, a))) (vals ix) /\ BilinearOverCells (rg_lon r) (rg_lat r) (g t d) /\
     forall i j a b, nth_error y i = Some a -> nth_error x j = Some b ->
       let p := if sw then (a, b) else (b, a) in (g t d p == if m t d i j then 0 else f t d p)%Q) ->
  exists vs, at_grid (rect_interp r dims shape vals) (order_of (some time) (some levels) GStructured) shape time
      (option_map (fun ls => l_view deep ls (Some (length ls)) sbc bbc) levels) q ex pts = Ok vs /\
    Forall2 (fun s c => let inside := Spans (rg_lon r) (fst (place s)) /\ Spans (rg_lat r) (snd (place s)) in
       (inside -> Shows (g q' (z (deep s)) (place s)) c) /\ (~ inside -> Shows 0 c)) pts vs.
Proof.
  intros r dims sw vals time levels sbc bbc q q' ex f g m z pts y x shape HO M1 M2 N1 N2 T L D Ch S.
  destruct (c94_rectangular_partial r dims sw (fun ix => map (map fill0) (vals ix)) time levels sbc bbc q q' ex g z pts HO M1 M2 N1 N2 T L D Ch) as (vs & E & V).
  - intros ix t d HS. destruct (S ix t d HS) as (MT & B & G). split; [|exact B]. eapply filled_samples; [exact MT|]. intros i j a b Ha Hb. exact (G i j a b Ha Hb).
  - exists vs. split; [|exact V]. rewrite <- E. apply at_grid_ext. intros ix ps. apply rect_filled.
Qed.
Print Assumptions c109_rectangular_as_zero_partial.
(** Away from the missing entries the answer is the field. *)
Theorem c109_rectangular_clear_partial :
  forall r dims sw vals time levels sbc bbc q q' ex (f : quantity) (m : Z -> Q -> nat -> nat -> bool) z pts,
  let y := fst (yx_axes r sw) in let x := snd (yx_axes r sw) in let shape := shape_of time levels [length y; length x] in
  lonlat_to_yx r dims shape = Ok sw -> Monotone (rg_lon r) -> Monotone (rg_lat r) -> 2 <= length (rg_lon r) -> 2 <= length (rg_lat r) ->
  TimeOk (option_map t_data time) ex q q' -> LevelsOk levels ->
  (forall s, In s pts -> DepthOk levels sbc bbc (deep s) (z (deep s))) ->
  Changes (option_map t_data time) levels f ->
  (forall ix t d, SampleAt (option_map t_data time) levels ix t d ->
     MaskedTable y x (m t d) (fun a b => f t d (if sw then (a, b) else (b, a))) (vals ix) /\ BilinearOverCells (rg_lon r) (rg_lat r) (f t d) /\
     forall s, In s pts -> ClearAt y x (m t d) (if sw then fst (place s) else snd (place s)) (if sw then snd (place s) else fst (place s))) ->
  exists vs, at_grid (rect_interp r dims shape vals) (order_of (some time) (some levels) GStructured) shape time
      (option_map (fun ls => l_view deep ls (Some (length ls)) sbc bbc) levels) q ex pts = Ok vs /\
    Forall2 (fun s c => let inside := Spans (rg_lon r) (fst (place s)) /\ Spans (rg_lat r) (snd (place s)) in
       (inside -> Shows (f q' (z (deep s)) (place s)) c) /\ (~ inside -> Shows 0 c)) pts vs.
Proof.
  intros r dims sw vals time levels sbc bbc q q' ex f m z pts y x shape HO M1 M2 N1 N2 T L D Ch S.
  destruct (composed_sees GStructured (rect_interp r dims shape vals) (fun ix => rect_leaf r sw (map (map fill0) (vals ix))) time levels sbc bbc [length y; length x] q q' ex
    (fun _ _ _ => false) (fun t d s => if negb (within (rg_lon r) (fst (place s)) && within (rg_lat r) (snd (place s))) then 0%Q else f t d (place s)) z pts T L D
    (changes_if _ _ (fun s => negb (within (rg_lon r) (fst (place s)) && within (rg_lat r) (snd (place s)))) f place Ch)) as (vs & E & V).
  - intros ix u d HS ps. destruct (S ix u d HS) as (MT & _). rewrite rect_filled. apply (rect_all r dims shape (fun ix => map (map fill0) (vals ix)) sw HO M1 M2 N1 N2). eapply filled_table; eauto.
  - intros ix u d s HS Hs. destruct (S ix u d HS) as (MT & B & Cl). right. split; [discriminate|].
    pose proof (clear_shows r sw M1 M2 N1 N2 (vals ix) (m u d) (f u d) s MT B (Cl s Hs)) as H. destruct (_ && _); exact H.
  - exists vs. split; [exact E|]. revert V. apply Forall2_impl'. intros s c [[(u & d & _ & _ & X) _]|[_ H]]; [discriminate|]. cbv zeta. rewrite <- !within_spec, <- andb_true_iff by auto.
    destruct (_ && _); cbn [negb] in H; split; intros; tauto || congruence.
Qed.
Print Assumptions c109_rectangular_clear_partial.

(** One node of three is missing and the field is 1 everywhere: the answer is
    neither missing nor 1. *)
Definition c109_ask (loc : vloc) (data : list nat -> list cell) (n : nat) (time : option time_obj) (levels : option (list Q)) (q : Z) (pts : list spot) : result (list cell) :=
  at_grid (mesh_interp c94_tree (fun _ _ => []) c94_nodes c94_faces loc data) (order_of (some time) (some levels) GOther) (shape_of time levels [n]) time
    (option_map (fun ls => l_view deep ls (Some (length ls)) BExtrapolate BExtrapolate) levels) q false pts.
Theorem c109_partly_refuted :
  exists data s v, MaskedSamples (length c94_nodes) (fun n => n =? 0) (fun _ => 1%Q) (data []) /\ c94_find (place s) = 0%Z /\ In 0%Z (nth 0 c94_faces []) /\
  c109_ask VNode data 4 None None 0%Z [s] = Ok [CVal v] /\ (v == 1 # 2)%Q.
Proof.
  exists (fun _ => [CMasked; CVal 1; CVal 1; CVal 1]), ((1 # 4, 1 # 4), 0)%Q. eexists. split; [|split; [reflexivity|split; [now left|split; [vm_compute; reflexivity|reflexivity]]]].
  split; [reflexivity|]. intros [|[|[|[|[|k]]]]] c H; cbn in H; try discriminate; injection H as <-;
    ((left; split; [reflexivity|reflexivity]) || (right; split; [discriminate|eexists; split; reflexivity])).
Qed.
Print Assumptions c109_partly_refuted.

(** At the instant of a sample that has values, the answer is missing when the
    sample before is. *)
Theorem c109_instant_refuted :
  exists data time s, (forall k, k <> 0 -> Forall (Shows 1) (data [k])) /\ t_data time = [0; 10; 20]%Z /\ c94_find (place s) = 0%Z /\
  c109_ask VFace data 2 (Some time) None 10%Z [s] = Ok [CMasked] /\ exists v, c109_ask VFace data 2 (Some time) None 20%Z [s] = Ok [CVal v] /\ (v == 1)%Q.
Proof.
  exists (fun ix => match ix with [0] => [CMasked; CMasked] | _ => [CVal 1; CVal 1] end), (mkTime [0; 10; 20]%Z None None), ((1 # 4, 1 # 4), 0)%Q.
  split; [|split; [reflexivity|split; [reflexivity|split; [vm_compute; reflexivity|eexists; split; [vm_compute; reflexivity|reflexivity]]]]].
  intros [|k] H; [congruence|]. repeat constructor; (eexists; split; reflexivity).
Qed.
Print Assumptions c109_instant_refuted.

(** Below the sea floor the values are missing.  A depth above the first level
    answers with that level (C94), but not when the last level is missing; nor
    does the depth of a level whose next one is missing. *)
Theorem c109_surface_refuted :
  exists data s s', (forall j, j <> 2 -> Forall (Shows 1) (data [j])) /\ c94_find (place s) = 0%Z /\ c94_find (place s') = 0%Z /\
  (DepthAsked c94_levels BExtrapolate BExtrapolate (deep s) 0 /\ deep s = - (1))%Q /\ c109_ask VFace data 2 None (Some c94_levels) 0%Z [s] = Ok [CMasked] /\
  nth_error c94_levels 1 = Some (deep s') /\ c109_ask VFace data 2 None (Some c94_levels) 0%Z [s'] = Ok [CMasked].
Proof.
  exists (fun ix => match ix with [2] => [CMasked; CMasked] | _ => [CVal 1; CVal 1] end), ((1 # 4, 1 # 4), - (1))%Q, ((1 # 4, 1 # 4), 5)%Q.
  split; [|split; [reflexivity|split; [reflexivity|split; [split; [|reflexivity]|split; [vm_compute; reflexivity|split; [reflexivity|vm_compute; reflexivity]]]]]].
  - intros [|[|[|j]]] H; [| |congruence|]; repeat constructor; (eexists; split; reflexivity).
  - exists 0%Q, 10%Q. split; [reflexivity|]. split; [reflexivity|]. right. right. left. split; [|split; [reflexivity|split; reflexivity]].
    intros i j a b Hij Ha Hb. destruct i as [|[|[|i]]], j as [|[|[|[|j]]]]; cbn in Ha, Hb; try discriminate; try lia; injection Ha as <-; injection Hb as <-; reflexivity.
Qed.
Print Assumptions c109_surface_refuted.

(** Outside the mesh the answer is 0, or missing when the last face is. *)
Theorem c109_outside_refuted :
  exists data data' s v, MaskedSamples 2 (fun _ => false) (fun _ => 1%Q) (data []) /\ MaskedSamples 2 (fun k => k =? 1) (fun _ => 1%Q) (data' []) /\ c94_find (place s) = (-1)%Z /\
  c109_ask VFace data 2 None None 0%Z [s] = Ok [CVal v] /\ (v == 0)%Q /\ c109_ask VFace data' 2 None None 0%Z [s] = Ok [CMasked].
Proof.
  exists (fun _ => [CVal 1; CVal 1]), (fun _ => [CVal 1; CMasked]), ((5, 5), 0)%Q. eexists.
  split; [|split; [|split; [reflexivity|split; [vm_compute; reflexivity|split; [reflexivity|vm_compute; reflexivity]]]]]; (split; [reflexivity|]);
    intros [|[|[|k]]] c H; cbn in H; try discriminate; injection H as <-; ((left; split; [reflexivity|reflexivity]) || (right; split; [discriminate|eexists; split; reflexivity])).
Qed.
Print Assumptions c109_outside_refuted.

(** Over two axes nothing but missing values answers with zeros. *)
Theorem c109_rectangular_refuted :
  exists g vals s v, MaskedTable (rg_lat g) (rg_lon g) (fun _ _ => true) (fun _ _ => 1%Q) (vals []) /\ Spans (rg_lon g) (fst (place s)) /\ Spans (rg_lat g) (snd (place s)) /\
  at_grid (rect_interp g None (shape_of None None [2; 3]) vals) (order_of false false GStructured) (shape_of None None [2; 3]) None None 0%Z false [s] = Ok [CVal v] /\ (v == 0)%Q.
Proof.
  exists (rg_new [0; 1; 3]%Q [2; 5]%Q None), (fun _ => [[CMasked; CMasked; CMasked]; [CMasked; CMasked; CMasked]]), ((2, 3), 0)%Q. eexists.
  split; [|split; [exists 0%Q, 3%Q; split; [reflexivity|split; [reflexivity|left; split; discriminate]]|split; [exists 2%Q, 5%Q; split; [reflexivity|split; [reflexivity|left; split; discriminate]]|split; [vm_compute; reflexivity|reflexivity]]]].
  split; [reflexivity|]. split.
  - intros [|[|[|i]]] row H; cbn in H; try discriminate; injection H as <-; reflexivity.
  - intros [|[|[|i]]] [|[|[|[|j]]]] row c a b H Hj _ _; cbn in H; try discriminate; injection H as <-; cbn in Hj; try discriminate; injection Hj as <-; left; split; reflexivity.
Qed.
Print Assumptions c109_rectangular_refuted.

(** Face 1 is missing at the first instant: halfway to the second, the points in
    it and outside the mesh show nothing; later every point has its answer. *)
Definition c109_time : time_obj := mkTime [0; 10; 20]%Z None None.
Definition c109_field (t : Z) (d : Q) (k : nat) : Q := (inject_Z t + inject_Z (Z.of_nat k))%Q.
Definition c109_mask (t : Z) (d : Q) (k : nat) : bool := (t =? 0)%Z && (k =? 1).
Definition c109_data (ix : list nat) : list cell :=
  match ix with [i] => let t := nth i [0; 10; 20]%Z 0%Z in [CVal (c109_field t 0 0); if (t =? 0)%Z then CMasked else CVal (c109_field t 0 1)] | _ => [] end.
Definition c109_pts : list spot := [((1 # 4, 1 # 4), 0); ((3 # 4, 3 # 4), 0); ((3, 0), 0)]%Q.
Lemma c109_increasing : StrictlyIncreasing (t_data c109_time).
Proof. intros i j a b Hij Ha Hb. destruct i as [|[|[|i]]], j as [|[|[|[|j]]]]; cbn in Ha, Hb; try discriminate; try lia; injection Ha as <-; injection Hb as <-; lia. Qed.
Example c109_example :
  exists vs ws a b, c109_ask VFace c109_data 2 (Some c109_time) None 5%Z c109_pts = Ok vs /\ vs = [CVal a; CMasked; CMasked] /\ (a == 5)%Q /\
    c109_ask VFace c109_data 2 (Some c109_time) None 15%Z c109_pts = Ok ws /\ nth_error ws 1 = Some (CVal b) /\ (b == 16)%Q /\
  forall q, (0 <= q <= 20)%Z -> exists us, c109_ask VFace c109_data 2 (Some c109_time) None q c109_pts = Ok us /\
    Forall2 (fun s r => forall k, FaceAsked 2 (c94_find (place s)) k ->
      let missing := Missing (Some [0; 10; 20]%Z) None false q q (deep s) (deep s) (fun u d => c109_mask u d k) in
      (c94_find (place s) <> (-1)%Z -> Sees missing (c109_field q (deep s) k) r) /\ (c94_find (place s) = (-1)%Z -> Sees missing 0 r)) c109_pts us.
Proof.
  do 4 eexists. split; [vm_compute; reflexivity|]. split; [reflexivity|]. split; [reflexivity|]. split; [vm_compute; reflexivity|]. split; [reflexivity|]. split; [reflexivity|].
  intros q Hq. apply (c109_mesh_faces_partial c94_tree (fun _ _ => []) c94_nodes c94_faces c94_find c109_data (Some c109_time) None BExtrapolate BExtrapolate q q false c109_field c109_mask (fun z => z) c109_pts).
  - reflexivity.
  - intros. constructor.
  - discriminate.
  - exact c94_finds.
  - intros l H. injection H as <-. split; [exact c109_increasing|split; [discriminate|left; split; [|reflexivity]]]. exists 0%Z, 20%Z. repeat split; auto; lia.
  - intros l H. discriminate.
  - intros s _ l H. discriminate.
  - split; intros l H; [|discriminate]. intros d k j t0 t1 u _ _ _. unfold c109_field. ring.
  - intros ix t d (i & -> & Hi). destruct i as [|[|[|i]]]; cbn in Hi; try (destruct i; discriminate); injection Hi as <-; (split; [reflexivity|]);
      intros [|[|[|k]]] c H; cbn in H; try discriminate; injection H as <-; ((left; split; reflexivity) || (right; split; [discriminate|eexists; split; reflexivity])).
Qed.
(** The nodes are all missing at the first instant. *)
Example c109_nodes_example :
  let f : quantity := fun t d p => (inject_Z t + fst p)%Q in let m := fun (t : Z) (d : Q) (n : nat) => (t =? 0)%Z in
  let data := fun ix => match ix with [i] => let t := nth i [0; 10; 20]%Z 0%Z in map (fun n => if (t =? 0)%Z then CMasked else CVal (f t 0%Q n)) c94_nodes | _ => [] end in
  (exists v, c109_ask VNode data 4 (Some c109_time) None 5%Z c109_pts = Ok [CMasked; CMasked; CMasked] /\ c109_ask VNode data 4 (Some c109_time) None 15%Z [((1 # 4, 1 # 4), 0)%Q] = Ok [CVal v] /\ (v == 61 # 4)%Q) /\
  (forall ix t d, SampleAt (Some (t_data c109_time)) None ix t d -> MaskedSamples (length c94_nodes) (m t d) (FieldAt c94_nodes (f t d)) (data ix) /\ LinearOverFaces c94_nodes c94_faces (f t d)).
Proof.
  intros f m data. split; [eexists; split; [vm_compute; reflexivity|split; [vm_compute; reflexivity|reflexivity]]|].
  intros ix t d (i & -> & Hi). split.
  - destruct i as [|[|[|i]]]; cbn in Hi; try (destruct i; discriminate); injection Hi as <-; (split; [reflexivity|]);
      intros [|[|[|[|[|k]]]]] c H; cbn in H; try discriminate; injection H as <-; ((left; split; reflexivity) || (right; split; [discriminate|eexists; split; reflexivity])).
  - intros a b c A B C _ _ _ _. exists (inject_Z t), 1%Q, 0%Q. intros p _. unfold f. ring.
Qed.
