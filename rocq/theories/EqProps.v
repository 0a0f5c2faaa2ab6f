(** C82: equality of grids. *)
From Coq Require Import String QArith Qabs.
From Verif Require Import Common CommonProofs SVarModel TimeModel VariableModel DepthModel UGridModel UGridGeomModel EqModel EqSpec EqProofs.
Open Scope string_scope.
Open Scope list_scope.
Open Scope nat_scope.

Definition demo_mesh (n : nat) (class : nat) (x : Q) (name : value) : obj := mkObj n class (fun k =>
  if String.eqb k "nodes" then VArr [3; 2] [ENum 0; ENum 0; ENum x; ENum 0; ENum 0; ENum 1] None
  else if String.eqb k "faces" then VArr [1; 3] [ENum 0; ENum 1; ENum 2] None
  else if String.eqb k "edges" then name else VNone).

(** Unstructured grids are equal just when they are one object, or of one
    class with the same nodes, faces and boundaries. *)
Theorem c82_unstructured : forall a b, ugrid_eq a b = true <->
  o_id a = o_id b \/ (o_class a = o_class b /\ Same (o_attr a "nodes") (o_attr b "nodes") /\ Same (o_attr a "faces") (o_attr b "faces") /\
                      Same (o_attr a "boundaries") (o_attr b "boundaries")).
Proof.
  intros a b. unfold ugrid_eq. destruct (Nat.eqb_spec (o_id a) (o_id b)); [split; auto|].
  destruct (Nat.eqb_spec (o_class a) (o_class b)); cbn [negb].
  - split.
    + intros H. apply andb_true_iff in H. destruct H as [H C]. apply andb_true_iff in H. destruct H as [A B].
      apply array_same in A, B, C. auto.
    + intros [|(_ & A & B & C)]; [contradiction|]. apply array_same in A, B, C. now rewrite A, B, C.
  - split; [discriminate|]. intros [|(X & _)]; contradiction.
Qed.
Print Assumptions c82_unstructured.
Example c82_unstructured_demo : ugrid_eq (demo_mesh 1 0 1 VNone) (demo_mesh 2 0 (2#2) (VArr [0; 2] [] None)) = true /\
  ugrid_eq (demo_mesh 1 0 1 VNone) (demo_mesh 2 0 2 VNone) = false /\ ugrid_eq (demo_mesh 1 0 1 VNone) (demo_mesh 2 1 1 VNone) = false.
Proof. repeat split. Qed.

(** Staggered grids likewise, by eight attributes. *)
Theorem c82_staggered : forall a b, sgrid_eq a b = Ok true <->
  o_id (s_obj a) = o_id (s_obj b) \/
  (o_class (s_obj a) = o_class (s_obj b) /\
   (forall k, In k ["node_lon"; "node_lat"; "node_mask"; "center_lon"; "center_lat"; "center_mask"; "faces"] -> Same (o_attr (s_obj a) k) (o_attr (s_obj b) k)) /\
   exists x y, face_padding a = Ok x /\ face_padding b = Ok y /\ Same x y).
Proof.
  intros a b. unfold sgrid_eq. destruct (Nat.eqb_spec (o_id (s_obj a)) (o_id (s_obj b))); [split; auto|].
  destruct (Nat.eqb_spec (o_class (s_obj a)) (o_class (s_obj b))); cbn [negb].
  - rewrite loop_true. split.
    + intros H. right. split; auto. split.
      * intros k I. assert (K : In k compared) by (unfold compared; cbn [In] in I |- *; tauto).
        destruct (H k K) as (x & y & X & Y & S). unfold getattr in X, Y.
        replace (String.eqb k "face_padding") with false in X, Y; [congruence|].
        cbn [In] in I. decompose [or] I; subst; try reflexivity. contradiction.
      * destruct (H "face_padding") as (x & y & X & Y & S); [cbn; tauto|]. exists x, y. auto.
    + intros [|(_ & A & x & y & X & Y & S)] k I; [contradiction|]. unfold getattr.
      destruct (String.eqb_spec k "face_padding") as [_|N]; [eauto|]. exists (o_attr (s_obj a) k), (o_attr (s_obj b) k). split; auto. split; auto.
      apply A. unfold compared in I. cbn [In] in I |- *. intuition congruence.
  - split; [discriminate|]. intros [|(X & _)]; contradiction.
Qed.
Print Assumptions c82_staggered.
Definition demo_grid (n : nat) (x : Q) (behavior : string) : sobj := mkSobj (mkObj n 0 (fun k =>
  if String.eqb k "node_lon" then VArr [2; 2] [ENum 0; ENum x; ENum 0; ENum x] None
  else if String.eqb k "node_lat" then VArr [2; 2] [ENum 0; ENum 0; ENum 1; ENum 1] None
  else if String.eqb k "center_lon" then VArr [1; 1] [ENum (1#2)] None
  else if String.eqb k "center_lat" then VArr [1; 1] [ENum (1#2)] None
  else if String.eqb k "masked_interpolant_behavior" then VArr [] [EStr behavior] None else VNone)) PUnset.
Example c82_staggered_demo : sgrid_eq (demo_grid 1 1 "zero") (demo_grid 2 1 "mask") = Ok true /\ sgrid_eq (demo_grid 1 1 "zero") (demo_grid 2 3 "zero") = Ok false.
Proof. split; reflexivity. Qed.

(** Equality is an equivalence. *)
Theorem c82_equivalence : (forall a, ugrid_eq a a = true) /\ (forall a b, ugrid_eq a b = ugrid_eq b a) /\
  (forall a b c, Coherent a b -> Coherent b c -> ugrid_eq a b = true -> ugrid_eq b c = true -> ugrid_eq a c = true) /\
  (forall a, sgrid_eq a a = Ok true) /\ (forall a b, sgrid_eq a b = Ok true -> sgrid_eq b a = Ok true) /\
  (forall a b c, CoherentS a b -> CoherentS b c -> sgrid_eq a b = Ok true -> sgrid_eq b c = Ok true -> sgrid_eq a c = Ok true).
Proof.
  assert (U : forall a b, ugrid_eq a b = true -> ugrid_eq b a = true).
  { intros a b H. apply c82_unstructured in H. apply c82_unstructured. destruct H as [H|(H & A & B & C)]; [auto|right]. auto using same_sym. }
  repeat split.
  - intros a. apply c82_unstructured. auto.
  - intros a b. destruct (ugrid_eq a b) eqn:E, (ugrid_eq b a) eqn:E'; auto; [rewrite (U a b E) in E'|rewrite (U b a E') in E]; discriminate.
  - intros a b c C1 C2 H1 H2. pose proof H1 as G1. apply c82_unstructured in H1, H2.
    destruct H1 as [H1|(H1 & A & B & C)]; [rewrite (C1 H1); now apply c82_unstructured|].
    destruct H2 as [H2|(H2 & A' & B' & C')]; [now rewrite <- (C2 H2)|].
    apply c82_unstructured. right. repeat split; [congruence|eapply same_trans; eauto..].
  - intros a. apply c82_staggered. auto.
  - intros a b H. apply c82_staggered in H. apply c82_staggered. destruct H as [H|(H & A & x & y & X & Y & S)]; [auto|right].
    split; [auto|]. split; [intros k I; apply same_sym; auto|]. exists y, x. auto using same_sym.
  - intros a b c C1 C2 H1 H2. pose proof H1 as G1. apply c82_staggered in H1, H2.
    destruct H1 as [H1|(H1 & A & x & y & X & Y & S)]; [rewrite (C1 H1); now apply c82_staggered|].
    destruct H2 as [H2|(H2 & A' & x' & y' & X' & Y' & S')]; [now rewrite <- (C2 H2)|].
    apply c82_staggered. right. split; [congruence|]. split; [intros k I; eapply same_trans; eauto|]. rewrite Y in X'. injection X' as <-. exists x, y'. eauto using same_trans.
Qed.
Print Assumptions c82_equivalence.

(** A copy of a grid is equal to it only when no compared value is nan. *)
Theorem c82_copy_refuted : forall a n, o_id a <> n ->
  (ugrid_eq a (mkObj n (o_class a) (o_attr a)) = true <-> Clean (o_attr a "nodes") /\ Clean (o_attr a "faces") /\ Clean (o_attr a "boundaries")).
Proof.
  intros a n N. rewrite c82_unstructured. cbn [o_id o_class o_attr]. split.
  - intros [|(_ & A & B & C)]; [contradiction|]. split; [|split]; eapply same_clean; eauto.
  - intros (A & B & C). right. auto using same_refl.
Qed.
Print Assumptions c82_copy_refuted.
Example c82_copy_demo : ugrid_eq (mkObj 1 0 (fun _ => VArr [1; 2] [ENan; ENum 0] None)) (mkObj 2 0 (fun _ => VArr [1; 2] [ENan; ENum 0] None)) = false.
Proof. reflexivity. Qed.

(** Masks of arrays and all other attributes play no part, so that grids
    which behave differently can be equal. *)
Theorem c82_blind_refuted : forall a b, (forall k, In k compared -> exists x y, getattr a k = Ok x /\ getattr b k = Ok y /\ Clean x /\ asarray x = asarray y) ->
  o_class (s_obj a) = o_class (s_obj b) -> sgrid_eq a b = Ok true.
Proof.
  intros a b H C. unfold sgrid_eq. destruct (_ =? _); [reflexivity|]. rewrite C, Nat.eqb_refl. cbn [negb]. apply loop_true.
  intros k I. destruct (H k I) as (x & y & X & Y & Cl & E). exists x, y. split; [auto|]. split; [auto|].
  pose proof (same_refl x Cl) as R. destruct x as [|s d m], y as [|s' d' m']; cbn [asarray] in E; try (injection E as E1 E2; subst); auto.
  - constructor.
  - constructor.
  - apply same_sym. now apply (same_masks _ _ m).
Qed.
Print Assumptions c82_blind_refuted.
Example c82_blind_demo : exists a b, sgrid_eq a b = Ok true /\ o_attr (s_obj a) "masked_interpolant_behavior" <> o_attr (s_obj b) "masked_interpolant_behavior" /\
  o_attr (s_obj a) "node_lon" <> o_attr (s_obj b) "node_lon".
Proof.
  exists (demo_grid 1 1 "zero"), (mkSobj (mkObj 2 0 (fun k => match o_attr (s_obj (demo_grid 1 1 "mask")) k with VNone => VNone | VArr s d _ => VArr s d (Some [true]) end)) PUnset).
  split; [|split; discriminate]. apply c82_blind_refuted; [|reflexivity].
  intros k I. cbn in I. decompose [or] I; subst; try contradiction; cbn; do 2 eexists; repeat split; cbn; intuition discriminate.
Qed.

(** Comparing grids can raise: of grids with equal coordinates, when the size
    of the centers is unlike that of the nodes. *)
Theorem c82_raises_refuted : exists a b, o_class (s_obj a) = o_class (s_obj b) /\ o_id (s_obj a) <> o_id (s_obj b) /\
  (forall k, In k ["node_lon"; "node_lat"; "node_mask"; "center_lon"; "center_lat"; "center_mask"; "faces"] -> Same (o_attr (s_obj a) k) (o_attr (s_obj b) k)) /\
  s_face a = s_face b /\ sgrid_eq a b = Err IndexError.
Proof.
  pose (g := fun n => mkSobj (mkObj n 0 (fun k => if String.eqb k "node_lon" then VArr [1; 1] [ENum 0] None
     else if String.eqb k "node_lat" then VArr [1; 1] [ENum 0] None
     else if String.eqb k "center_lon" then VArr [4; 1] [ENum 0; ENum 1; ENum 2; ENum 3] None
     else if String.eqb k "center_lat" then VArr [4; 1] [ENum 0; ENum 0; ENum 0; ENum 0] None else VNone)) PUnset).
  exists (g 1), (g 2). split; [reflexivity|]. split; [discriminate|]. split; [|split; reflexivity].
  intros k I. apply same_refl. cbn in I. decompose [or] I; subst; try contradiction; cbn; intuition discriminate.
Qed.
Print Assumptions c82_raises_refuted.

(** Equal meshes locate points alike, and have the same derived topology. *)
Lemma same_arrays s d m s' d' m' : Same (VArr s d m) (VArr s' d' m') -> s = s' /\ Forall2 SameElem d d'.
Proof. intros H. inversion H; subst. auto. Qed.
Lemma points_same a b n n' : Points a n -> Points b n' -> Same a b -> Forall2 SamePt n n'.
Proof.
  intros (m & ->) (m' & ->) S. apply same_arrays in S. destruct S as [E F]. injection E as E. revert n' F E. induction n as [|p n IH]; intros [|q n'] F E; cbn in E; try discriminate; constructor.
  - cbn [flat_map app] in F. inversion F as [|? ? ? ? A F']; subst. inversion F' as [|? ? ? ? B F'']; subst. inversion A; inversion B; subst. now split.
  - cbn [flat_map app] in F. inversion F as [|? ? ? ? A F']; subst. inversion F' as [|? ? ? ? B F'']; subst. apply IH; auto.
Qed.
Lemma rows_same a b l l' : Rows a l -> Rows b l' -> Same a b -> l = l'.
Proof.
  intros (k & m & K & ->) (k' & m' & K' & ->) S. apply same_arrays in S. destruct S as [E F]. injection E as E Ek. subst k'.
  assert (C : concat l = concat l').
  { clear - F. remember (concat l) as c eqn:X. remember (concat l') as c' eqn:Y. clear X Y. revert c' F. induction c as [|z c IH]; intros [|z' c'] F; cbn in F; inversion F as [|? ? ? ? A B]; subst; auto.
    inversion A as [? ? Q| |]; subst. apply (proj1 (inject_Z_injective z z')) in Q. subst z'. f_equal. apply IH. exact B. }
  clear F. revert l' E K' C. induction l as [|r l IH]; intros [|r' l'] E K' C; cbn in E; try discriminate; auto.
  cbn [concat] in C. assert (L : length r = length r') by (rewrite (K r), (K' r'); cbn; auto).
  assert (r = r' /\ concat l = concat l') as [-> C'].
  { clear - C L. revert r' L C. induction r as [|x r IH]; intros [|x' r'] L C; cbn in L, C; try discriminate; auto. injection C as -> C. injection L as L. destruct (IH _ L C). subst. auto. }
  f_equal. apply IH; auto; intros; [apply K|apply K']; now right.
Qed.
Definition SameRes {A} (R : A -> A -> Prop) (x y : result A) : Prop := match x, y with Ok x, Ok y => R x y | Err e, Err e' => e = e' | _, _ => False end.
Lemma py_same {A} (R : A -> A -> Prop) l l' i : Forall2 R l l' -> SameRes R (py_get l i) (py_get l' i).
Proof.
  intros F. unfold py_get. assert (L : length l = length l') by (clear - F; induction F; cbn; auto). rewrite <- L.
  assert (N : forall k, match nth_error l k, nth_error l' k with Some x, Some y => R x y | None, None => True | _, _ => False end).
  { clear - F. induction F; intros [|k]; cbn; auto. apply IHF. }
  destruct (py_index (length l) i) as [k|]; [|reflexivity]. pose proof (N k) as X. now destruct (nth_error l k), (nth_error l' k).
Qed.
Lemma mapM_same {A B} (R : B -> B -> Prop) (f f' : A -> result B) l : (forall a, SameRes R (f a) (f' a)) -> SameRes (Forall2 R) (mapM f l) (mapM f' l).
Proof.
  intros H. induction l as [|a l IH]; cbn [mapM]; [constructor|]. specialize (H a). unfold SameRes in H.
  destruct (f a), (f' a); try contradiction; cbn [bind]; [|now subst]. unfold SameRes in IH.
  destruct (mapM f l), (mapM f' l); try contradiction; cbn [bind]; [|now subst]. cbn. now constructor.
Qed.
Lemma area_same a b c a' b' c' : SamePt a a' -> SamePt b b' -> SamePt c c' -> (signed_area a b c == signed_area a' b' c')%Q.
Proof. intros (A1 & A2) (B1 & B2) (C1 & C2). unfold signed_area. now rewrite A1, A2, B1, B2, C1, C2. Qed.
Lemma tri_same a b c a' b' c' p : SamePt a a' -> SamePt b b' -> SamePt c c' -> point_in_tri a b c p = point_in_tri a' b' c' p.
Proof.
  intros A B C. assert (P : SamePt p p) by (split; reflexivity). unfold point_in_tri. cbv zeta.
  rewrite (area_same _ _ _ _ _ _ A B C). destruct (Qeq_bool _ 0); [reflexivity|].
  rewrite (area_same _ _ _ _ _ _ A B P), (area_same _ _ _ _ _ _ B C P), (area_same _ _ _ _ _ _ A C P), (area_same _ _ _ _ _ _ A B C). reflexivity.
Qed.
Lemma face_same n n' f p : Forall2 SamePt n n' -> in_face n f p = in_face n' f p.
Proof.
  intros F. unfold in_face, face_points. pose proof (mapM_same SamePt (py_get n) (py_get n') f (fun i => py_same SamePt n n' i F)) as H. unfold SameRes in H.
  destruct (mapM (py_get n) f) as [l|e], (mapM (py_get n') f) as [l'|e']; try contradiction; cbn [bind]; [|now subst].
  destruct H as [|x y l l' H1 H]; auto. destruct H as [|x2 y2 l l' H2 H]; auto. destruct H as [|x3 y3 l l' H3 H]; auto. f_equal. now apply tri_same.
Qed.
Theorem c82_alike : forall a b n n' f f', ugrid_eq a b = true -> Coherent a b ->
  Points (o_attr a "nodes") n -> Points (o_attr b "nodes") n' -> Rows (o_attr a "faces") f -> Rows (o_attr b "faces") f' ->
  Forall2 SamePt n n' /\ f = f' /\ (forall pts, locate_simple n f pts = locate_simple n' f' pts) /\
  build_edges f = build_edges f' /\ build_face_face f = build_face_face f'.
Proof.
  intros a b n n' f f' H C Pn Pn' Rf Rf'. apply c82_unstructured in H.
  assert (Same (o_attr a "nodes") (o_attr b "nodes") /\ Same (o_attr a "faces") (o_attr b "faces")) as [A B].
  { destruct H as [H|(_ & A & B & _)]; auto. rewrite <- (C H). split; apply same_refl; [destruct Pn as (m & ->)|destruct Rf as (k & m & _ & ->)]; cbn [Clean].
    - intros I. apply in_flat_map in I. destruct I as (p & _ & [I|[I|[]]]); discriminate.
    - intros I. apply in_map_iff in I. destruct I as (z & I & _). discriminate. }
  pose proof (points_same _ _ _ _ Pn Pn' A) as SN. pose proof (rows_same _ _ _ _ Rf Rf' B) as SF. subst f'.
  split; [exact SN|]. split; [reflexivity|]. split; [|split; reflexivity].
  intros pts. unfold locate_simple. induction pts as [|p pts IH]; cbn [mapM]; [reflexivity|]. rewrite IH. f_equal.
  clear IH. clear B Rf Rf'. generalize 0%nat, 0%Z. induction f as [|r f IH]; intros i z; cbn [find_face]; [reflexivity|].
  rewrite (face_same n n' r p SN). destruct (in_face n' r p) as [[|]|]; cbn [bind]; auto.
Qed.
Print Assumptions c82_alike.
Example c82_alike_demo : Points (o_attr (demo_mesh 1 0 1 VNone) "nodes") [(0, 0); (1, 0); (0, 1)]%Q /\ Rows (o_attr (demo_mesh 1 0 1 VNone) "faces") [[0; 1; 2]]%Z /\
  locate_simple [(0, 0); (1, 0); (0, 1)]%Q [[0; 1; 2]]%Z [(1#4, 1#4); (2, 2)]%Q = Ok [0; -1]%Z.
Proof.
  split; [exists None; reflexivity|]. split; [|vm_compute; reflexivity].
  exists 3, None. split; [|reflexivity]. intros r [<-|[]]. reflexivity.
Qed.

(** The compared padding: the one given, or one guessed from the sizes. *)
Lemma guess_ok f n e : guess f n = Ok e <-> exists s, e = EStr s /\ Guessed f n s.
Proof.
  unfold guess, py_get, py_index. cbn [length]. set (d := (Z.of_nat f - Z.of_nat n)%Z). split.
  - intros H. destruct (0 <=? d)%Z eqn:E.
    + destruct (d <? Z.of_nat 3)%Z eqn:E'; [|discriminate]. apply Z.leb_le in E. apply Z.ltb_lt in E'.
      assert (X : d = 0%Z \/ d = 1%Z \/ d = 2%Z) by lia. destruct X as [X|[X|X]]; rewrite X in H; cbn in H; injection H as <-; eexists; split; try reflexivity; unfold Guessed, d in *; [left|right; left|right; right]; split; auto; left; lia.
    + destruct (0 <=? d + Z.of_nat 3)%Z eqn:E'; [|discriminate]. apply Z.leb_gt in E. apply Z.leb_le in E'.
      assert (X : d = (-1)%Z \/ d = (-2)%Z \/ d = (-3)%Z) by lia. destruct X as [X|[X|X]]; rewrite X in H; cbn in H; injection H as <-; eexists; split; try reflexivity; unfold Guessed, d in *; [right; right|right; left|left]; split; auto; right; lia.
  - intros (s & -> & H). destruct H as [(-> & [H|H])|[(-> & [H|H])|(-> & [H|H])]]; unfold d;
      match goal with |- context [(Z.of_nat f - Z.of_nat n)%Z] => idtac end.
    + replace (Z.of_nat f - Z.of_nat n)%Z with 0%Z by lia. reflexivity.
    + replace (Z.of_nat f - Z.of_nat n)%Z with (-3)%Z by lia. reflexivity.
    + replace (Z.of_nat f - Z.of_nat n)%Z with 1%Z by lia. reflexivity.
    + replace (Z.of_nat f - Z.of_nat n)%Z with (-2)%Z by lia. reflexivity.
    + replace (Z.of_nat f - Z.of_nat n)%Z with 2%Z by lia. reflexivity.
    + replace (Z.of_nat f - Z.of_nat n)%Z with (-1)%Z by lia. reflexivity.
Qed.
Theorem c82_paddings : forall g,
  (forall v, s_face g = POther v -> face_padding g = Ok v) /\
  (forall a b l, s_face g = PGrid (a :: b :: l) -> face_padding g = Ok (VArr [2] [EStr a; EStr b] None)) /\
  (forall a, s_face g = PGrid [a] -> face_padding g = Err IndexError) /\
  (s_face g = PUnset -> o_attr (s_obj g) "center_lon" = VNone -> face_padding g = Ok (VArr [2] [ENone; ENone] None)) /\
  (forall f0 f1 n0 n1 d m d' m', s_face g = PUnset -> o_attr (s_obj g) "center_lon" = VArr [f0; f1] d m -> o_attr (s_obj g) "node_lon" = VArr [n0; n1] d' m' ->
     forall v, face_padding g = Ok v <-> exists a b, v = VArr [2] [EStr a; EStr b] None /\ Guessed f0 n0 a /\ Guessed f1 n1 b).
Proof.
  intros g. unfold face_padding. repeat split.
  - intros v ->. reflexivity.
  - intros a b l ->. reflexivity.
  - intros a ->. reflexivity.
  - intros -> ->. reflexivity.
  - rewrite H, H0, H1. cbn [length Nat.eqb negb]. intros X. apply bind_ok in X. destruct X as (x & X & Y). apply bind_ok in Y. destruct Y as (y & Y & Z).
    injection Z as <-. apply guess_ok in X, Y. destruct X as (a & -> & A), Y as (b & -> & B). exists a, b. auto.
  - intros (a & b & -> & A & B). rewrite H, H0, H1. cbn [length Nat.eqb negb].
    assert (X : guess f0 n0 = Ok (EStr a)) by (apply guess_ok; eauto). assert (Y : guess f1 n1 = Ok (EStr b)) by (apply guess_ok; eauto).
    rewrite X. cbn [bind]. rewrite Y. reflexivity.
Qed.
Print Assumptions c82_paddings.
Example c82_paddings_demo : face_padding (demo_grid 1 1 "zero") = Ok (VArr [2] [EStr "none"; EStr "none"] None) /\ Guessed 1 2 "none".
Proof. split; [reflexivity|]. unfold Guessed. auto 6. Qed.
