(** C62: ray casting. *)
From Coq Require Import Sorting Lqa Bool.
From Verif Require Import Common CommonProofs UGridGeomModel RayModel RaySpec RayProofs.
Open Scope Q_scope.

(** C62: the starting vertex does not matter. *)
Theorem c62_rotation : forall p l1 l2, in_poly p (l1 ++ l2) = in_poly p (l2 ++ l1).
Proof. exact in_poly_rot. Qed.
Print Assumptions c62_rotation.
(** C62: nor does the direction. *)
Theorem c62_reversal : forall p l, in_poly p (rev l) = in_poly p l.
Proof. exact in_poly_rev. Qed.
Print Assumptions c62_reversal.
(** C62: moving and enlarging point and polygon together changes nothing. *)
Theorem c62_moved : forall s t p l, 0 < s -> in_poly (move s t p) (map (move s t) l) = in_poly p l.
Proof. exact in_poly_move. Qed.
Print Assumptions c62_moved.
(** C62: triangles, in either direction: True inside, False outside; a triangle
    without area contains nothing. *)
Theorem c62_triangle : forall a b c p,
  (~ turn a b c == 0 -> InTriangle a b c p -> in_poly p [a; b; c] = true) /\
  (~ turn a b c == 0 -> ~ OnTriangle a b c p -> in_poly p [a; b; c] = false) /\
  (turn a b c == 0 -> in_poly p [a; b; c] = false).
Proof. intros. split; [apply tri_in|split; [apply tri_out|apply tri_flat]]. Qed.
Print Assumptions c62_triangle.
(** C62: convex polygons of any number of vertices. *)
Theorem c62_convex : forall p l, Convex l -> l <> [] ->
  (Inside p l -> in_poly p l = true) /\ (Outside p l -> in_poly p l = false).
Proof. intros. split; [now apply convex_inside|now apply convex_outside]. Qed.
Print Assumptions c62_convex.
(** C62: any polygon cut along a diagonal: a point of it is in exactly one part,
    another in both or none. *)
Theorem c62_cut : forall p a b l1 l2,
  in_poly p (a :: l1 ++ b :: l2) = xorb (in_poly p (a :: l1 ++ [b])) (in_poly p (b :: l2 ++ [a])).
Proof. exact in_poly_chord. Qed.
Print Assumptions c62_cut.
(** C62: for every polygon the answer is the parity of the number of fan triangles
    that contain the point. *)
Theorem c62_fan : forall p v l, in_poly p (v :: l) = Nat.odd (length (filter (in_poly p) (fan v l))).
Proof.
  intros p v l. rewrite in_poly_fan. induction (fan v l) as [|t r IH]; [reflexivity|]. cbn [map parity filter].
  rewrite IH. destruct (in_poly p t); cbn [length]; [|apply xorb_false_l].
  rewrite Nat.odd_succ, <- Nat.negb_odd. now destruct (Nat.odd _).
Qed.
Print Assumptions c62_fan.
(** C62: a point outside the bounding box is in no polygon. *)
Theorem c62_box : forall p l,
  (forall v, In v l -> fst v <= fst p) \/ (forall v, In v l -> fst p < fst v) \/
  (forall v, In v l -> snd v <= snd p) \/ (forall v, In v l -> snd p < snd v) -> in_poly p l = false.
Proof.
  intros p l [H|[H|[H|H]]]; [now apply in_poly_right|now apply in_poly_left| |].
  - apply (in_poly_same p l false). apply Forall_forall. intros v I. apply Qlt_bool_false, H, I.
  - apply (in_poly_same p l true). apply Forall_forall. intros v I. apply Qlt_bool_iff, H, I.
Qed.
Print Assumptions c62_box.
(** C62: the array form answers row by row, and the form with separate coordinate
    arrays the same. *)
Theorem c62_rows : forall points polys, length points = length polys ->
  exists r, points_in_polys points polys = Ok r /\
    points_in_polys_xy points (map (map fst) polys) (map (map snd) polys) = Ok r /\
    length r = length points /\
    forall i p l, nth_error points i = Some p -> nth_error polys i = Some l -> nth_error r i = Some (in_poly p l).
Proof.
  intros points polys L. exists (map (fun pq => in_poly (fst pq) (snd pq)) (combine points polys)).
  assert (E : map (fun xy => combine (fst xy) (snd xy)) (combine (map (map fst) polys) (map (map (@snd Q Q)) polys)) = polys).
  { clear. induction polys as [|l polys IH]; [reflexivity|]. cbn. rewrite IH. f_equal. clear. induction l as [|[x y] l IH]; cbn; congruence. }
  unfold points_in_polys_xy. setoid_rewrite E. unfold points_in_polys. rewrite L, Nat.eqb_refl.
  split; [reflexivity|]. split; [reflexivity|]. split; [rewrite map_length, combine_length; lia|].
  intros i p l Hp Hl.
  revert polys L E i Hp Hl. induction points as [|q points IH]; intros [|m polys] L E i Hp Hl; try (destruct i; discriminate).
  destruct i as [|i]; cbn in *; [congruence|]. apply IH; auto. congruence.
Qed.
Print Assumptions c62_rows.

(** A concave polygon, and a point on the boundary of two squares: it belongs to the
    right one only. *)
Definition arrow : list pt := [(0, 0); (4, 0); (1, 1); (0, 4)].
Example c62_example :
  in_poly (1 # 2, 1 # 2) arrow = true /\ in_poly (2, 2) arrow = false /\
  in_poly (1, 1 # 2) [(0, 0); (1, 0); (1, 1); (0, 1)] = false /\ in_poly (1, 1 # 2) [(1, 0); (2, 0); (2, 1); (1, 1)] = true /\
  Convex [(0, 0); (2, 0); (3, 1); (2, 2); (0, 2)] /\ Inside (1, 1) [(0, 0); (2, 0); (3, 1); (2, 2); (0, 2)].
Proof.
  repeat (split; [vm_compute; reflexivity|]). split.
  - cbn. repeat split; repeat constructor; unfold turn; cbn; lra.
  - intros a b [(l & r & E)|(r & l & E1 & E2)].
    + destruct l as [|? [|? [|? [|? [|? [|? l]]]]]]; cbn in E; try discriminate; injection E; intros; subst; unfold turn; cbn; lra.
    + injection E1 as <- <-. destruct l as [|? [|? [|? [|? [|? [|? l]]]]]]; cbn in E2; try discriminate. injection E2; intros; subst. unfold turn; cbn; lra.
Qed.
