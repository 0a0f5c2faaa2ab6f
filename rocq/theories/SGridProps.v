(** Structured-grid index properties: flat numbers, masks, padding, location
    inference, search histories. *)
From Coq Require Import String.
From Verif Require GridTypeModel GridTypeProofs.
From Verif Require Import Common CommonProofs VariableModel MaskModel SGridModel SGridSpec SGridProofs.
Open Scope Z_scope.

(** A 3 x 4 grid of nodes used in the examples: node (r, c) is at (10 c, r). *)
Definition ex_grid (own : option (nat -> nat -> bool)) (nm : bool) (cm : option (mask_kind * arr mentry)) (p : pad * pad) : sgrid Z :=
  mkSGrid 3 4 (fun _ c => 10 * Z.of_nat c) (fun r _ => Z.of_nat r) own nm cm p.

(** ** C36 *)
(** Without masks the tree's face numbers and the cells correspond one to
    one, each face has the corners of its cell, and "not found" is (-1, -1). *)
Theorem c36_faces_are_cells {C} (g : sgrid C) use_mask : (1 < sg_nx g)%nat ->
  use_mask = false \/ (sg_node_mask g = false /\ sg_center_mask g = None /\ sg_own_mask g = None) ->
  exists t, build_celltree g use_mask = Ok t /\
    length (tr_faces t) = ((sg_ny g - 1) * (sg_nx g - 1))%nat /\ tr_rev t = None /\ Searches g t (fun _ _ => True).
Proof.
  intros Hn H. destruct (build_plain g use_mask Hn H) as (t & Ht & HS). exists t. split; [exact Ht|].
  unfold build_celltree in Ht. destruct H as [->|(H1 & H2 & H3)].
  - cbn [andb] in Ht. injection Ht as <-. cbn [tr_faces tr_rev]. rewrite ravel_length. auto.
  - rewrite H1, H2, H3 in Ht. cbn [orb] in Ht. rewrite andb_false_r in Ht. injection Ht as <-. cbn [tr_faces tr_rev]. rewrite ravel_length. auto.
Qed.
Print Assumptions c36_faces_are_cells.

(** Arithmetic alone: every cell has exactly one flat number, every flat number
    below the number of cells one cell, inside the cell array. *)
Theorem c36_flat_bijection {C} ny nx (t : tree C) : tr_rev t = None -> (1 < nx)%nat ->
  (forall k, 0 <= k < Z.of_nat ((ny - 1) * (nx - 1)) ->
     exists r c, IsCell ny nx r c /\ face_to_cell nx t k = Ok (Z.of_nat r, Z.of_nat c)) /\
  (forall r c, IsCell ny nx r c -> exists! k, 0 <= k < Z.of_nat ((ny - 1) * (nx - 1)) /\ face_to_cell nx t k = Ok (Z.of_nat r, Z.of_nat c)) /\
  face_to_cell nx t (-1) = Ok (-1, -1).
Proof.
  intros Ht Hn.
  assert (A : forall k, 0 <= k < Z.of_nat ((ny - 1) * (nx - 1)) ->
     exists r c, IsCell ny nx r c /\ k = Z.of_nat (r * (nx - 1) + c)).
  { intros k Hk. exists (Z.to_nat k / (nx - 1))%nat, (Z.to_nat k mod (nx - 1))%nat.
    pose proof (Nat.mod_upper_bound (Z.to_nat k) (nx - 1) ltac:(lia)).
    assert (Z.to_nat k / (nx - 1) < ny - 1)%nat by (apply Nat.div_lt_upper_bound; nia).
    split; [split; lia|]. rewrite <- (Z2Nat.id k) at 1 by lia. f_equal.
    rewrite (Nat.div_mod (Z.to_nat k) (nx - 1)) at 1 by lia. lia. }
  assert (F : forall r c k, (S c < nx)%nat -> k = Z.of_nat (r * (nx - 1) + c) -> face_to_cell nx t k = Ok (Z.of_nat r, Z.of_nat c)).
  { intros r c k Hc E. eapply face_to_cell_flat; [exact Hc| |exact E]. rewrite Ht. reflexivity. }
  split; [|split].
  - intros k Hk. destruct (A k Hk) as (r & c & Hc & E). exists r, c. split; [exact Hc|]. apply F; [apply Hc|exact E].
  - intros r c [Hr Hc]. exists (Z.of_nat (r * (nx - 1) + c)). split.
    + split; [nia|]. apply F; auto.
    + intros k [Hk E]. destruct (A k Hk) as (r' & c' & [_ Hc'] & ->).
      rewrite (F r' c' _ Hc' eq_refl) in E. injection E as E1 E2. f_equal. nia.
  - apply face_to_cell_miss; auto. rewrite Ht. exact I.
Qed.
Print Assumptions c36_flat_bijection.

(** A found cell is kept, "not found" becomes masked. *)
Theorem c36_masking r c : mask_cell (Z.of_nat r, c) = Some (Z.of_nat r, c) /\ mask_cell (-1, -1) = None.
Proof. unfold mask_cell. cbn [fst]. rewrite (proj2 (Z.ltb_ge _ _)) by lia. auto. Qed.
Print Assumptions c36_masking.

Example c36_example :
  exists t, build_celltree (ex_grid None false None (PadNone, PadNone)) true = Ok t /\
    nth_error (tr_faces t) 4 = Some [5; 6; 10; 9] /\ face_to_cell 4 t 4 = Ok (1, 1) /\
    face_to_cell 4 t (-1) = Ok (-1, -1) /\ length (tr_faces t) = 6%nat.
Proof. eexists. split; [reflexivity|]. vm_compute. auto. Qed.

(** ** C37 *)
(** With a center mask of the right shape and at least one non-zero entry the
    tree searches exactly the unmasked cells; each keeps its own corners and
    its own (row, column). *)
Theorem c37_unmasked_cells_only {C} (g : sgrid C) k m t : (1 < sg_nx g)%nat ->
  sg_center_mask g = Some (k, m) -> SomeNonzero m -> MaskFits g m ->
  build_celltree g true = Ok t -> Searches g t (fun r c => ~ CellMasked g k m r c).
Proof.
  intros Hn Hm Hz Hf Ht. destruct (build_masked g k m Hn Hm Hz Hf) as (t' & Ht' & HS). congruence.
Qed.
Print Assumptions c37_unmasked_cells_only.

(** A mask carried by the node coordinates themselves is different: the nodes
    are removed from the list but the faces are not renumbered, so faces get
    other corners. *)
Theorem c37_masked_coordinates_refuted :
  exists (g : sgrid Z) t, (1 < sg_nx g)%nat /\ sg_node_mask g = false /\ sg_center_mask g = None /\
    build_celltree g true = Ok t /\
    exists k r c, face_to_cell (sg_nx g) t (Z.of_nat k) = Ok (Z.of_nat r, Z.of_nat c) /\
      (exists l, FaceAt t k l) /\ ~ FaceAt t k (corners g r c).
Proof.
  exists (ex_grid (Some (fun r c => Nat.eqb r 0 && Nat.eqb c 0)) false None (PadNone, PadNone)).
  eexists. split; [cbn; lia|]. split; [reflexivity|]. split; [reflexivity|]. split; [reflexivity|].
  exists 0%nat, 0%nat, 0%nat. split; [reflexivity|]. split.
  - eexists. eexists. split; [reflexivity|]. repeat constructor; try lia; reflexivity.
  - intros (ns & H & F). cbn in H. injection H as <-. inversion F as [|? ? ? ? [_ H] ?]; subst. discriminate H.
Qed.
Print Assumptions c37_masked_coordinates_refuted.

Example c37_example :
  let m := mkArr 3 5 (fun r c => mkM (if (Nat.eqb r 2 && Nat.eqb c 3)%bool then 1 else 0) false) in
  let g := ex_grid None false (Some (MPlain, m)) (PadLow, PadBoth) in
  MaskFits g m /\ SomeNonzero m /\
  (exists t, build_celltree g true = Ok t /\ length (tr_faces t) = 5%nat /\
     nth_error (tr_faces t) 4 = Some [5; 6; 10; 9] /\ nth_error (tr_nodes t) 9 = Some (10, 2) /\
     face_to_cell 4 t 4 = Ok (1, 1) /\ face_to_cell 4 t (-1) = Ok (-1, -1)).
Proof.
  cbn zeta. split; [|split].
  - repeat split; try (intro H; discriminate H).
  - exists 2%nat, 3%nat. cbn. repeat split; lia.
  - eexists. split; [reflexivity|]. vm_compute. repeat split.
Qed.

(** ** C38 *)
(** What works: no masks, masks switched off, or a fitting center mask with a
    non-zero entry. *)
Theorem c38_build_partial {C} (g : sgrid C) use_mask : (1 < sg_nx g)%nat ->
  (use_mask = false \/ (sg_node_mask g = false /\ sg_center_mask g = None) \/
   exists k m, sg_center_mask g = Some (k, m) /\ SomeNonzero m /\ MaskFits g m) ->
  exists t, build_celltree g use_mask = Ok t.
Proof.
  intros Hn [->|[[H1 H2]|(k & m & Hm & Hz & Hf)]].
  - unfold build_celltree. cbn [andb]. eauto.
  - unfold build_celltree. rewrite H1, H2. cbn [orb]. rewrite andb_false_r. eauto.
  - destruct use_mask.
    + destruct (build_masked g k m Hn Hm Hz Hf) as (t & Ht & _). eauto.
    + unfold build_celltree. cbn [andb]. eauto.
Qed.
Print Assumptions c38_build_partial.

(** Every other mask input fails: a node mask alone, or a center mask without
    a non-zero entry, leaves the local variable cell_mask unassigned ... *)
Theorem c38_unassigned_mask {C} (g : sgrid C) :
  (sg_node_mask g = true \/ sg_center_mask g <> None) ->
  (forall k m, sg_center_mask g = Some (k, m) -> ~ SomeNonzero m) ->
  build_celltree g true = Err UnboundLocalError.
Proof. apply build_unbound. Qed.
Print Assumptions c38_unassigned_mask.

(** ... and a mask of another size is reported. *)
Theorem c38_wrong_shape {C} (g : sgrid C) k m : sg_center_mask g = Some (k, m) -> SomeNonzero m ->
  known (fst (sg_center_pad g)) -> known (snd (sg_center_pad g)) ->
  (exists n n', a_r m = padded (fst (sg_center_pad g)) n /\ a_c m = padded (snd (sg_center_pad g)) n' /\
     (n <> (sg_ny g - 1)%nat \/ n' <> (sg_nx g - 1)%nat)) ->
  build_celltree g true = Err ValueError.
Proof. apply build_misfit. Qed.
Print Assumptions c38_wrong_shape.

(** No masked cell at all, and only a node mask. *)
Theorem c38_every_mask_refuted :
  exists g1 g2 : sgrid Z,
    (exists m, sg_center_mask g1 = Some (MPlain, m) /\ MaskFits g1 m /\ (forall r c, a_at m r c = mkM 0 false)) /\
    build_celltree g1 true = Err UnboundLocalError /\
    sg_node_mask g2 = true /\ sg_center_mask g2 = None /\ build_celltree g2 true = Err UnboundLocalError.
Proof.
  exists (ex_grid None false (Some (MPlain, mkArr 2 3 (fun _ _ => mkM 0 false))) (PadNone, PadNone)),
         (ex_grid None true None (PadNone, PadNone)).
  split; [|split; [vm_compute; reflexivity|split; [reflexivity|split; [reflexivity|vm_compute; reflexivity]]]].
  eexists. split; [reflexivity|]. split; [|reflexivity]. repeat split; intro H; discriminate H.
Qed.
Print Assumptions c38_every_mask_refuted.

Example c38_example :
  (exists t, build_celltree (ex_grid None true (Some (MOption, mkArr 2 3 (fun r _ => mkM (Z.of_nat r) false))) (PadNone, PadNone)) true = Ok t
     /\ length (tr_faces t) = 3%nat) /\
  build_celltree (ex_grid None true (Some (MOption, mkArr 3 2 (fun r _ => mkM (Z.of_nat r) false))) (PadNone, PadNone)) true = Err ValueError.
Proof. split; [eexists; split; [reflexivity|]; reflexivity|reflexivity]. Qed.

(** ** C39 *)
(** The padding slice of a padded array has one entry per element, and the
    shifted index finds the same entry in the padded array. *)
Theorem c39_slice_and_shift {A} (a : arr A) p q n m : known p -> known q ->
  a_r a = padded p n -> a_c a = padded q m ->
  let s := slice2 a (get_padding_slices (p, q)) in
  a_r s = n /\ a_c s = m /\
  forall r c, (r < n)%nat -> (c < m)%nat ->
    exists r' c', apply_padding (p, q) (Z.of_nat r, Z.of_nat c) = Ok (Z.of_nat r', Z.of_nat c') /\
      (r' < a_r a)%nat /\ (c' < a_c a)%nat /\
      r' = (low_extra p + r)%nat /\ c' = (low_extra q + c)%nat /\
      a_at s r c = a_at a r' c' /\ variable_at a (Z.of_nat r', Z.of_nat c') = a_at s r c.
Proof.
  intros Hp Hq Hr Hc s. destruct (slice2_padded a p q n m Hp Hq Hr Hc) as (S1 & S2 & S3).
  split; [exact S1|]. split; [exact S2|]. intros r c Lr Lc.
  exists (low_extra p + r)%nat, (low_extra q + c)%nat. unfold apply_padding. cbn [fst snd].
  rewrite !pad_shift_known by assumption. cbn [bind]. split; [reflexivity|].
  assert (low_extra p + r < a_r a)%nat by (rewrite Hr; unfold padded; lia).
  assert (low_extra q + c < a_c a)%nat by (rewrite Hc; unfold padded; lia).
  do 4 (split; [assumption || reflexivity|]). split; [apply S3|].
  unfold variable_at, s. rewrite S3. cbn [fst snd]. unfold clip. f_equal; lia.
Qed.
Print Assumptions c39_slice_and_shift.

(** An unknown padding word: the slice takes everything and the shift raises. *)
Theorem c39_unknown_word {A} (a : arr A) ij p :
  apply_padding (PadOther, p) ij = Err ValueError /\
  a_r (slice2 a (get_padding_slices (PadOther, PadOther))) = a_r a /\ a_c (slice2 a (get_padding_slices (PadOther, PadOther))) = a_c a.
Proof. split; [reflexivity|]. cbn. lia. Qed.
Print Assumptions c39_unknown_word.

(** The padding guessed from the shapes is right when the face array has at
    most one extra entry at each end (an array with one extra entry is taken to
    be padded at the low end) ... *)
Theorem c39_guessed_padding face node : (0 < node)%nat -> (node - 1 <= face <= node + 1)%nat ->
  exists p, guess_pad face node = Ok p /\ face = padded p (node - 1) /\ p <> PadHigh.
Proof.
  intros Hn Hf. unfold guess_pad.
  assert (Z.of_nat face - Z.of_nat node = -1 \/ Z.of_nat face - Z.of_nat node = 0 \/ Z.of_nat face - Z.of_nat node = 1) as [E|[E|E]] by lia;
    rewrite E; eexists; (split; [reflexivity|]); unfold padded; cbn [low_extra high_extra]; split; try discriminate; lia.
Qed.
Print Assumptions c39_guessed_padding.
(** ... in both dimensions at once, rows from rows and columns from columns. *)
Theorem c39_guessed_both g fr fc nr nc : sp_face g = PSUnset -> sp_center_shape g = Some (fr, fc) -> sp_node_shape g = (nr, nc) ->
  (0 < nr)%nat -> (0 < nc)%nat -> (nr - 1 <= fr <= nr + 1)%nat -> (nc - 1 <= fc <= nc + 1)%nat ->
  exists p q, face_padding g = Ok (p, q) /\ fr = padded p (nr - 1) /\ fc = padded q (nc - 1).
Proof.
  intros F C N Hr Hc Br Bc. destruct (c39_guessed_padding fr nr Hr Br) as (p & P & Ep & _).
  destruct (c39_guessed_padding fc nc Hc Bc) as (q & Q & Eq & _).
  exists p, q. unfold face_padding. rewrite F, C, N. cbn [fst snd]. rewrite P. cbn [bind]. rewrite Q. auto.
Qed.
Print Assumptions c39_guessed_both.
(** ... but other sizes are not rejected: the lookup wraps around. *)
Theorem c39_guess_rejects_refuted : exists face node p, guess_pad face node = Ok p /\ face <> padded p (node - 1).
Proof. exists 7%nat, 5%nat, PadNone. split; [reflexivity|cbn; discriminate]. Qed.
Print Assumptions c39_guess_rejects_refuted.

(** Which padding each location name uses. *)
Theorem c39_by_location g loc p : padding_by_location g loc = Ok (Some p) ->
  (In loc node_names /\ p = node_padding g) \/
  (In loc center_names /\ face_padding g = Ok p) \/
  (In loc edge1_names /\ edge1_padding g = Ok p) \/
  (In loc edge2_names /\ edge2_padding g = Ok p).
Proof.
  unfold padding_by_location. pose proof GridTypeProofs.isin_in as I.
  destruct (GridTypeModel.isin loc node_names) eqn:E1; [apply I in E1; intro H; injection H as <-; auto|].
  destruct (GridTypeModel.isin loc center_names) eqn:E2.
  { apply I in E2. destruct (face_padding g); [|discriminate]. intro H; injection H as <-. auto. }
  destruct (GridTypeModel.isin loc edge1_names) eqn:E3.
  { apply I in E3. destruct (edge1_padding g); [|discriminate]. intro H; injection H as <-. auto. }
  destruct (GridTypeModel.isin loc edge2_names) eqn:E4; [|discriminate].
  apply I in E4. destruct (edge2_padding g); [|discriminate]. intro H; injection H as <-. auto.
Qed.
Print Assumptions c39_by_location.

(** Default edge paddings: along the cells as the faces, none across. *)
Theorem c39_default_edges g p q : face_padding g = Ok (p, q) -> sp_edge1 g = PSUnset -> sp_edge2 g = PSUnset ->
  edge1_padding g = Ok (p, PadNone) /\ edge2_padding g = Ok (PadNone, q).
Proof. intros H E1 E2. unfold edge1_padding, edge2_padding. rewrite E1, E2, H. auto. Qed.
Print Assumptions c39_default_edges.

Example c39_example :
  let a := mkArr 4 3 (fun r c => (10 * r + c)%nat) in
  a_ravel (slice2 a (get_padding_slices (PadBoth, PadHigh))) = [10; 11; 20; 21]%nat /\
  apply_padding (PadBoth, PadHigh) (1, 1) = Ok (2, 1) /\ variable_at a (2, 1) = 21%nat /\
  face_padding (mkPads (5, 5)%nat (Some (6, 5)%nat) None PSUnset PSUnset PSUnset) = Ok (PadBoth, PadLow) /\
  padding_by_location (mkPads (5, 5)%nat (Some (6, 6)%nat) None PSUnset PSUnset PSUnset) "u" = Ok (Some (PadBoth, PadNone)).
Proof. vm_compute. repeat split. Qed.

(** ** C40 *)
Definition diff (a b : nat) (d : Z) : Prop := Z.of_nat a = Z.of_nat b + d.
(** What it decides: the last two dimensions relative to the node grid. *)
Theorem c40_infer ny nx hc h1 h2 lead a b :
  let loc := infer_location (ny, nx) hc h1 h2 (Some (lead ++ [a; b])) in
  (loc = Some SCenter <-> hc = true /\ ((diff a ny 1 /\ diff b nx 1) \/ (diff a ny (-1) /\ diff b nx (-1)))) /\
  (loc = Some SEdge1 <-> h1 = true /\ diff a ny 1 /\ diff b nx 0) /\
  (loc = Some SEdge2 <-> h2 = true /\ diff a ny 0 /\ diff b nx 1) /\
  (loc = Some SNode <-> a = ny /\ b = nx).
Proof.
  cbn zeta. unfold infer_location, last_two, diff. rewrite rev_app_distr. cbn [rev app fst snd].
  destruct (Z.eqb_spec (Z.of_nat a - Z.of_nat ny) 1), (Z.eqb_spec (Z.of_nat b - Z.of_nat nx) 1),
    (Z.eqb_spec (Z.of_nat a - Z.of_nat ny) (-1)), (Z.eqb_spec (Z.of_nat b - Z.of_nat nx) (-1)),
    (Z.eqb_spec (Z.of_nat a - Z.of_nat ny) 0), (Z.eqb_spec (Z.of_nat b - Z.of_nat nx) 0); try lia;
  destruct hc, h1, h2; cbn [andb orb]; repeat split; intros; try discriminate; try (intuition (try discriminate; lia)).
Qed.
Print Assumptions c40_infer.

Theorem c40_too_few_dimensions node hc h1 h2 shape : (length shape < 2)%nat ->
  infer_location node hc h1 h2 (Some shape) = None /\ infer_location node hc h1 h2 None = None.
Proof. destruct shape as [|x [|y s]]; cbn; try lia; auto. Qed.
Print Assumptions c40_too_few_dimensions.

(** With the usual staggering (centers one larger or smaller in both
    directions, edges one larger across) data of a location's own stored shape is
    recognised as that location. *)
Theorem c40_stored_shapes_partial ny nx center edge1 edge2 lead :
  (center = (S ny, S nx) \/ (S (fst center), S (snd center)) = (ny, nx)) -> edge1 = (S ny, nx) -> edge2 = (ny, S nx) ->
  infer_location (ny, nx) true true true (Some (lead ++ [fst center; snd center])) = Some SCenter /\
  infer_location (ny, nx) true true true (Some (lead ++ [fst edge1; snd edge1])) = Some SEdge1 /\
  infer_location (ny, nx) true true true (Some (lead ++ [fst edge2; snd edge2])) = Some SEdge2 /\
  infer_location (ny, nx) true true true (Some (lead ++ [ny; nx])) = Some SNode.
Proof.
  intros Hc -> ->. destruct center as [cr cc]. cbn [fst snd] in *.
  split; [|split; [|split]].
  - apply (c40_infer ny nx true true true lead cr cc). split; auto. unfold diff. destruct Hc as [E|E]; injection E as E1 E2; lia.
  - apply (c40_infer ny nx true true true lead (S ny) nx). split; auto. unfold diff. lia.
  - apply (c40_infer ny nx true true true lead ny (S nx)). split; auto. unfold diff. lia.
  - apply (c40_infer ny nx true true true lead ny nx). auto.
Qed.
Print Assumptions c40_stored_shapes_partial.

(** The stored shapes themselves are not consulted: center data padded at the
    low end (the padding the code itself assumes for this shape) has the shape
    of the node grid and is taken for node data; unpadded edge data is not recognised. *)
Theorem c40_stored_shape_refuted : exists ny nx center edge1,
  guess_pad (fst center) ny = Ok PadLow /\ guess_pad (snd center) nx = Ok PadLow /\
  infer_location (ny, nx) true true true (Some [fst center; snd center]) = Some SNode /\
  fst edge1 = (ny - 1)%nat /\ snd edge1 = nx /\
  infer_location (ny, nx) true true true (Some [fst edge1; snd edge1]) = None.
Proof. exists 5%nat, 6%nat, (5, 6)%nat, (4, 6)%nat. vm_compute. repeat split. Qed.
Print Assumptions c40_stored_shape_refuted.

Example c40_example :
  infer_location (4, 5)%nat true true true (Some [12; 3; 4]%nat) = Some SCenter /\
  infer_location (4, 5)%nat true true true (Some [12; 5; 5]%nat) = Some SEdge1 /\
  infer_location (4, 5)%nat false true true (Some [3; 4]%nat) = None.
Proof. vm_compute. auto. Qed.

(** ** C67 *)
(** Array searches (and single points without the cache) that all ask for the
    same use of the mask answer as if each were the first call. *)
Theorem c67_history_partial {P} (peqb : list P -> list P -> bool) cells b qs :
  (forall x y, peqb x y = true <-> x = y) ->
  Forall (fun q => lq_mask q = b /\ (lq_one q = true -> lq_memo q = false)) qs ->
  snd (locate_run peqb cells (mkLs None []) qs) = map (pure_answer cells) qs.
Proof.
  intros Hp H. apply (lrun_sound peqb cells Hp b); auto.
  - split; [left; reflexivity|discriminate].
  - constructor.
Qed.
Print Assumptions c67_history_partial.

(** The cache never holds more than seven results. *)
Theorem c67_cache_bounded {P} (peqb : list P -> list P -> bool) cells qs :
  (length (ls_memo (fst (locate_run peqb cells (mkLs None []) qs))) <= 7)%nat.
Proof. apply lrun_bounded. cbn. lia. Qed.
Print Assumptions c67_cache_bounded.

Definition ex_peqb (a b : list nat) : bool := if list_eq_dec Nat.eq_dec a b then true else false.
Definition ex_cells (b : bool) (pts : list nat) : list (Z * Z) := map (fun p => if b then (-1, -1) else (Z.of_nat p, 0)) pts.
(** A single point gets an array if the same point was searched as a one-row
    array before; and the mask setting of the first call decides for all. *)
Theorem c67_history_refuted :
  (exists qs, Forall (fun q => lq_mask q = false) qs /\
     snd (locate_run ex_peqb ex_cells (mkLs None []) qs) <> map (pure_answer ex_cells) qs) /\
  (exists qs, Forall (fun q => lq_memo q = false) qs /\
     snd (locate_run ex_peqb ex_cells (mkLs None []) qs) <> map (pure_answer ex_cells) qs).
Proof.
  split.
  - exists [mkLq [5%nat] false true false; mkLq [5%nat] true true false]. split; [repeat constructor|]. vm_compute. discriminate.
  - exists [mkLq [5%nat] false false true; mkLq [5%nat] false false false]. split; [repeat constructor|]. vm_compute. discriminate.
Qed.
Print Assumptions c67_history_refuted.

Example c67_example :
  snd (locate_run ex_peqb ex_cells (mkLs None [])
    [mkLq [5; 6]%nat false true false; mkLq [5; 6]%nat false true false; mkLq [5%nat] true false false]) =
  [Ok (Many [Some (5, 0); Some (6, 0)]); Ok (Many [Some (5, 0); Some (6, 0)]); Ok (One (5, 0))].
Proof. vm_compute. reflexivity. Qed.
